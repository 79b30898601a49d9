(** What has been read from any text at all is a message that can be written. *)
From Verif.Model Require Import Prelude Utf8 Base64 Json Serde DidDoc Crypto Keys Effects Jws Jwe Message FromPrior Pack Routing Unpack.
From Verif.Spec Require Import Codec Small Events World Text Sane.
From Verif.Proofs Require Import Lib JsonP JsonDec SerdeP CodecP SmallP TreeP WorldP UnpackInv TextP ForwardP.
From Coq Require Import Lia.

Section Sane.
Context (C : crypto).
Let fp := fparse C.
Hypothesis FP : floats_stable fp.
Let FO : fparse_ok fp := floats_stable_ok fp FP.

(** ** Values *)
Lemma num_ok_json n : num_ok fp n -> json_number fp n.
Proof.
  intros (neg & i & fe & P & N). destruct n as [n|n|l]; cbn [print_number] in P.
  - rewrite print_N_pnum in P. injection P as <- <- <-. unfold num_of in N. destruct (print_N_ok n) as (_ & V & _). cbv zeta in V. rewrite V in N.
    destruct (N.ltb_spec n u64_lim); [exact H|]. destruct (fp _); discriminate.
  - rewrite print_neg_pnum in P. injection P as <- <- <-. unfold num_of in N. destruct (print_N_ok n) as (_ & V & _). cbv zeta in V. rewrite V in N.
    destruct ((n =? 0) || (i64_lim <? n))%N eqn:E; [destruct (fp _); discriminate|]. apply orb_false_iff in E as [E1 E2].
    apply N.eqb_neq in E1. apply N.ltb_ge in E2. split; [lia|exact E2].
  - unfold num_of in N.
    assert (K : forall lex, match fp lex with Some l => Ok (Float l) | None => Err Malformed end = Ok (Float l) -> json_number fp (Float l)).
    { intros lex. destruct (fp lex) eqn:E; [|discriminate]. intros Q. injection Q as <-. exact (FP _ _ E). }
    destruct fe; [|eauto]. destruct neg.
    + destruct (_ || _)%bool; [eauto|discriminate].
    + cbv zeta in N. destruct (dec_val i <? u64_lim)%N; [discriminate N|eauto].
Qed.
Lemma keys_sorted_names l : keys_sorted l -> sorted_names (map fst l).
Proof.
  induction l as [|[k v] l IH]; [constructor|]. destruct l as [|[k' v'] l]; [constructor|]. cbn [map fst] in *.
  intros H. destruct H as [H1 H2]. constructor; auto.
Qed.
Lemma val_json v : forall d, wfv fp v -> canon v -> depth v < S d -> json_value fp d v.
Proof.
  induction v as [| b | n | s | l IH | l IH] using value_ind'; intros d W K D.
  - constructor.
  - constructor.
  - constructor. now apply num_ok_json.
  - constructor. exact W.
  - apply depth_arr in D as [D1 D]. destruct d; [lia|]. constructor. apply wfv_arr in W. intros x I.
    rewrite Forall_forall in *. apply IH; auto. apply canon_arr in K. rewrite Forall_forall in K. now apply K.
  - apply depth_obj in D as [D1 D]. destruct d; [lia|]. apply wfv_obj in W. apply canon_obj in K as [K1 K2].
    constructor; [now apply keys_sorted_names|]. intros k x I. rewrite Forall_forall in *. split; [now apply (W (k, x))|].
    refine (IH (k, x) I d _ _ _); [exact (proj2 (W (k, x) I))|exact (K2 (k, x) I)|exact (D (k, x) I)].
Qed.

(** ** Readers *)
Definition gives {A} (f : raw -> res A) (P : A -> Prop) : Prop := forall r a, raw_ok r -> f r = Ok a -> P a.
Lemma gives_string : gives de_string text_ok.
Proof. intros r a R H. destruct r as [| | |e [j|s]|l tl|l tl|]; try discriminate. cbn in *. injection H as <-. exact R. Qed.
Lemma gives_u64 : gives (de_u64 fp) time_ok.
Proof.
  intros r a R H. destruct r as [| |neg i fe|e [j|s]|l tl|l tl|]; try discriminate. cbn in H.
  destruct (num_of fp neg i fe) as [n| |] eqn:E; try discriminate. destruct n as [n|n|x]; try discriminate. injection H as <-.
  apply num_of_ok in E; [|exact FO]. exact (num_ok_json _ E).
Qed.
Lemma gives_option {A} (f : raw -> res A) P : gives f P -> gives (de_option f) (opt P).
Proof.
  intros G r a R H x E. subst a. unfold de_option in H. destruct r; try discriminate; apply rbind_Ok in H as (y & H & E); injection E as ->; eauto.
Qed.
Lemma gives_vec {A} (f : raw -> res A) P : gives f P -> gives (de_vec f) (Forall P).
Proof.
  intros G r a R H. destruct r as [| |neg i fe|e [j|s]|l tl|l tl|]; try discriminate. cbn [de_vec] in H.
  apply rbind_Ok in H as (ys & H & E). destruct tl; [discriminate|]. cbn in E. injection E as <-. apply rmap_Ok in H.
  cbn in R. induction H as [|x y l ys X F IH]; constructor; destruct R as [R1 R2]; eauto.
Qed.
Lemma gives_value d : gives (to_value fp (S d)) (json_value fp d).
Proof.
  intros r a R H. apply to_value_wf in H; [|exact FO|exact R|lia]. destruct H as (W & K & D). now apply val_json.
Qed.
Lemma gives_once {A} (f : raw -> res A) P cur v cur' : gives f P -> raw_ok v -> once cur f v = Ok cur' -> opt P cur'.
Proof.
  intros G R H x E. subst cur'. unfold once in H. destruct cur; [discriminate|]. apply rbind_Ok in H as (a & H & E). injection E as ->. eauto.
Qed.
Lemma gives_elem {A} (f : raw -> res A) P l tl a l' : gives f P -> Forall raw_ok l -> elem f l tl = Ok (a, l') -> P a /\ Forall raw_ok l'.
Proof.
  intros G R H. destruct l as [|x l]; cbn in H; [destruct tl; discriminate|]. apply rbind_Ok in H as (y & H & E). injection E as -> ->.
  inversion_clear R. split; eauto.
Qed.
Lemma raws_Forall l : raws_ok l -> Forall raw_ok l.
Proof. induction l as [|x l IH]; cbn; [constructor|]. intros [H1 H2]. constructor; auto. Qed.
Lemma walk_sane {S} (step : S -> bytes -> raw -> res S) (I : S -> Prop) :
  (forall s k v s', utf8 k = true -> raw_ok v -> step s k v = Ok s' -> I s -> I s') ->
  forall l s tl s', mems_ok l -> walk step s l tl = Ok s' -> I s -> I s'.
Proof.
  intros K. induction l as [|[k v] l IH]; intros s tl s' M H Is; cbn in H.
  - destruct tl; cbn in H; [discriminate|]. injection H as <-. auto.
  - apply rbind_Ok in H as (k' & E & H). apply rbind_Ok in H as (s1 & H1 & H). cbn in M. destruct M as [[M0 M1] M2].
    destruct k as [j|k]; cbn in E; [discriminate|]. injection E as ->. eapply IH; eauto.
Qed.
Lemma opt_flat {A} (P : A -> Prop) (o : option (option A)) : opt (opt P) o -> opt P (flat o).
Proof. intros H. destruct o as [o|]; [now apply H|]. intros a E. discriminate. Qed.
Lemma opt_none {A} (P : A -> Prop) : opt P None.
Proof. intros a E. discriminate. Qed.
Lemma need_opt {A} (P : A -> Prop) o a : opt P o -> need o = Ok a -> P a.
Proof. intros H E. destruct o; [|discriminate]. injection E as <-. now apply H. Qed.

(** ** Attachments *)
Lemma sane_field k l o v : Forall (fun kv => utf8 (fst kv) = true /\ wfv fp (snd kv)) l -> Forall (fun kv : bytes * value => depth (snd kv) < 124) l ->
  c_field k l = Ok o -> o = Some v -> wfv fp v /\ depth v < 124.
Proof.
  intros W D F ->. unfold c_field in F. destruct (filter _ l) as [|[k0 w] [|]] eqn:E; try discriminate. injection F as ->.
  assert (IN : In (k0, v) l) by (apply (proj1 (filter_In (fun kv => beq (fst kv) (B k)) (k0, v) l)); rewrite E; now left).
  rewrite Forall_forall in W, D. apply W in IN as W1. apply D in IN. cbn in *. tauto.
Qed.
Lemma sane_c_string v s : wfv fp v -> c_string v = Ok s -> text_ok s.
Proof. intros W H. destruct v; try discriminate. injection H as <-. exact W. Qed.
Lemma sane_c_jws l j : Forall (fun kv => utf8 (fst kv) = true /\ wfv fp (snd kv)) l -> Forall (fun kv : bytes * value => depth (snd kv) < 124) l ->
  c_jws l = Ok j -> opt text_ok j.
Proof.
  intros W D H. unfold c_jws in H. apply rbind_Ok in H as (o & F & H). destruct o as [v|]; [|injection H as <-; apply opt_none].
  destruct (sane_field _ _ _ v W D F eq_refl) as [Wv _].
  destruct v; try discriminate; cbn in H; injection H as <-; [apply opt_none|]. intros a Ea. injection Ea as <-. exact Wv.
Qed.
Lemma gives_adata : gives (de_adata fp) (fun d => match d with
  | ABase64 s j => text_ok s /\ opt text_ok j
  | AJson v j => json_value fp 123 v /\ opt text_ok j
  | ALinks l h j => Forall text_ok l /\ text_ok h /\ opt text_ok j
  end).
Proof.
  intros r d R H. unfold de_adata in H. apply rbind_Ok in H as (c & Hc & H).
  apply to_content_wf in Hc as [W D]; auto; [|unfold max_depth; cbn; lia].
  destruct c as [| | | | |l]; try discriminate. cbn [de_adata_content] in H. apply wfv_obj in W.
  change (max_depth - 3) with 125 in D. apply depth_obj in D as [_ D].
  destruct (de_base64 l) as [d0| |] eqn:E1.
  { injection H as <-. unfold de_base64 in E1. apply rbind_Ok in E1 as (o & F & E1). apply rbind_Ok in E1 as (s & S & E1). apply rbind_Ok in E1 as (j & J & E1). injection E1 as <-.
    destruct o as [v|]; [|discriminate]. destruct (sane_field _ _ _ v W D F eq_refl) as [Wv _]. split; [exact (sane_c_string _ _ Wv S)|eapply sane_c_jws; eauto]. }
  all: destruct (de_json l) as [d0| |] eqn:E2.
  all: try (injection H as <-; unfold de_json in E2; apply rbind_Ok in E2 as (o & F & E2); apply rbind_Ok in E2 as (v & V & E2);
    apply rbind_Ok in E2 as (j & J & E2); injection E2 as <-; destruct o as [w|]; cbn in V; [|discriminate]; injection V as <-;
    destruct (sane_field _ _ _ w W D F eq_refl) as [Ww Dw]; split; [|eapply sane_c_jws; eauto];
    destruct (norm_wf _ _ Ww) as (W' & K' & D'); apply val_json; auto; lia).
  all: destruct (de_links l) as [d0| |] eqn:E3; try discriminate; injection H as <-; unfold de_links in E3;
    apply rbind_Ok in E3 as (o & F & E3); apply rbind_Ok in E3 as (ls & L & E3); apply rbind_Ok in E3 as (o' & F' & E3);
    apply rbind_Ok in E3 as (h & Hh & E3); apply rbind_Ok in E3 as (j & J & E3); injection E3 as <-;
    (destruct o as [v|]; [|discriminate]); (destruct o' as [v'|]; [|discriminate]);
    destruct (sane_field _ _ _ v W D F eq_refl) as [Wv _]; destruct (sane_field _ _ _ v' W D F' eq_refl) as [Wv' _];
    (split; [|split; [exact (sane_c_string _ _ Wv' Hh)|eapply sane_c_jws; eauto]]).
  all: destruct v as [| | | |vs|]; try discriminate; cbn in L; apply rmap_Ok in L; apply wfv_arr in Wv; clear - L Wv;
    induction L as [|x y xs ys X L IH]; constructor; inversion_clear Wv; eauto using sane_c_string.
Qed.
Definition asane (s : astate) : Prop :=
  opt (fun d => match d with
  | ABase64 s j => text_ok s /\ opt text_ok j
  | AJson v j => json_value fp 123 v /\ opt text_ok j
  | ALinks l h j => Forall text_ok l /\ text_ok h /\ opt text_ok j
  end) (as_data s)
  /\ opt (opt text_ok) (as_id s) /\ opt (opt text_ok) (as_description s) /\ opt (opt text_ok) (as_filename s)
  /\ opt (opt text_ok) (as_media_type s) /\ opt (opt text_ok) (as_format s)
  /\ opt (opt time_ok) (as_lastmod s) /\ opt (opt time_ok) (as_count s).
Ltac once_in S := apply rbind_Ok in S as (? & S & E); injection E as <-.
Lemma gives_attachment : gives (de_attachment fp) (attachment_fits C).
Proof.
  pose proof (gives_option _ _ gives_string) as GS. pose proof (gives_option _ _ gives_u64) as GU.
  intros r a R H. destruct r as [| | |e rd|l tl|l tl|]; try discriminate; [destruct rd; discriminate| |]; cbn [de_attachment] in H.
  - apply raws_Forall in R.
    apply rbind_Ok in H as ([x1 l1] & H1 & H). apply (gives_elem _ _ _ _ _ _ gives_adata R) in H1 as [P1 R1].
    apply rbind_Ok in H as ([x2 l2] & H1 & H). apply (gives_elem _ _ _ _ _ _ GS R1) in H1 as [P2 R2].
    apply rbind_Ok in H as ([x3 l3] & H1 & H). apply (gives_elem _ _ _ _ _ _ GS R2) in H1 as [P3 R3].
    apply rbind_Ok in H as ([x4 l4] & H1 & H). apply (gives_elem _ _ _ _ _ _ GS R3) in H1 as [P4 R4].
    apply rbind_Ok in H as ([x5 l5] & H1 & H). apply (gives_elem _ _ _ _ _ _ GS R4) in H1 as [P5 R5].
    apply rbind_Ok in H as ([x6 l6] & H1 & H). apply (gives_elem _ _ _ _ _ _ GS R5) in H1 as [P6 R6].
    apply rbind_Ok in H as ([x7 l7] & H1 & H). apply (gives_elem _ _ _ _ _ _ GU R6) in H1 as [P7 R7].
    apply rbind_Ok in H as ([x8 l8] & H1 & H). apply (gives_elem _ _ _ _ _ _ GU R7) in H1 as [P8 R8].
    apply rbind_Ok in H as (? & _ & H). injection H as <-. unfold attachment_fits; cbn. auto 10.
  - apply rbind_Ok in H as (s & H1 & H).
    apply (walk_sane _ asane) in H1; [|clear s H1 H|exact R|].
    + destruct s as [d i de f m fo lt b]. apply rbind_Ok in H as (d0 & H2 & H). injection H as <-.
      destruct H1 as (P1 & P2 & P3 & P4 & P5 & P6 & P7 & P8); cbn [as_data as_id as_description as_filename as_media_type as_format as_lastmod as_count] in *.
      unfold attachment_fits; cbn [att_data att_id att_description att_filename att_media_type att_format att_lastmod_time att_byte_count].
      split; [exact (need_opt _ _ _ P1 H2)|]. auto 10 using opt_flat.
    + intros [d i de f m fo lt b] k v s' _ Rv S (P1 & P2 & P3 & P4 & P5 & P6 & P7 & P8). unfold att_step in S.
      cbn [as_data as_id as_description as_filename as_media_type as_format as_lastmod as_count] in *.
      destruct (beq k (B "data")). { once_in S. repeat split; try assumption. exact (gives_once _ _ _ _ _ gives_adata Rv S). }
      do 5 (destruct (beq k _); [once_in S; repeat split; try assumption; exact (gives_once _ _ _ _ _ GS Rv S)|]).
      do 2 (destruct (beq k _); [once_in S; repeat split; try assumption; exact (gives_once _ _ _ _ _ GU Rv S)|]).
      once_in S. repeat split; assumption.
    + repeat split; apply opt_none.
Qed.

(** ** Messages *)
Definition msane (s : mstate) : Prop :=
  opt text_ok (m_id s) /\ opt text_ok (m_typ s) /\ opt text_ok (m_type s) /\ opt (json_value fp 126) (m_body s)
  /\ opt (opt text_ok) (m_from s) /\ opt (opt (Forall text_ok)) (m_to s)
  /\ opt (opt text_ok) (m_thid s) /\ opt (opt text_ok) (m_pthid s)
  /\ opt (opt time_ok) (m_created s) /\ opt (opt time_ok) (m_expires s)
  /\ opt (opt text_ok) (m_fp s) /\ opt (opt (Forall (attachment_fits C))) (m_att s)
  /\ NoDup (map fst (m_extra s))
  /\ (forall k v, In (k, v) (m_extra s) -> text_ok k /\ ~ In k standard_headers /\ json_value fp 126 v).
Lemma gives_message : gives (de_message fp) (message_sane C).
Proof.
  pose proof (gives_option _ _ gives_string) as GS. pose proof (gives_option _ _ gives_u64) as GU.
  intros r m R H. destruct r as [| | |e rd|l tl|l tl|]; try discriminate; [destruct rd; discriminate|]; cbn [de_message] in H.
  apply rbind_Ok in H as (s & H1 & H). apply (walk_sane _ msane) in H1; [|clear s H1 H|exact R|].
  - destruct s as [i ty t b f to th pt x c e p a]. unfold msg_finish in H.
    apply rbind_Ok in H as (i' & Hi & H). apply rbind_Ok in H as (t' & Ht & H). apply rbind_Ok in H as (b' & Hb & H). injection H as <-.
    destruct H1 as (P1 & P2 & P3 & P4 & P5 & P6 & P7 & P8 & P9 & P10 & P11 & P12 & P13 & P14); cbn [m_id m_typ m_type m_body m_from m_to m_thid m_pthid m_created m_expires m_fp m_att m_extra] in *.
    unfold message_sane; cbn [msg_id msg_typ msg_type msg_body msg_from msg_to msg_thid msg_pthid msg_created msg_expires msg_from_prior msg_attachments msg_extra].
    split; [exact (need_opt _ _ _ P1 Hi)|]. split; [destruct ty; [now apply P2|reflexivity]|]. split; [exact (need_opt _ _ _ P3 Ht)|].
    split; [exact (need_opt _ _ _ P4 Hb)|]. auto 20 using opt_flat.
  - intros [i ty t b f to th pt x c e p a] k v s' Uk Rv S (P1 & P2 & P3 & P4 & P5 & P6 & P7 & P8 & P9 & P10 & P11 & P12 & P13 & P14). unfold msg_step in S.
    cbn [m_id m_typ m_type m_body m_from m_to m_thid m_pthid m_created m_expires m_fp m_att m_extra] in *.
    Ltac close S G Rv := once_in S; unfold msane; cbn [m_id m_typ m_type m_body m_from m_to m_thid m_pthid m_created m_expires m_fp m_att m_extra];
       repeat (split; [first [assumption|exact (gives_once _ _ _ _ _ G Rv S)]|]); assumption.
    destruct (beq k (B "id")) eqn:K1. { close S gives_string Rv. }
    destruct (beq k (B "typ")) eqn:K2. { close S gives_string Rv. }
    destruct (beq k (B "type")) eqn:K3. { close S gives_string Rv. }
    destruct (beq k (B "body")) eqn:K4. { close S (gives_value 126) Rv. }
    destruct (beq k (B "from")) eqn:K5. { close S GS Rv. }
    destruct (beq k (B "to")) eqn:K6. { close S (gives_option _ _ (gives_vec _ _ gives_string)) Rv. }
    destruct (beq k (B "thid")) eqn:K7. { close S GS Rv. }
    destruct (beq k (B "pthid")) eqn:K8. { close S GS Rv. }
    destruct (beq k (B "created_time")) eqn:K9. { close S GU Rv. }
    destruct (beq k (B "expires_time")) eqn:K10. { close S GU Rv. }
    destruct (beq k (B "from_prior")) eqn:K11. { close S GS Rv. }
    destruct (beq k (B "attachments")) eqn:K12. { close S (gives_option _ _ (gives_vec _ _ gives_attachment)) Rv. }
    apply rbind_Ok in S as (w & S & E). injection E as <-.
    unfold msane; cbn [m_id m_typ m_type m_body m_from m_to m_thid m_pthid m_created m_expires m_fp m_att m_extra].
    do 12 (split; [assumption|]). split; [now apply amap_insert_NoDup|].
    intros k' v' I. apply amap_insert_In in I as [I|I]; [injection I as -> ->|now apply P14]. split; [exact Uk|]. split; [|exact (gives_value 126 _ _ Rv S)].
    intros N. unfold standard_headers in N. cbn [map In] in N.
    assert (Q : forall n, beq k n = false -> n <> k) by (intros n E <-; now rewrite beq_refl in E).
    repeat (destruct N as [N|N]; [revert N; now apply Q|]). exact N.
  - unfold msane, m_init; cbn [m_id m_typ m_type m_body m_from m_to m_thid m_pthid m_created m_expires m_fp m_att m_extra map]. do 12 (split; [apply opt_none|]). split; [apply NoDup_nil|]. intros k v I. destruct I.
Qed.

Lemma from_json_reads {A} (f : raw -> res A) P t a : gives f P -> from_json f t = Ok a -> P a.
Proof.
  intros G H. unfold from_json in H. pose proof (parse_ok t) as R. destruct (parse t) as [r e]. cbn in R.
  apply rbind_Ok in H as (b & H & E). destruct e; [discriminate|]. injection E as ->. exact (G _ _ R H).
Qed.
Lemma read_sane t m : message_from_str fp t = Ok m -> message_sane C m.
Proof. exact (from_json_reads _ _ _ _ gives_message). Qed.

(** ** Rotation claims *)
Definition psane (s : fpstate) : Prop :=
  opt text_ok (fs_iss s) /\ opt text_ok (fs_sub s) /\ opt (opt text_ok) (fs_aud s) /\ opt (opt text_ok) (fs_jti s)
  /\ opt (opt time_ok) (fs_exp s) /\ opt (opt time_ok) (fs_nbf s) /\ opt (opt time_ok) (fs_iat s).
Lemma gives_prior : gives (de_from_prior C) prior_fits.
Proof.
  pose proof (gives_option _ _ gives_string) as GS. pose proof (gives_option _ _ gives_u64) as GU.
  intros r p R H. destruct r as [| | |e rd|l tl|l tl|]; try discriminate; [destruct rd; discriminate| |]; cbn [de_from_prior] in H.
  - apply raws_Forall in R.
    apply rbind_Ok in H as ([x1 l1] & H1 & H). apply (gives_elem _ _ _ _ _ _ gives_string R) in H1 as [P1 R1].
    apply rbind_Ok in H as ([x2 l2] & H1 & H). apply (gives_elem _ _ _ _ _ _ gives_string R1) in H1 as [P2 R2].
    apply rbind_Ok in H as ([x3 l3] & H1 & H). apply (gives_elem _ _ _ _ _ _ GS R2) in H1 as [P3 R3].
    apply rbind_Ok in H as ([x4 l4] & H1 & H). apply (gives_elem _ _ _ _ _ _ GU R3) in H1 as [P4 R4].
    apply rbind_Ok in H as ([x5 l5] & H1 & H). apply (gives_elem _ _ _ _ _ _ GU R4) in H1 as [P5 R5].
    apply rbind_Ok in H as ([x6 l6] & H1 & H). apply (gives_elem _ _ _ _ _ _ GU R5) in H1 as [P6 R6].
    apply rbind_Ok in H as ([x7 l7] & H1 & H). apply (gives_elem _ _ _ _ _ _ GS R6) in H1 as [P7 R7].
    apply rbind_Ok in H as (? & _ & H). injection H as <-. unfold prior_fits; cbn. auto 10.
  - apply rbind_Ok in H as (s & H1 & H).
    apply (walk_sane _ psane) in H1; [|clear s H1 H|exact R|].
    + destruct s as [i su a e n t j]. apply rbind_Ok in H as (i' & Hi & H). apply rbind_Ok in H as (u' & Hu & H). injection H as <-.
      destruct H1 as (P1 & P2 & P3 & P4 & P5 & P6 & P7); cbn [fs_iss fs_sub fs_aud fs_exp fs_nbf fs_iat fs_jti] in *.
      unfold prior_fits; cbn [fp_iss fp_sub fp_aud fp_exp fp_nbf fp_iat fp_jti].
      split; [exact (need_opt _ _ _ P1 Hi)|]. split; [exact (need_opt _ _ _ P2 Hu)|]. auto 10 using opt_flat.
    + intros [i su a e n t j] k v s' _ Rv S (P1 & P2 & P3 & P4 & P5 & P6 & P7). unfold fp_step in S.
      cbn [fs_iss fs_sub fs_aud fs_exp fs_nbf fs_iat fs_jti] in *.
      do 2 (destruct (beq k _); [once_in S; repeat split; try assumption; exact (gives_once _ _ _ _ _ gives_string Rv S)|]).
      destruct (beq k _); [once_in S; repeat split; try assumption; exact (gives_once _ _ _ _ _ GS Rv S)|].
      do 3 (destruct (beq k _); [once_in S; repeat split; try assumption; exact (gives_once _ _ _ _ _ GU Rv S)|]).
      destruct (beq k _); [once_in S; repeat split; try assumption; exact (gives_once _ _ _ _ _ GS Rv S)|].
      once_in S. repeat split; assumption.
    + repeat split; apply opt_none.
Qed.
Lemma prior_sane t p : from_json (de_from_prior C) t = Ok p -> prior_fits p.
Proof. exact (from_json_reads _ _ _ _ gives_prior). Qed.

(** ** Unpacked messages *)
Lemma received_sane fuel text o tr m md : exec (unpack C fuel text o) tr (Some (Ok (m, md))) ->
  message_sane C m /\ msg_typ m = B "application/didcomm-plain+json" /\ opt prior_fits (um_from_prior md).
Proof.
  intros H. apply unpack_inv in H as (rew & anon & auth & sign & prior & t1 & t2 & t3 & O & A & Si & M & T & P & ->).
  split; [exact (read_sane _ _ M)|]. split; [exact T|]. intros p E. cbn in E.
  destruct prior as [[p' kid]|]; [|discriminate]. injection E as ->. destruct P as (jwt & _ & P).
  destruct P as (hd & pl & sg & hb & h & did & doc & ka & k & st & sa & s & payload & _ & _ & _ & _ & _ & _ & _ & _ & _ & _ & _ & _ & _ & _ & _ & _ & P).
  exact (prior_sane _ _ P).
Qed.
Lemma sane_fits m : message_sane C m -> msg_typ m = B "application/didcomm-plain+json" -> no_imitation m -> message_fits C m.
Proof.
  intros (H1 & H2 & H3 & H4 & H5 & H6 & H7 & H8 & H9 & H10 & H11 & H12 & H13 & H14) T [N1 N2].
  exact (conj H1 (conj T (conj H3 (conj H4 (conj H5 (conj H6 (conj H7 (conj H8 (conj H9 (conj H10 (conj H11 (conj H12 (conj H13 (conj H14 (conj N1 N2))))))))))))))).
Qed.
Lemma sane_ok m : message_sane C m -> msg_ok fp m.
Proof.
  unfold message_sane, msg_ok. intros (H1 & H2 & H3 & H4 & H5 & H6 & H7 & H8 & H9 & H10 & H11 & H12 & H13 & H14).
  assert (E : Forall (fun kv => utf8 (fst kv) = true /\ ~ In (fst kv) reserved /\ val_ok fp 127 (snd kv)) (msg_extra m)).
  { apply Forall_forall. intros [k v] I. destruct (H14 _ _ I) as (? & ? & J). apply (json_val_ok C 126) in J. auto. }
  assert (A : match msg_attachments m with Some l => Forall (att_ok fp) l | None => True end).
  { destruct (msg_attachments m) as [l|]; auto. specialize (H12 l eq_refl). eapply Forall_impl; [|exact H12]. apply attachment_fits_ok. }
  assert (O : match msg_to m with Some l => Forall (fun s => utf8 s = true) l | None => True end).
  { destruct (msg_to m); [now apply H6|exact I]. }
  apply (json_val_ok C 126) in H4.
  exact (conj H1 (conj H2 (conj H3 (conj H4 (conj (opt_ostr _ H5) (conj O (conj (opt_ostr _ H7) (conj (opt_ostr _ H8)
    (conj (conj H13 E) (conj (opt_u64 _ H9) (conj (opt_u64 _ H10) (conj (opt_ostr _ H11) A)))))))))))).
Qed.
Lemma sane_reread m : message_sane C m -> message_from_str fp (plain_text m) = Ok m.
Proof. intros H. rewrite <- message_written. now apply message_roundtrip, sane_ok. Qed.
End Sane.
