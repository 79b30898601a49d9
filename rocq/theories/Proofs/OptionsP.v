(** Options objects are read by the names of their members. *)
From Verif.Model Require Import Prelude Utf8 Base64 Json Serde DidDoc Crypto Keys Effects Jws Jwe Message FromPrior Pack Routing Unpack Bindings DocJson.
From Verif.Spec Require Import Codec Small Names World Wire Doc Options.
From Verif.Proofs Require Import Lib JsonP JsonDec SerdeP Errs RoundP SigningP WorldP WireP ReadP WireU DocP DocE.

Section OptionsP.
Context (fp : bytes -> option bytes).
Notation reads := (reads fp).
Notation mems_ok := (mems_ok fp).
Notation slot' f := (slot (fun v => f (raw_of v))).

Lemma reads_bool d : reads d de_bool bool_read.
Proof.
  intros w T a. apply wf_of in T. unfold bool_read. destruct w; cbn [raw_of]; try (split; discriminate).
  - cbn. split; [intros H; injection H as <-; auto|congruence].
  - destruct (num_is fp n T) as (neg & i & fe & -> & _). split; discriminate.
Qed.
Lemma reads_unit {A} (f : bytes -> option A) names d : (forall n t, In (n, t) names -> f (B n) = Some t) ->
  (forall s t, f s = Some t -> exists n, In (n, t) names /\ s = B n) -> reads d (de_unit_enum f) (unit_read names).
Proof.
  intros F G w T t. unfold unit_read. pose proof (wf_of _ _ _ T) as W. destruct w as [|b|n|s|l|l]; try (split; [discriminate|intros (n' & _ & [E|E]); discriminate]).
  - change (raw_of (VNum n)) with (num_raw n). destruct (num_is fp n W) as (? & ? & ? & E & _). rewrite E.
    split; [discriminate|intros (n' & _ & [X|X]); discriminate].
  - cbn [raw_of de_unit_enum rd_str rbind]. split.
    + destruct (f s) as [t'|] eqn:E; [|discriminate]. intros H. injection H as <-. apply G in E as (n & I & ->). eauto.
    + intros (n & I & [E|E]); [|discriminate]. injection E as ->. now rewrite (F n t).
  - rewrite raw_of_obj. destruct l as [|[k v] l]; [split; [discriminate|intros (n & _ & [E|E]); discriminate]|].
    cbn [mems map fst snd de_unit_enum rd_str rbind]. split.
    + destruct (f k) as [t'|] eqn:E; [|discriminate]. cbn [ok_or rbind]. intros H.
      assert (V : v = VNull).
      { apply (raw_null fp); [|destruct (raw_of v) as [|?|? ? ?|? [?|?]|? ?|? ?|? ?] eqn:R; auto; exfalso; cbn in H; discriminate]. apply wfv_obj in W. inversion W; subst. tauto. }
      subst v. cbn [raw_of] in H. destruct l; [|discriminate]. injection H as <-. apply G in E as (n & I & ->). eauto.
    + intros (n & I & [E|E]); [discriminate|]. injection E as -> -> ->. rewrite (F n t) by auto. reflexivity.
Qed.
Lemma reads_auth d : reads d (de_unit_enum auth_alg_of) (unit_read auth_names).
Proof.
  apply reads_unit.
  - cbn [auth_names In]. intros n t H. repeat destruct H as [H|H]; try (injection H as <- <-; reflexivity). destruct H.
  - unfold auth_alg_of. intros s t H.
    repeat match type of H with context [if beq s (B ?x) then _ else _] => let E := fresh in
      destruct (beq s (B x)) eqn:E; [apply beq_eq in E; subst s; injection H as <-; exists x; split; [cbn; tauto|reflexivity]|clear E] end. discriminate.
Qed.
Lemma reads_anon d : reads d (de_unit_enum anon_alg_of) (unit_read anon_names).
Proof.
  apply reads_unit.
  - cbn [anon_names In]. intros n t H. repeat destruct H as [H|H]; try (injection H as <- <-; reflexivity). destruct H.
  - unfold anon_alg_of. intros s t H.
    repeat match type of H with context [if beq s (B ?x) then _ else _] => let E := fresh in
      destruct (beq s (B x)) eqn:E; [apply beq_eq in E; subst s; injection H as <-; exists x; split; [cbn; tauto|reflexivity]|clear E] end. discriminate.
Qed.

(** Headers. *)
Fixpoint hmap (l : members) (x : list (bytes * value)) : list (bytes * value) :=
  match l with [] => x | (k, v) :: l' => hmap l' (amap_insert k (norm v) x) end.
Lemma hmap_get l k : forall x,
  (none l k -> amap_get k (hmap l x) = amap_get k x) /\ (forall v, last_of l k v -> amap_get k (hmap l x) = Some (norm v)).
Proof.
  induction l as [|[n v] l IH]; intros x; cbn [hmap].
  - split; auto. intros v H. now apply last_nil in H.
  - destruct (IH (amap_insert n (norm v) x)) as [A B]. clear IH. split.
    + intros H. apply none_cons in H as [H1 H2]. rewrite A by auto. rewrite amap_get_insert. destruct (beq k n) eqn:E; auto. apply beq_eq in E. congruence.
    + intros w H. apply last_cons in H as [H|(-> & -> & NO)]; auto. rewrite A by auto. rewrite amap_get_insert, beq_refl. reflexivity.
Qed.
Lemma hmap_read l : headers_read (VObj l) (hmap l []).
Proof.
  exists l. split; auto. intros k. destruct (none_dec l k) as [NO|NO].
  - rewrite (proj1 (hmap_get l k [])) by auto. exact NO.
  - apply last_some in NO as [w NO]. rewrite (proj2 (hmap_get l k []) w) by auto. exists w. split; auto. now apply value_read_norm.
Qed.
Lemma hmap_same l h : headers_read (VObj l) h -> same_headers h (hmap l []).
Proof.
  intros (l' & E & X) k. injection E as <-. specialize (X k). destruct (amap_get k h) as [w|].
  - destruct X as (v & LA & V). apply value_read_norm in V. subst w. now rewrite (proj2 (hmap_get l k []) v).
  - now rewrite (proj1 (hmap_get l k [])).
Qed.
Definition headers_exact (w : value) (h : list (bytes * value)) : Prop := exists l, w = VObj l /\ h = hmap l [].
Lemma reads_headers d D : d < D -> reads (S d) (de_headers fp D) headers_exact.
Proof.
  intros L w T h. unfold headers_exact. destruct w as [|b|n|s|l|l]; try (split; [discriminate|intros (? & E & _); discriminate]).
  - change (raw_of (VNum n)) with (num_raw n). destruct (num_is fp n (wf_of _ _ _ T)) as (? & ? & ? & E & _). rewrite E.
    split; [discriminate|intros (? & X & _); discriminate].
  - pose proof (tree_obj fp _ _ T) as M. clear T. rewrite raw_of_obj. cbn [de_headers].
    assert (W : forall x, walk (fun m k v => let? v := to_value fp D v in Ok (amap_insert k v m)) x (mems l) None = Ok (hmap l x)).
    { clear h. induction l as [|[k v] l IH]; intros x; [reflexivity|]. pose proof (M k v (or_introl eq_refl)) as [_ J]. apply tree_wf in J as [W DD].
      assert (M' : mems_ok d l) by (intros k' x' I; apply M; now right).
      cbn [walk mems map fst snd rd_str rbind]. change (map _ l) with (mems l). unfold to_value at 1. rewrite (to_content_raw fp) by (auto; lia).
      cbn [rbind hmap]. now apply IH. }
    rewrite W. split; [intros H; injection H as <-; eauto|intros (l' & E & ->); now injection E as <-].
Qed.

Lemma default_obj {A} d (f : raw -> res A) rd l k o a : reads d f rd -> mems_ok d l ->
  ((exists o', slot' f (B k) l None o' /\ or_default o o' = a) <-> default rd (VObj l) k o a).
Proof.
  intros R M. unfold default. rewrite <- (req_obj fp d f rd 0 l 0 k a R M), missing_obj. split.
  - intros ([o'|] & S & <-); [now left|right]. split; auto. destruct S as [[S _]|(_ & ? & ? & _ & _ & E)]; [auto|discriminate].
  - intros [S|[N ->]]; [exists (Some a); auto|exists None]. split; auto. left. auto.
Qed.

Hint Resolve reads_string reads_bool reads_auth reads_anon : reads.
Ltac walking M l Hst :=
  let IH := fresh "IH" in let k := fresh "k" in let v := fresh "v" in let W := fresh "W" in
  induction l as [|[k v] l IH]; intros;
  [ cbn [walk mems map close]; rewrite !slot_nil; split;
    [ let H := fresh in intros H; injection H; intros; subst; repeat split; reflexivity
    | intros; repeat match goal with H : _ /\ _ |- _ => destruct H end; subst; reflexivity ]
  | apply mems_tail in M as [W M]; specialize (IH M);
    cbn [walk mems map fst snd rd_str rbind]; change (map _ l) with (mems l); rewrite Hst; cbv iota beta;
    repeat match goal with |- context [if beq k (B ?s) then _ else _] =>
      let E := fresh "E" in destruct (beq k (B s)) eqn:E; [apply beq_eq in E; subst k|apply beq_neq in E] end;
    repeat first [rewrite slot_hit | rewrite slot_miss by first [assumption | easy]];
    [ .. | rewrite (skip_raw fp) by assumption; cbn [rbind]; apply IH ];
    match goal with |- context [once ?o ?f ?x] => destruct (once o f x) as [?| |] end;
    cbn [rbind]; rewrite ?ex_ok, ?ex_err, ?ex_panic; first [apply IH|split; [discriminate|tauto]] ].
Ltac step_of st Hst :=
  match goal with |- context [walk ?f ?s0 (mems _) None] => set (st := f);
    assert (Hst : forall s k v, st s k v = ltac:(let t := eval cbv beta in (f s k v) in exact t)) by reflexivity; clearbody st end.

Lemma unpack_options_iff d l o : json_tree fp (S d) (VObj l) -> (de_unpack_options (raw_of (VObj l)) = Ok o <-> unpack_options_read (VObj l) o).
Proof.
  intros T. pose proof (tree_obj fp _ _ T) as M. clear T. rewrite raw_of_obj. unfold de_unpack_options, unpack_options_read. step_of st Hst. rewrite ok_bind.
  assert (W : forall o1 o2 o1' o2', walk st (o1, o2) (mems l) None = Ok (o1', o2')
    <-> slot' de_bool (B "expect_decrypt_by_all_keys") l o1 o1' /\ slot' de_bool (B "unwrap_re_wrapping_forward") l o2 o2') by walking M l Hst.
  clear Hst. rewrite <- !(default_obj d de_bool) by (auto using reads_bool). destruct o as [a u]. cbn [uo_all_keys uo_unwrap]. split.
  - intros ([o1 o2] & H & G). apply W in H. destruct H as [H1 H2]. injection G as <- <-. split; eauto.
  - intros [(o1 & H1 & <-) (o2 & H2 & <-)]. exists (o1, o2). split; [apply W; auto|reflexivity].
Qed.
Definition pack_exact (w : value) (o : pack_options) : Prop :=
  default bool_read w "protect_sender" false (po_protect_sender o)
  /\ default bool_read w "forward" true (po_forward o)
  /\ maybe headers_exact 0 w 0 "forward_headers" (po_forward_headers o)
  /\ maybe str_read 0 w 0 "messaging_service" (po_messaging_service o)
  /\ default (unit_read auth_names) w "enc_alg_auth" AuthA256cbcHs512 (po_enc_alg_auth o)
  /\ default (unit_read anon_names) w "enc_alg_anon" AnonXc20p (po_enc_alg_anon o).
Lemma pack_options_iff l o : json_tree fp 127 (VObj l) -> (de_pack_options fp (raw_of (VObj l)) = Ok o <-> pack_exact (VObj l) o).
Proof.
  intros T. pose proof (tree_obj fp _ _ T) as M. clear T.
  assert (RH : reads 126 (de_headers fp (max_depth - 2)) headers_exact) by (apply reads_headers; change (max_depth - 2) with 126; lia).
  set (d := 126) in *. clearbody d.
  rewrite raw_of_obj. unfold de_pack_options, pack_exact. step_of st Hst. rewrite ok_bind.
  assert (W : forall o1 o2 o3 o4 o5 o6 o1' o2' o3' o4' o5' o6', walk st (o1, o2, o3, o4, o5, o6) (mems l) None = Ok (o1', o2', o3', o4', o5', o6')
    <-> slot' de_bool (B "protect_sender") l o1 o1' /\ slot' de_bool (B "forward") l o2 o2' /\ slot' (de_option (de_headers fp (max_depth - 2))) (B "forward_headers") l o3 o3'
      /\ slot' (de_option de_string) (B "messaging_service") l o4 o4' /\ slot' (de_unit_enum auth_alg_of) (B "enc_alg_auth") l o5 o5'
      /\ slot' (de_unit_enum anon_alg_of) (B "enc_alg_anon") l o6 o6') by walking M l Hst.
  clear Hst. rewrite <- !(default_obj d de_bool) by (auto using reads_bool). rewrite <- (default_obj d (de_unit_enum auth_alg_of)) by (auto using reads_auth).
  rewrite <- (default_obj d (de_unit_enum anon_alg_of)) by (auto using reads_anon).
  rewrite <- (maybe_obj fp d (de_headers fp (max_depth - 2))) by auto. rewrite <- (maybe_obj fp d de_string) by (auto using reads_string).
  destruct o as [a b c e f g]. cbn [po_protect_sender po_forward po_forward_headers po_messaging_service po_enc_alg_auth po_enc_alg_anon]. split.
  - intros ([[[[[o1 o2] o3] o4] o5] o6] & H & G). apply W in H. destruct H as (H1 & H2 & H3 & H4 & H5 & H6). injection G as <- <- <- <- <- <-. repeat split; eauto.
  - intros ((o1 & H1 & <-) & (o2 & H2 & <-) & (o3 & H3 & <-) & (o4 & H4 & <-) & (o5 & H5 & <-) & (o6 & H6 & <-)).
    exists (o1, o2, o3, o4, o5, o6). split; [apply W; auto 9|reflexivity].
Qed.
Lemma exact_read w o : pack_exact w o -> pack_options_read w o.
Proof.
  intros (H1 & H2 & H3 & H4 & H5 & H6). repeat split; auto. destruct (po_forward_headers o) as [h|]; auto.
  destruct H3 as (v & P & N & l & -> & ->). exists (VObj l). split; auto. split; auto. apply hmap_read.
Qed.
Lemma read_exact w o : pack_options_read w o -> exists o', pack_exact w o' /\ same_pack_options o o'.
Proof.
  intros (H1 & H2 & H3 & H4 & H5 & H6). destruct o as [a b [h|] e f g]; cbn [po_protect_sender po_forward po_forward_headers po_messaging_service po_enc_alg_auth po_enc_alg_anon] in *.
  - destruct H3 as (v & P & N & R). pose proof R as (l & -> & _). exists (mkPO a b (Some (hmap l [])) e f g). split.
    + repeat split; auto. exists (VObj l). repeat split; auto. now exists l.
    + repeat split; auto. cbn. now apply hmap_same.
  - exists (mkPO a b None e f g). split; [repeat split; auto|]. repeat split; auto.
Qed.
End OptionsP.

(** No other errors. *)
Section OptE.
Variable K : errkind -> Prop.
Variable J : jerr -> Prop.
Hypothesis KM : K Malformed.
Hypothesis KJ : forall e, J e -> K (jkind e).
Lemma errs_elem_or {A X} (d : A) (f : raw -> res A) l tl (g : A * list raw -> res X) : (forall x, clean J x -> errs K (f x)) ->
  Forall (clean J) l -> clean_tl J tl ->
  (forall a l', Forall (clean J) l' -> errs K (g (a, l'))) -> errs K (rbind (elem_or d f l tl) g).
Proof.
  intros H C T G. unfold elem_or. destruct l, tl; cbn [rbind]; auto; now apply (errs_elem K J KM KJ).
Qed.
Ltac e := repeat (intros; cbv beta iota; lazymatch goal with
  | |- errs K (Ok _) => exact I
  | |- errs K (Err Malformed) => exact KM
  | |- errs K (rbind (elem _ _ _) _) => apply (errs_elem K J KM KJ); auto
  | |- errs K (rbind (elem_or _ _ _ _) _) => apply errs_elem_or; auto
  | |- errs K (rbind _ _) => apply (errs_bind K)
  | |- errs K (ok_or _ _) => apply (errs_ok_or K); auto
  | |- errs K (rd_str _) => apply (errs_rd K J KJ); auto
  | |- errs K (close _ _) => apply (errs_close K J KJ); auto
  | |- errs K (skip _) => apply (errs_skip K J KJ); auto
  | |- errs K (once _ _ _) => apply (errs_once K J KM); auto
  | |- errs K (de_string _) => apply (errs_string K J KM KJ); auto
  | |- errs K (de_bool _) => apply (errs_bool K J KM KJ); auto
  | |- errs K (de_option _ _) => apply (errs_option K J); auto
  | |- errs K (to_value _ _ _) => apply (errs_value K J KM KJ); auto
  | |- errs K (end_seq _ _) => apply (errs_end K J KM KJ); auto
  | |- errs K (mismatch _) => apply (errs_mismatch K J KM KJ); auto
  | |- errs K (walk _ _ _ _) => apply (errs_walk K J KJ); auto
  | |- errs K (match ?x with _ => _ end) => destruct x
  | |- errs K ((match ?x with _ => _ end) _ _) => destruct x
  | |- errs K _ => progress auto
  end).
Lemma errs_unit {A} (f : bytes -> option A) : forall r, clean J r -> errs K (de_unit_enum f r).
Proof.
  intros r C. unfold de_unit_enum. destruct r; try now apply (errs_mismatch K J KM KJ).
  - cbn in C. e.
  - apply clean_obj in C as [C1 C2]. destruct l as [|[k v] l].
    + destruct tail; [apply KJ; exact C2|]. exact KM.
    + inversion C1 as [|? ? [D1 D2] D3]; subst. cbn in D1, D2. e.
Qed.
Lemma errs_headers fp D : forall r, clean J r -> errs K (de_headers fp D r).
Proof. intros r C. unfold de_headers. destruct r; try now apply (errs_mismatch K J KM KJ). apply clean_obj in C as [? ?]. e. Qed.
Hint Resolve errs_unit errs_headers : core.
Lemma errs_uopts : forall r, clean J r -> errs K (de_unpack_options r).
Proof. intros r C. unfold de_unpack_options. destruct r; try (now apply (errs_mismatch K J KM KJ)); [apply clean_arr in C as [? ?]|apply clean_obj in C as [? ?]]; e. Qed.
Lemma errs_popts fp : forall r, clean J r -> errs K (de_pack_options fp r).
Proof. intros r C. unfold de_pack_options. destruct r; try (now apply (errs_mismatch K J KM KJ)); [apply clean_arr in C as [? ?]|apply clean_obj in C as [? ?]]; e. Qed.
End OptE.

Lemma kind_or {A} (f : raw -> res A) s : (forall r, clean (fun _ => True) r -> errs json_kind (f r)) ->
  kind Malformed (from_json f s) = Err Malformed \/ exists a, kind Malformed (from_json f s) = Ok a /\ from_json f s = Ok a.
Proof. intros H. apply kind_total. now apply from_json_errs. Qed.
Lemma kind_ok {A} (r : res A) k a : kind k r = Ok a <-> r = Ok a.
Proof. destruct r; cbn; split; auto; discriminate. Qed.
Lemma uopts_total s : js_unpack_options s = Err Malformed \/ exists o, js_unpack_options s = Ok o.
Proof. unfold js_unpack_options. destruct (kind_or de_unpack_options s) as [E|(o & E & _)]; eauto. apply errs_uopts; [exact jm|exact jkind_ok]. Qed.
Lemma popts_total fp s : js_pack_options fp s = Err Malformed \/ exists o, js_pack_options fp s = Ok o.
Proof. unfold js_pack_options. destruct (kind_or (de_pack_options fp) s) as [E|(o & E & _)]; eauto. apply errs_popts; [exact jm|exact jkind_ok]. Qed.
Lemma uopts_print fp l o : json_tree fp 127 (VObj l) -> (js_unpack_options (print (VObj l)) = Ok o <-> unpack_options_read (VObj l) o).
Proof.
  intros T. unfold js_unpack_options. rewrite kind_ok, from_json_print by (eapply wfv_printable, wf_of; eauto). eapply unpack_options_iff; eauto.
Qed.
Lemma popts_print fp l o : json_tree fp 127 (VObj l) -> (js_pack_options fp (print (VObj l)) = Ok o <-> pack_exact (VObj l) o).
Proof.
  intros T. unfold js_pack_options. rewrite kind_ok, from_json_print by (eapply wfv_printable, wf_of; eauto). eapply pack_options_iff; eauto.
Qed.

Lemma js_wrap_exec C msg h to ks alg tr x : exec (js_wrap_in_forward C msg h to ks alg) tr x ->
  (exists h' ks' a, from_json (de_headers (fparse C) (max_depth - 1)) h = Ok h' /\ from_json (de_vec de_string) ks = Ok ks'
     /\ from_json (de_unit_enum anon_alg_of) alg = Ok a /\ exec (wrap_in_forward C msg (Some h') to ks' a) tr x)
  \/ ((forall h', from_json (de_headers (fparse C) (max_depth - 1)) h <> Ok h') \/ (forall ks', from_json (de_vec de_string) ks <> Ok ks')
      \/ (forall a, from_json (de_unit_enum anon_alg_of) alg <> Ok a)) /\ tr = [] /\ x = Err Malformed.
Proof.
  unfold js_wrap_in_forward. intros H. apply exec_Ret_Err in H.
  destruct (kind_or (de_headers (fparse C) (max_depth - 1)) h) as [E|(h' & E & E1)]; [apply errs_headers; [exact jm|exact jkind_ok]| |]; rewrite E in H.
  { right. split; [|exact H]. left. intros h' X. apply (kind_ok _ Malformed) in X. congruence. }
  apply exec_Ret_Err in H.
  destruct (kind_or (de_vec de_string) ks) as [F|(ks' & F & F1)]; [intros r Cr; apply (errs_vec json_kind (fun _ => True) jm jkind_ok); auto; intros; now apply (errs_string json_kind (fun _ => True) jm jkind_ok)| |]; rewrite F in H.
  { right. split; [|exact H]. right. left. intros k' X. apply (kind_ok _ Malformed) in X. congruence. }
  apply exec_Ret_Err in H.
  destruct (kind_or (de_unit_enum anon_alg_of) alg) as [G|(a & G & G1)]; [apply errs_unit; [exact jm|exact jkind_ok]| |]; rewrite G in H.
  { right. split; [|exact H]. right. right. intros a X. apply (kind_ok _ Malformed) in X. congruence. }
  left. exists h', ks', a. auto.
Qed.
Lemma wrap_read C msg vh to vk va tr x : json_tree (fparse C) 127 vh -> json_tree (fparse C) 127 vk -> json_tree (fparse C) 127 va ->
  exec (js_wrap_in_forward C msg (print vh) to (print vk) (print va)) tr x ->
  (exists h ks a, headers_read vh h /\ vk = VArr (map VStr ks) /\ unit_read anon_names va a /\ exec (wrap_in_forward C msg (Some h) to ks a) tr x)
  \/ (~ (exists h ks a, headers_read vh h /\ vk = VArr (map VStr ks) /\ unit_read anon_names va a) /\ tr = [] /\ x = Err Malformed).
Proof.
  intros Th Tk Ta H. apply js_wrap_exec in H.
  assert (RH : reads (fparse C) 127 (de_headers (fparse C) (max_depth - 1)) headers_exact) by (apply reads_headers; change (max_depth - 1) with 127; lia).
  assert (RK : reads (fparse C) 127 (de_vec de_string) (list_read str_read)) by apply (reads_vec _ 126), reads_string.
  pose proof (fun a => read_as _ _ _ _ vh a RH Th) as H1. pose proof (fun a => read_as _ _ _ _ vk a RK Tk) as H2.
  pose proof (fun a => read_as _ _ _ _ va a (reads_anon _ _) Ta) as H3.
  assert (LK : forall ks, list_read str_read vk ks <-> vk = VArr (map VStr ks)).
  { intros ks. split.
    - intros (vs & -> & F). f_equal. clear - F. induction F as [|? ? ? ? E F IH]; [reflexivity|]. cbn. now rewrite E, IH.
    - intros ->. exists (map VStr ks). split; auto. clear. induction ks; constructor; auto. reflexivity. }
  destruct H as [(h & ks & a & E1 & E2 & E3 & H)|(N & H)].
  - left. exists h, ks, a. apply H1 in E1 as (l & -> & ->). apply H2 in E2. apply LK in E2. apply H3 in E3. repeat split; auto. apply hmap_read.
  - right. split; auto. intros (h & ks & a & Q1 & Q2 & Q3). destruct N as [N|[N|N]].
    + pose proof Q1 as (l & -> & _). apply (N (hmap l [])), H1. now exists l.
    + apply (N ks), H2, LK, Q2.
    + apply (N a), H3, Q3.
Qed.
