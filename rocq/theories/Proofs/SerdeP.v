(** Typed decoders invert typed encoders. *)
From Verif.Model Require Import Prelude Utf8 Json Serde Base64 DidDoc Crypto Keys Effects Jws Jwe Message FromPrior.
From Verif.Proofs Require Import Lib Base64P JsonP JsonDec.

(** Compute comparisons between literals. *)
Ltac kbeq :=
  repeat match goal with
  | |- context [beq (B ?a) (B ?b)] =>
      let r := eval vm_compute in (beq (B a) (B b)) in change (beq (B a) (B b)) with r
  end; cbv iota.
Ltac kbeqH H :=
  repeat match type of H with
  | context [beq (B ?a) (B ?b)] =>
      let r := eval vm_compute in (beq (B a) (B b)) in change (beq (B a) (B b)) with r in H
  end; cbv iota in H.

(** Strings without characters that JSON must escape. *)
Definition plain (s : bytes) : bool := negb (existsb must_escape s).
Definition mems (l : list (bytes * value)) : list ((jerr + bytes) * raw) :=
  map (fun kv => (inr (fst kv), raw_of (snd kv))) l.
Lemma raw_of_obj l : raw_of (VObj l) = RObj (mems l) None. Proof. reflexivity. Qed.
Lemma mems_app l l' : mems (l ++ l') = mems l ++ mems l'. Proof. apply map_app. Qed.

Lemma walk_app {S} (step : S -> bytes -> raw -> res S) s l l' tl :
  walk step s (l ++ l') tl = let? s' := walk step s l None in walk step s' l' tl.
Proof.
  revert s; induction l as [|[k v] l IH]; intros s; cbn [walk app]; [reflexivity|].
  destruct (rd_str k); cbn; auto. destruct (step s a v); cbn; auto.
Qed.

Lemma de_string_raw s : de_string (raw_of (VStr s)) = Ok s. Proof. reflexivity. Qed.
Lemma de_borrowed_raw s : plain s = true -> de_borrowed (raw_of (VStr s)) = Ok s.
Proof. unfold plain. intros H. apply negb_true_iff in H. cbn. now rewrite H. Qed.
Lemma de_vec_raw {A} (f : raw -> res A) (g : A -> value) l :
  (forall a, In a l -> f (raw_of (g a)) = Ok a) -> de_vec f (raw_of (VArr (map g l))) = Ok l.
Proof.
  intros H. cbn [raw_of de_vec]. rewrite map_map.
  enough (rmap f (map (fun x => raw_of (g x)) l) = Ok l) as -> by reflexivity.
  apply rmap_Ok. induction l; cbn; constructor; auto.
  - apply H. now left.
  - apply IHl. intros. apply H. now right.
Qed.
Lemma de_option_raw {A} (f : raw -> res A) (g : A -> value) a :
  (forall b, g b <> VNull) -> raw_of (g a) <> RNull -> f (raw_of (g a)) = Ok a -> de_option f (raw_of (g a)) = Ok (Some a).
Proof. intros N R H. unfold de_option. destruct (raw_of (g a)); try congruence; now rewrite H. Qed.

Lemma b64_plain s : plain (b64enc s) = true.
Proof.
  unfold plain. apply negb_true_iff. pose proof (b64enc_ok s) as H. rewrite forallb_forall in H.
  apply not_true_is_false. intros E. apply existsb_exists in E as (c & I & E). apply H in I. revert E I.
  destruct c as [[] [] [] [] [] [] [] []]; vm_compute; congruence.
Qed.
Lemma ascii_utf8 s : forallb (byte_in 0 127) s = true -> utf8 s = true.
Proof. induction s as [|a s IH]; auto. cbn. intros H. apply andb_prop in H as [-> H]. auto. Qed.
Lemma b64_utf8 s : utf8 (b64enc s) = true.
Proof.
  apply ascii_utf8. pose proof (b64enc_ok s) as H. rewrite forallb_forall in *. intros c I. apply H in I. revert I.
  destruct c as [[] [] [] [] [] [] [] []]; vm_compute; congruence.
Qed.

Ltac dsimp := cbn [mems map fst snd walk rd_str rbind close need ok_or]; kbeq; unfold once; cbn [rbind].
Ltac dstep := repeat (dsimp; rewrite de_borrowed_raw by auto); dsimp.

(** ** JWS *)
Lemma jws_alg_rt a : jws_alg_of (jws_alg_str a) = a \/ exists s, a = JwsAlgOther s.
Proof. destruct a; auto. right. eauto. Qed.

Lemma de_kid_header_raw k : plain k = true ->
  de_kid_header (raw_of (VObj [(B "kid", VStr k)])) = Ok k.
Proof.
  intros H. unfold de_kid_header. rewrite raw_of_obj. cbn [mems map fst snd walk rd_str rbind]. kbeq.
  unfold once. rewrite de_borrowed_raw by auto. reflexivity.
Qed.
Lemma de_jws_sig_raw sg : plain (sig_kid sg) = true -> plain (sig_protected sg) = true ->
  plain (sig_signature sg) = true -> de_jws_sig (raw_of (jws_sig_tree sg)) = Ok sg.
Proof.
  destruct sg as [k p s]. cbn [sig_kid sig_protected sig_signature]. intros H1 H2 H3.
  unfold de_jws_sig, jws_sig_tree. rewrite raw_of_obj. cbn [mems map fst snd sig_kid sig_protected sig_signature].
  cbn [walk rd_str rbind]. kbeq. unfold once.
  rewrite de_kid_header_raw by auto. cbn [rbind]. kbeq. dstep. reflexivity.
Qed.
Lemma de_jws_raw j : Forall (fun sg => plain (sig_kid sg) = true /\ plain (sig_protected sg) = true /\
    plain (sig_signature sg) = true) (jws_signatures j) -> plain (jws_payload j) = true ->
  de_jws (raw_of (jws_tree j)) = Ok j.
Proof.
  destruct j as [sgs p]. cbn [jws_signatures jws_payload]. intros H1 H2.
  unfold de_jws, jws_tree. rewrite raw_of_obj. cbn [mems map fst snd jws_signatures jws_payload].
  cbn [walk rd_str rbind]. kbeq. unfold once.
  rewrite de_vec_raw. 2:{ intros a I. rewrite Forall_forall in H1. destruct (H1 _ I) as (A & B & C). now apply de_jws_sig_raw. }
  cbn [rbind]. kbeq. rewrite de_borrowed_raw by auto. reflexivity.
Qed.
Lemma de_jws_header_raw t a : (forall s, a <> JwsAlgOther s) ->
  de_jws_header (raw_of (jws_header_tree (mkJH t a))) = Ok (mkJH t a).
Proof.
  intros N. unfold de_jws_header, jws_header_tree. rewrite raw_of_obj. cbn [mems map fst snd jh_typ jh_alg].
  cbn [walk rd_str rbind]. kbeq. unfold once. cbn [raw_of de_string rd_str rbind]. kbeq.
  unfold de_jws_alg. cbn [raw_of de_string rd_str rbind].
  destruct (jws_alg_rt a) as [->|[s ->]]; [reflexivity | now destruct (N s)].
Qed.
Lemma de_compact_header_raw t a k : (forall s, a <> JwsAlgOther s) -> plain t = true -> plain k = true ->
  de_compact_header (raw_of (compact_header_tree (mkCH t a k))) = Ok (mkCH t a k).
Proof.
  intros N H1 H2. unfold de_compact_header, compact_header_tree. rewrite raw_of_obj. cbn [mems map fst snd ch_typ ch_alg ch_kid].
  dstep. cbn [raw_of de_string rd_str rbind]. kbeq.
  unfold de_jws_alg. cbn [raw_of de_string rd_str rbind]. kbeq. change (RStr (existsb must_escape k) (inr k)) with (raw_of (VStr k)). dstep. cbn [raw_of de_string rd_str rbind].
  destruct (jws_alg_rt a) as [->|[s ->]]; [reflexivity | now destruct (N s)].
Qed.

(** ** JWE *)
Lemma de_recipient_raw r : plain (rc_kid r) = true -> plain (rc_key r) = true ->
  de_recipient (raw_of (recipient_tree r)) = Ok r.
Proof.
  destruct r as [k e]. cbn [rc_kid rc_key]. intros H1 H2. unfold de_recipient, recipient_tree. rewrite raw_of_obj.
  cbn [mems map fst snd rc_kid rc_key]. cbn [walk rd_str rbind]. kbeq. unfold once.
  rewrite de_kid_header_raw by auto. cbn [rbind]. kbeq. rewrite !de_borrowed_raw by auto. reflexivity.
Qed.
Definition rcs_plain (l : list recipient) : Prop :=
  Forall (fun r => plain (rc_kid r) = true /\ plain (rc_key r) = true) l.
Definition jwe_plain (j : jwe) : Prop :=
  plain (jwe_protected j) = true /\ rcs_plain (jwe_recipients j) /\ plain (jwe_iv j) = true /\
  plain (jwe_ciphertext j) = true /\ plain (jwe_tag j) = true.
Lemma de_rcs_raw l : rcs_plain l -> de_vec de_recipient (raw_of (VArr (map recipient_tree l))) = Ok l.
Proof.
  intros H. apply de_vec_raw. intros a I. unfold rcs_plain in H. rewrite Forall_forall in H.
  destruct (H _ I). now apply de_recipient_raw.
Qed.
Lemma de_jwe_raw j : jwe_plain j -> de_jwe (raw_of (jwe_tree j)) = Ok j.
Proof.
  destruct j as [p rs i c t]. unfold jwe_plain. cbn [jwe_protected jwe_recipients jwe_iv jwe_ciphertext jwe_tag].
  intros (H1 & H2 & H3 & H4 & H5).
  unfold de_jwe, jwe_tree. rewrite raw_of_obj. cbn [mems map fst snd jwe_protected jwe_recipients jwe_iv jwe_ciphertext jwe_tag].
  dstep. cbn [rbind]. rewrite de_rcs_raw by auto. dstep. reflexivity.
Qed.

Lemma jwe_alg_rt a : jwe_alg_of (jwe_alg_str a) = a \/ exists s, a = JweAlgOther s.
Proof. destruct a; auto. right. eauto. Qed.
Lemma jwe_enc_rt a : jwe_enc_of (jwe_enc_str a) = a \/ exists s, a = JweEncOther s.
Proof. destruct a; auto. right. eauto. Qed.

Section Hdr.
Context (C : crypto).
Definition oplain (o : option bytes) : bool := match o with Some s => plain s | None => true end.
Lemma de_jwe_header_raw h : (forall s, ph_alg h <> JweAlgOther s) -> (forall s, ph_enc h <> JweEncOther s) ->
  oplain (ph_skid h) = true -> oplain (ph_apu h) = true -> plain (ph_apv h) = true ->
  wfv (fparse C) (ph_epk h) -> canon (ph_epk h) -> depth (ph_epk h) < 127 ->
  de_jwe_header C (raw_of (jwe_header_tree h)) = Ok h.
Proof.
  destruct h as [t a e s u v k]. cbn [ph_typ ph_alg ph_enc ph_skid ph_apu ph_apv ph_epk].
  intros N1 N2 P1 P2 P3 W K D. unfold de_jwe_header, jwe_header_tree. rewrite raw_of_obj.
  cbn [ph_typ ph_alg ph_enc ph_skid ph_apu ph_apv ph_epk].
  rewrite !mems_app. match goal with |- context [walk ?st _ _ _] => set (step := st) end.
  assert (ET : de_option de_string (raw_of match t with Some t => VStr t | None => VNull end) = Ok t) by (destruct t; reflexivity).
  assert (S0 : walk step (None, None, None, None, None, None, None)
     (mems [(B "typ", match t with Some t => VStr t | None => VNull end); (B "alg", VStr (jwe_alg_str a)); (B "enc", VStr (jwe_enc_str e))]) None
     = Ok (Some t, Some a, Some e, None, None, None, None)).
  { unfold step. dsimp. rewrite ET. dsimp. unfold de_jwe_alg. cbn [raw_of de_string rd_str rbind].
    destruct (jwe_alg_rt a) as [->|[? ->]]; [|now destruct (N1 x)]. dsimp. unfold de_jwe_enc. cbn [raw_of de_string rd_str rbind].
    destruct (jwe_enc_rt e) as [->|[? ->]]; [|now destruct (N2 x)]. dsimp. reflexivity. }
  rewrite walk_app, S0. cbn [rbind].
  assert (S1 : walk step (Some t, Some a, Some e, None, None, None, None) (mems (opt_member "skid" VStr s)) None
     = Ok (Some t, Some a, Some e, option_map Some s, None, None, None)).
  { destruct s as [s|]; [|reflexivity]. cbn [oplain] in P1. unfold step, opt_member. dsimp. unfold de_option.
    change (match raw_of (VStr s) with RNull => ?x | _ => ?y end) with y. dstep. reflexivity. }
  rewrite walk_app, S1. cbn [rbind].
  assert (S2 : forall s', walk step (Some t, Some a, Some e, s', None, None, None) (mems (opt_member "apu" VStr u)) None
     = Ok (Some t, Some a, Some e, s', option_map Some u, None, None)).
  { intros s'. destruct u as [u|]; [|reflexivity]. cbn [oplain] in P2. unfold step, opt_member. dsimp. unfold de_option.
    change (match raw_of (VStr u) with RNull => ?x | _ => ?y end) with y. dstep. reflexivity. }
  rewrite walk_app, S2. cbn [rbind].
  assert (S3 : forall s' u', walk step (Some t, Some a, Some e, s', u', None, None) (mems [(B "apv", VStr v); (B "epk", k)]) None
     = Ok (Some t, Some a, Some e, s', u', Some v, Some k)).
  { intros s' u'. unfold step. dstep. unfold de_epk. change (pred max_depth) with 127. rewrite to_value_raw by auto. reflexivity. }
  rewrite S3. cbn [rbind need ok_or flat]. now destruct s, u.
Qed.

(** ** from_prior *)
Lemma de_ostr_raw s : de_ostr (raw_of (VStr s)) = Ok (Some s). Proof. reflexivity. Qed.
Lemma de_ou64_raw fp n : (n < u64_lim)%N -> de_ou64 fp (raw_of (VNat n)) = Ok (Some n).
Proof.
  intros H. unfold de_ou64, VNat. destruct (raw_num fp (PosInt n) (num_ok_pos _ _ H)) as (neg & i & fe & -> & E).
  cbn. now rewrite E.
Qed.
Definition u64_ok (o : option N) : Prop := match o with Some n => (n < u64_lim)%N | None => True end.

Definition fp_u64 (p : from_prior) : Prop := u64_ok (fp_exp p) /\ u64_ok (fp_nbf p) /\ u64_ok (fp_iat p).
Lemma de_from_prior_raw p : fp_u64 p -> de_from_prior C (raw_of (from_prior_tree p)) = Ok p.
Proof.
  destruct p as [i su a e n t j]. unfold fp_u64. cbn [fp_exp fp_nbf fp_iat]. intros (H1 & H2 & H3).
  unfold de_from_prior, from_prior_tree. rewrite raw_of_obj. cbn [fp_iss fp_sub fp_aud fp_exp fp_nbf fp_iat fp_jti].
  rewrite !mems_app.
  assert (S0 : walk (fp_step C) (mkFS None None None None None None None) (mems [(B "iss", VStr i); (B "sub", VStr su)]) None
     = Ok (mkFS (Some i) (Some su) None None None None None)) by reflexivity.
  rewrite walk_app, S0. cbn [rbind].
  assert (S1 : walk (fp_step C) (mkFS (Some i) (Some su) None None None None None) (mems (opt_member "aud" VStr a)) None
     = Ok (mkFS (Some i) (Some su) (option_map Some a) None None None None)) by (destruct a; reflexivity).
  rewrite walk_app, S1. cbn [rbind].
  assert (S2 : forall aa, walk (fp_step C) (mkFS (Some i) (Some su) aa None None None None) (mems (opt_member "exp" VNat e)) None
     = Ok (mkFS (Some i) (Some su) aa (option_map Some e) None None None)).
  { intros aa. destruct e; [|reflexivity]. cbn [opt_member mems map fst snd walk rd_str rbind close fp_step]. kbeq.
    unfold once. rewrite de_ou64_raw by auto. reflexivity. }
  rewrite walk_app, S2. cbn [rbind].
  assert (S3 : forall aa ee, walk (fp_step C) (mkFS (Some i) (Some su) aa ee None None None) (mems (opt_member "nbf" VNat n)) None
     = Ok (mkFS (Some i) (Some su) aa ee (option_map Some n) None None)).
  { intros aa ee. destruct n; [|reflexivity]. cbn [opt_member mems map fst snd walk rd_str rbind close fp_step]. kbeq.
    unfold once. rewrite de_ou64_raw by auto. reflexivity. }
  rewrite walk_app, S3. cbn [rbind].
  assert (S4 : forall aa ee nn, walk (fp_step C) (mkFS (Some i) (Some su) aa ee nn None None) (mems (opt_member "iat" VNat t)) None
     = Ok (mkFS (Some i) (Some su) aa ee nn (option_map Some t) None)).
  { intros aa ee nn. destruct t; [|reflexivity]. cbn [opt_member mems map fst snd walk rd_str rbind close fp_step]. kbeq.
    unfold once. rewrite de_ou64_raw by auto. reflexivity. }
  rewrite walk_app, S4. cbn [rbind].
  assert (S5 : forall aa ee nn tt, walk (fp_step C) (mkFS (Some i) (Some su) aa ee nn tt None) (mems (opt_member "jti" VStr j)) None
     = Ok (mkFS (Some i) (Some su) aa ee nn tt (option_map Some j))).
  { intros aa ee nn tt. destruct j; reflexivity. }
  rewrite S5. cbn [rbind need ok_or]. now destruct a, e, n, t, j.
Qed.
End Hdr.

(** ** Messages *)
Section Msg.
Variable fp : bytes -> option bytes.

(** What a Rust [Message] can hold, plus serde_json's nesting limit. *)
Definition ostr_ok (o : option bytes) : Prop := match o with Some s => utf8 s = true | None => True end.
Definition val_ok (d : nat) (v : value) : Prop := wfv fp v /\ canon v /\ depth v < d.
Definition adata_ok (d : attachment_data) : Prop :=
  match d with
  | ABase64 s j => utf8 s = true /\ ostr_ok j
  | AJson v j => val_ok 124 v /\ ostr_ok j
  | ALinks l h j => Forall (fun s => utf8 s = true) l /\ utf8 h = true /\ ostr_ok j
  end.
Definition att_ok (a : attachment) : Prop :=
  adata_ok (att_data a) /\ ostr_ok (att_id a) /\ ostr_ok (att_description a) /\ ostr_ok (att_filename a)
  /\ ostr_ok (att_media_type a) /\ ostr_ok (att_format a) /\ u64_ok (att_lastmod_time a) /\ u64_ok (att_byte_count a).
Definition reserved : list bytes :=
  map B ["id"; "typ"; "type"; "body"; "from"; "to"; "thid"; "pthid"; "created_time"; "expires_time";
         "from_prior"; "attachments"]%string.
Definition msg_ok (m : message) : Prop :=
  utf8 (msg_id m) = true /\ utf8 (msg_typ m) = true /\ utf8 (msg_type m) = true /\ val_ok 127 (msg_body m)
  /\ ostr_ok (msg_from m) /\ match msg_to m with Some l => Forall (fun s => utf8 s = true) l | None => True end
  /\ ostr_ok (msg_thid m) /\ ostr_ok (msg_pthid m)
  /\ (NoDup (map fst (msg_extra m)) /\
      Forall (fun kv => utf8 (fst kv) = true /\ ~ In (fst kv) reserved /\ val_ok 127 (snd kv)) (msg_extra m))
  /\ u64_ok (msg_created m) /\ u64_ok (msg_expires m) /\ ostr_ok (msg_from_prior m)
  /\ match msg_attachments m with Some l => Forall att_ok l | None => True end.

Lemma ojws_wf j : ostr_ok j ->
  Forall (fun kv => utf8 (fst kv) = true /\ wfv fp (snd kv)) (opt_member "jws" VStr j)
  /\ Forall (fun kv : bytes * value => depth (snd kv) < 124) (opt_member "jws" VStr j).
Proof.
  destruct j; cbn [opt_member ostr_ok]; intros H; split; try apply Forall_nil; apply Forall_cons; try apply Forall_nil; cbn; auto; lia.
Qed.
Lemma adata_tree_wf d : adata_ok d -> wfv fp (adata_tree d) /\ depth (adata_tree d) < 125.
Proof.
  destruct d as [s j|v j|l h j]; cbn [adata_ok adata_tree].
  - intros [H1 H2]. destruct (ojws_wf j H2) as [J1 J2]. split; [apply wfv_obj|apply (depth_obj _ 124); split; [lia|]];
      (apply Forall_cons; [cbn; auto; lia|assumption]).
  - intros [(W & K & D) H2]. destruct (ojws_wf j H2) as [J1 J2]. split; [apply wfv_obj|apply (depth_obj _ 124); split; [lia|]];
      (apply Forall_cons; [cbn [fst snd]; auto; lia|assumption]).
  - intros (H1 & H2 & H3). destruct (ojws_wf j H3) as [J1 J2].
    assert (W : wfv fp (VStrs l)).
    { apply wfv_arr. induction H1; cbn; constructor; auto. }
    assert (D : depth (VStrs l) < 124).
    { apply (depth_arr _ 123). split; [lia|]. clear. induction l; cbn; constructor; auto; cbn; lia. }
    split; [apply wfv_obj|apply (depth_obj _ 124); split; [lia|]];
      (apply Forall_cons; [cbn [fst snd]; auto|]; apply Forall_cons; [cbn; auto; lia|assumption]).
Qed.
Lemma de_adata_content_tree d : (forall v j, d = AJson v j -> canon v) -> de_adata_content (adata_tree d) = Ok d.
Proof.
  intros K. destruct d as [s j|v j|l h j]; cbn [adata_tree].
  - destruct j; reflexivity.
  - destruct j as [j|]; cbn; rewrite norm_canon; eauto.
  - assert (E : rmap c_string (map VStr l) = Ok l).
    { apply rmap_Ok. clear. induction l; cbn; constructor; auto. }
    destruct j as [j|]; cbn; rewrite E; reflexivity.
Qed.
Lemma de_adata_raw d : adata_ok d -> de_adata fp (raw_of (adata_tree d)) = Ok d.
Proof.
  intros H. unfold de_adata. change (max_depth - 3) with 125.
  destruct (adata_tree_wf d H) as [W D]. rewrite to_content_raw by auto. cbn [rbind].
  apply de_adata_content_tree. intros v j ->. cbn in H. apply H.
Qed.

Lemma astep_id d de f m fo l b o :
  walk (att_step fp) (mkAS d None de f m fo l b) (mems (opt_member "id" VStr o)) None = Ok (mkAS d (option_map Some o) de f m fo l b).
Proof. now destruct o. Qed.
Lemma astep_description d i f m fo l b o :
  walk (att_step fp) (mkAS d i None f m fo l b) (mems (opt_member "description" VStr o)) None = Ok (mkAS d i (option_map Some o) f m fo l b).
Proof. now destruct o. Qed.
Lemma astep_filename d i de m fo l b o :
  walk (att_step fp) (mkAS d i de None m fo l b) (mems (opt_member "filename" VStr o)) None = Ok (mkAS d i de (option_map Some o) m fo l b).
Proof. now destruct o. Qed.
Lemma astep_media d i de f fo l b o :
  walk (att_step fp) (mkAS d i de f None fo l b) (mems (opt_member "media_type" VStr o)) None = Ok (mkAS d i de f (option_map Some o) fo l b).
Proof. now destruct o. Qed.
Lemma astep_format d i de f m l b o :
  walk (att_step fp) (mkAS d i de f m None l b) (mems (opt_member "format" VStr o)) None = Ok (mkAS d i de f m (option_map Some o) l b).
Proof. now destruct o. Qed.
Lemma astep_lastmod d i de f m fo b o : u64_ok o ->
  walk (att_step fp) (mkAS d i de f m fo None b) (mems (opt_member "lastmod_time" VNat o)) None = Ok (mkAS d i de f m fo (option_map Some o) b).
Proof. destruct o; [|reflexivity]. intros H. unfold opt_member. dsimp. cbn [att_step]. kbeq. unfold once. rewrite de_ou64_raw by auto. reflexivity. Qed.
Lemma astep_count d i de f m fo l o : u64_ok o ->
  walk (att_step fp) (mkAS d i de f m fo l None) (mems (opt_member "byte_count" VNat o)) None = Ok (mkAS d i de f m fo l (option_map Some o)).
Proof. destruct o; [|reflexivity]. intros H. unfold opt_member. dsimp. cbn [att_step]. kbeq. unfold once. rewrite de_ou64_raw by auto. reflexivity. Qed.
Lemma de_attachment_raw a : att_ok a -> de_attachment fp (raw_of (attachment_tree a)) = Ok a.
Proof.
  destruct a as [d i de f m fo lt b]. unfold att_ok.
  cbn [att_data att_id att_description att_filename att_media_type att_format att_lastmod_time att_byte_count].
  intros (H1 & H2 & H3 & H4 & H5 & H6 & H7 & H8).
  unfold de_attachment, attachment_tree. rewrite raw_of_obj.
  cbn [att_data att_id att_description att_filename att_media_type att_format att_lastmod_time att_byte_count].
  change (mems ((B "data", adata_tree d) :: ?x)) with ((@inr jerr bytes (B "data"), raw_of (adata_tree d)) :: mems x).
  cbn [walk rd_str rbind att_step]. kbeq. unfold once at 1. rewrite de_adata_raw by auto. cbn [rbind].
  rewrite !mems_app.
  rewrite walk_app, astep_id. cbn [rbind]. rewrite walk_app, astep_description. cbn [rbind].
  rewrite walk_app, astep_filename. cbn [rbind]. rewrite walk_app, astep_media. cbn [rbind].
  rewrite walk_app, astep_format. cbn [rbind]. rewrite walk_app, astep_lastmod by auto. cbn [rbind].
  rewrite astep_count by auto. cbn [rbind need ok_or]. now destruct i, de, f, m, fo, lt, b.
Qed.

Lemma mstep_from i ty t b to th pt x c e p a o : 
  walk (msg_step fp) (mkMS' i ty t b None to th pt x c e p a) (mems (opt_member "from" VStr o)) None = Ok (mkMS' i ty t b (option_map Some o) to th pt x c e p a).
Proof. now destruct o. Qed.
Lemma mstep_to i ty t b f th pt x c e p a o : 
  walk (msg_step fp) (mkMS' i ty t b f None th pt x c e p a) (mems (opt_member "to" VStrs o)) None = Ok (mkMS' i ty t b f (option_map Some o) th pt x c e p a).
Proof. destruct o as [o|]; [|reflexivity]. intros. unfold opt_member. dsimp. cbn [msg_step]. kbeq. unfold once. 
  rewrite (de_option_raw (de_vec de_string) VStrs); [reflexivity|discriminate|discriminate|].
  apply de_vec_raw. intros; apply de_string_raw. Qed.
Lemma mstep_thid i ty t b f to pt x c e p a o : 
  walk (msg_step fp) (mkMS' i ty t b f to None pt x c e p a) (mems (opt_member "thid" VStr o)) None = Ok (mkMS' i ty t b f to (option_map Some o) pt x c e p a).
Proof. now destruct o. Qed.
Lemma mstep_pthid i ty t b f to th x c e p a o : 
  walk (msg_step fp) (mkMS' i ty t b f to th None x c e p a) (mems (opt_member "pthid" VStr o)) None = Ok (mkMS' i ty t b f to th (option_map Some o) x c e p a).
Proof. now destruct o. Qed.
Lemma mstep_created i ty t b f to th pt x e p a o : u64_ok o -> 
  walk (msg_step fp) (mkMS' i ty t b f to th pt x None e p a) (mems (opt_member "created_time" VNat o)) None = Ok (mkMS' i ty t b f to th pt x (option_map Some o) e p a).
Proof. destruct o as [o|]; [|reflexivity]. intros. unfold opt_member. dsimp. cbn [msg_step]. kbeq. unfold once. rewrite de_ou64_raw by auto. reflexivity. Qed.
Lemma mstep_expires i ty t b f to th pt x c p a o : u64_ok o -> 
  walk (msg_step fp) (mkMS' i ty t b f to th pt x c None p a) (mems (opt_member "expires_time" VNat o)) None = Ok (mkMS' i ty t b f to th pt x c (option_map Some o) p a).
Proof. destruct o as [o|]; [|reflexivity]. intros. unfold opt_member. dsimp. cbn [msg_step]. kbeq. unfold once. rewrite de_ou64_raw by auto. reflexivity. Qed.
Lemma mstep_prior i ty t b f to th pt x c e a o : 
  walk (msg_step fp) (mkMS' i ty t b f to th pt x c e None a) (mems (opt_member "from_prior" VStr o)) None = Ok (mkMS' i ty t b f to th pt x c e (option_map Some o) a).
Proof. now destruct o. Qed.
Lemma mstep_att i ty t b f to th pt x c e p o : match o with Some l => Forall att_ok l | None => True end -> 
  walk (msg_step fp) (mkMS' i ty t b f to th pt x c e p None) (mems (opt_member "attachments" (fun l => VArr (map attachment_tree l)) o)) None = Ok (mkMS' i ty t b f to th pt x c e p (option_map Some o)).
Proof. destruct o as [o|]; [|reflexivity]. intros. unfold opt_member. dsimp. cbn [msg_step]. kbeq. unfold once. 
  rewrite (de_option_raw (de_vec (de_attachment fp)) (fun l => VArr (map attachment_tree l))); [reflexivity|discriminate|discriminate|].
  apply de_vec_raw. intros y I. rewrite Forall_forall in H. now apply de_attachment_raw, H. Qed.

Lemma msg_step_extra k v i ty t b f to th pt x c e p a : ~ In k reserved -> val_ok 127 v ->
  msg_step fp (mkMS' i ty t b f to th pt x c e p a) k (raw_of v)
  = Ok (mkMS' i ty t b f to th pt (amap_insert k v x) c e p a).
Proof.
  intros N (W & K & D). cbn [msg_step].
  assert (F : forall r, In r reserved -> beq k r = false).
  { intros r I. apply beq_neq. intros ->. auto. }
  unfold reserved in F. cbn [map] in F.
  rewrite !F by (cbn; tauto). change (max_depth - 1) with 127. rewrite to_value_raw by auto. reflexivity.
Qed.
Lemma mstep_extra l : forall i ty t b f to th pt x c e p a,
  NoDup (map fst x ++ map fst l) -> Forall (fun kv => utf8 (fst kv) = true /\ ~ In (fst kv) reserved /\ val_ok 127 (snd kv)) l ->
  walk (msg_step fp) (mkMS' i ty t b f to th pt x c e p a) (mems l) None = Ok (mkMS' i ty t b f to th pt (x ++ l) c e p a).
Proof.
  induction l as [|[k v] l IH]; intros i ty t b f to th pt x c e p a ND H.
  - cbn. now rewrite app_nil_r.
  - inversion H as [|? ? (U & N & V) H2]; subst. cbn [fst snd] in *.
    change (mems ((k, v) :: l)) with ((@inr jerr bytes k, raw_of v) :: mems l). cbn [walk rd_str rbind].
    rewrite msg_step_extra by auto. cbn [rbind].
    assert (NI : ~ In k (map fst x)).
    { intros I. apply NoDup_remove_2 in ND. apply ND, in_or_app. auto. }
    rewrite amap_insert_fresh by auto. rewrite IH; auto.
    + now rewrite <- app_assoc.
    + rewrite map_app. cbn [map fst] in *. now rewrite <- app_assoc.
Qed.

Lemma de_message_raw m : msg_ok m -> de_message fp (raw_of (message_tree m)) = Ok m.
Proof.
  destruct m as [i ty t b f to th pt x c e p a]. unfold msg_ok.
  cbn [msg_id msg_typ msg_type msg_body msg_from msg_to msg_thid msg_pthid msg_extra msg_created msg_expires msg_from_prior msg_attachments].
  intros (_ & _ & _ & (W & K & D) & _ & _ & _ & _ & (ND & X) & C1 & E1 & _ & A).
  unfold de_message, message_tree, message_members. rewrite raw_of_obj.
  cbn [msg_id msg_typ msg_type msg_body msg_from msg_to msg_thid msg_pthid msg_extra msg_created msg_expires msg_from_prior msg_attachments].
  rewrite !mems_app.
  assert (S0 : walk (msg_step fp) m_init (mems [(B "id", VStr i); (B "typ", VStr ty); (B "type", VStr t); (B "body", b)]) None
    = Ok (mkMS' (Some i) (Some ty) (Some t) (Some b) None None None None [] None None None None)).
  { unfold m_init. dsimp. cbn [msg_step]. kbeq. dsimp. cbn [raw_of de_string rd_str rbind msg_step]. kbeq. dsimp.
    cbn [raw_of de_string rd_str rbind msg_step]. kbeq. dsimp. cbn [raw_of de_string rd_str rbind msg_step]. kbeq. dsimp.
    change (max_depth - 1) with 127. rewrite to_value_raw by auto. reflexivity. }
  rewrite walk_app, S0; cbn [rbind].
  rewrite walk_app, mstep_from; cbn [rbind].
  rewrite walk_app, mstep_to; cbn [rbind].
  rewrite walk_app, mstep_thid; cbn [rbind].
  rewrite walk_app, mstep_pthid; cbn [rbind].
  rewrite walk_app, mstep_extra by auto; cbn [rbind app].
  rewrite walk_app, mstep_created by auto; cbn [rbind].
  rewrite walk_app, mstep_expires by auto; cbn [rbind].
  rewrite walk_app, mstep_prior by auto; cbn [rbind].
  rewrite mstep_att by auto; cbn [rbind].
  unfold msg_finish. cbn [need ok_or rbind]. now destruct f, to, th, pt, c, e, p, a.
Qed.

(** The text of a message is well-formed JSON. *)
Lemma opt_member_wf {A} k (f : A -> value) o : utf8 (B k) = true -> (forall a, o = Some a -> printable (f a)) ->
  Forall (fun kv => utf8 (fst kv) = true /\ printable (snd kv)) (opt_member k f o).
Proof. intros U H. destruct o as [a|]; [|apply Forall_nil]. apply Forall_cons; [|apply Forall_nil]. split; [exact U|]. now apply H. Qed.
Lemma ostr_printable o : ostr_ok o -> forall a, o = Some a -> printable (VStr a).
Proof. intros H a ->. exact H. Qed.
Lemma nat_printable n : printable (VNat n).
Proof. apply (num_lex_int n). Qed.
Lemma strs_printable l : Forall (fun s => utf8 s = true) l -> printable (VStrs l).
Proof. intros H. apply printable_arr. induction H; cbn; constructor; auto. Qed.
Lemma attachment_printable a : att_ok a -> printable (attachment_tree a).
Proof.
  intros (H1 & H2 & H3 & H4 & H5 & H6 & H7 & H8). apply printable_obj. constructor.
  { split; [reflexivity|]. cbn [snd]. eapply wfv_printable, (adata_tree_wf _ H1). }
  repeat (apply Forall_app; split); (apply opt_member_wf; [reflexivity|]); try (apply ostr_printable; assumption); intros; apply nat_printable.
Qed.
Lemma message_printable m : msg_ok m -> printable (message_tree m).
Proof.
  intros (H1 & H2 & H3 & (W & _ & _) & H5 & H6 & H7 & H8 & (_ & H9) & H10 & H11 & H12 & H13).
  apply printable_obj. unfold message_members.
  repeat (apply Forall_app; split); 
    try (apply opt_member_wf; [reflexivity|]; try (apply ostr_printable; assumption); intros; try apply nat_printable).
  - repeat (apply Forall_cons || apply Forall_nil); (split; [reflexivity|]); auto. now apply wfv_printable in W.
  - rewrite H in H6. now apply strs_printable.
  - eapply Forall_impl; [|exact H9]. cbn. intros kv (U & _ & V & _). split; auto. now apply wfv_printable in V.
  - rewrite H in H13. clear H. apply printable_arr. induction H13; cbn; constructor; auto. now apply attachment_printable.
Qed.
Theorem message_roundtrip m : msg_ok m -> message_from_str fp (message_text m) = Ok m.
Proof.
  intros H. unfold message_from_str, message_text. rewrite from_json_print by now apply message_printable.
  now apply de_message_raw.
Qed.
End Msg.
