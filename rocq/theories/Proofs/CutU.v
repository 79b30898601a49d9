(** Unpacking the beginning of a message. *)
From Verif.Model Require Import Prelude Utf8 Base64 Json Serde DidDoc Crypto Keys Effects Jws Jwe Message FromPrior Pack Routing Unpack.
From Verif.Spec Require Import Small Events Packing World Text Grammar Cut.
From Verif.Proofs Require Import Lib JsonP JsonDec TextP GrammarP Errs TreeP SerdeP UnpackInv PackP RouteP SizeK GarbageP SealP CutP.
From Verif.Proofs Require CutE.

(** ** Members with other names *)
Lemma skip_lex l : skip (raw_lex l) = Ok tt.
Proof.
  induction l as [|x|n i f|cs|ls IH|ms IH] using lex_ind'; cbn [raw_lex]; try reflexivity.
  - cbn. induction IH as [|x ls H IH' IH2]; cbn; [reflexivity|]. rewrite H. exact IH2.
  - cbn. induction IH as [|x ls H IH' IH2]; cbn; [reflexivity|]. rewrite H. exact IH2.
Qed.
Lemma walk_skips {S} (st : S -> bytes -> raw -> res S) (names : list bytes) s0 ms :
  (forall k v, ~ In k names -> st s0 k v = (let? _ := skip v in Ok s0)) ->
  Forall (fun m => exists k, rd_utf8 (fst m) = inr k /\ ~ In k names) ms -> walk st s0 (map raw_mem ms) None = Ok s0.
Proof.
  intros H F. induction F as [|m ms (k & E & N) F IH]; [reflexivity|]. cbn. rewrite E. cbn. rewrite (H _ _ N), skip_lex. exact IH.
Qed.
Lemma stops_unknown {A S} (D : raw -> res A) (st : S -> bytes -> raw -> res S) (s0 : S) (fin : S -> res A) (names : list bytes) ms r' :
  (forall l tl, D (RObj l tl) = rbind (walk st s0 l tl) fin) -> D eof = Err InvalidState ->
  (forall s k, stops (st s k)) -> (forall k v, ~ In k names -> st s0 k v = (let? _ := skip v in Ok s0)) ->
  Forall (fun m => exists k, rd_utf8 (fst m) = inr k /\ ~ In k names) ms -> cut (RObj (map raw_mem ms) None) r' -> D r' = Err InvalidState.
Proof.
  intros O M W H F X. inversion X as [| | |l l' e C]; subst; [exact M|]. rewrite O.
  rewrite (stops_walk st _ _ _ W C _ _ (walk_skips st names s0 ms H F)). reflexivity.
Qed.
Ltac other := intros k v N; cbn in N; cbv beta iota; repeat lazymatch goal with |- (if beq k ?n then _ else _) = _ => destruct (beq_spec k n); [exfalso; subst; tauto|] end; reflexivity.
Ltac steps := cbv beta; intros; repeat lazymatch goal with s : (_ * _)%type |- _ => destruct s end; st.
Lemma jwe_unknown ms r' : Forall (fun m => exists k, rd_utf8 (fst m) = inr k /\ ~ In k jwe_names) ms -> cut (RObj (map raw_mem ms) None) r' -> de_jwe r' = Err InvalidState.
Proof. destruct stops_recipient. eapply stops_unknown; [reflexivity|reflexivity|steps|]. other. Qed.
Lemma jws_unknown ms r' : Forall (fun m => exists k, rd_utf8 (fst m) = inr k /\ ~ In k jws_names) ms -> cut (RObj (map raw_mem ms) None) r' -> de_jws r' = Err InvalidState.
Proof. destruct stops_jws_sig. eapply stops_unknown; [reflexivity|reflexivity|steps|]. other. Qed.

(** ** The members of a message *)
Lemma msg_step_names fp s k v s' : msg_step fp s k v = Ok s' ->
  incl (map fst (m_extra s)) (map fst (m_extra s')) /\ (In k standard_headers \/ In k (map fst (m_extra s'))).
Proof.
  destruct s as [i ty t b f to th pt x c e p a]. unfold msg_step.
  Ltac std H := apply rbind_Ok in H as (? & _ & H); injection H as <-; split; [apply incl_refl|left; vm_compute; tauto].
  repeat lazymatch goal with |- (if beq k ?n then _ else _) = _ -> _ => destruct (beq_spec k n); [subst; intros H; std H|] end.
  intros H. apply rbind_Ok in H as (w & _ & H). injection H as <-. cbn [m_extra]. split.
  - intros y I. apply amap_insert_keys. auto.
  - right. apply amap_insert_keys. auto.
Qed.
Lemma walk_names fp l tl : forall s s', walk (msg_step fp) s l tl = Ok s' ->
  tl = None /\ incl (map fst (m_extra s)) (map fst (m_extra s'))
  /\ Forall (fun m => exists k, fst m = inr k /\ (In k standard_headers \/ In k (map fst (m_extra s')))) l.
Proof.
  induction l as [|[rd v] l IH]; intros s s' H; cbn [walk] in H.
  - destruct tl; [discriminate|]. injection H as <-. repeat split; auto. apply incl_refl.
  - apply rbind_Ok in H as (k & E & H). apply rbind_Ok in H as (s1 & H1 & H). destruct rd as [|k']; [discriminate|]. injection E as ->.
    apply msg_step_names in H1 as [I1 I2]. destruct (IH _ _ H) as (-> & I3 & F). repeat split; auto.
    + eapply incl_tran; eauto.
    + constructor; auto. exists k. split; auto. destruct I2; auto.
Qed.
Lemma message_names fp l m : de_message fp (raw_lex l) = Ok m ->
  exists ms, l = LObj ms /\ Forall (fun x => exists k, rd_utf8 (fst x) = inr k /\ (In k standard_headers \/ In k (map fst (msg_extra m)))) ms.
Proof.
  destruct l as [|x|n i f|cs|ls|ms]; try discriminate; [cbn; destruct (rd_utf8 cs); discriminate|].
  intros H. exists ms. split; auto. cbn [raw_lex] in H. change (fun m : list schar * lex => (rd_utf8 (fst m), raw_lex (snd m))) with raw_mem in H.
  unfold de_message in H. apply rbind_Ok in H as (s & W & H). apply walk_names in W as (_ & _ & F).
  assert (E : m_extra s = msg_extra m).
  { destruct s. unfold msg_finish in H. apply rbind_Ok in H as (? & _ & H). apply rbind_Ok in H as (? & _ & H). apply rbind_Ok in H as (? & _ & H). injection H as <-. reflexivity. }
  rewrite E in F. exact (proj1 (Forall_map raw_mem _ ms) F).
Qed.
Lemma standard_apart k : In k standard_headers -> ~ In k jwe_names /\ ~ In k jws_names.
Proof. vm_compute. intuition subst; intuition discriminate. Qed.

(** ** Unpacking *)
Section Cut.
Context (C : crypto).
(** What stands behind a text that unpack accepts. *)
Lemma accepted_reads fuel text o tr m md : exec (unpack C fuel text o) tr (Some (Ok (m, md))) ->
  (exists j, jwe_from_str text = Ok j) \/ (exists j, jws_from_str text = Ok j)
  \/ (um_encrypted md = false /\ um_non_repudiation md = false /\ message_from_str (fparse C) text = Ok m).
Proof.
  intros H. apply unpack_inv in H as (rew & anon & auth & sign & prior & text1 & text2 & text3 & O & A & S & M & _ & _ & ->). cbn [um_encrypted um_non_repudiation].
  inversion O as [t N|t j alg pt (h & ? & ? & ? & (J & _) & _)|t j alg pt next v kid found rw last t' (h & ? & ? & ? & (J & _) & _)]; subst; eauto.
  destruct auth as [[kids from]|]; [destruct A as (j & (h & ? & ? & ? & ? & ? & ? & (J & _) & _) & _); eauto|]. destruct A as [-> _].
  destruct sign as [[kid sa]|]; [destruct S as (j & ? & ? & ? & ? & ? & ? & ? & ? & ? & J & _); eauto|]. destruct S as [-> _]. auto.
Qed.
Lemma jwe_stops_unpack fuel t o tr x : jwe_from_str t = Err InvalidState -> exec (unpack C (S fuel) t o) tr x -> tr = [] /\ x = Some (Err InvalidState).
Proof. intros J. unfold unpack. cbn [unpack_loop]. unfold try_anoncrypt. rewrite J. auto. Qed.
Lemma jws_stops_unpack fuel t o tr x : ~ json_syntax t -> jws_from_str t = Err InvalidState -> exec (unpack C (S fuel) t o) tr x -> tr = [] /\ x = Some (Err InvalidState).
Proof.
  intros N J2 H. pose proof (jwe_str_errs t) as E. destruct (jwe_from_str t) as [j|k1|] eqn:J; [|cbn in E|destruct E].
  - destruct N. apply from_json_iff in J as (l & S & _). now exists l.
  - destruct E as [->| ->]; [|now apply (jwe_stops_unpack fuel t o)]. revert H. unfold unpack. cbn [unpack_loop]. unfold try_anoncrypt. rewrite J.
    cbn [soft pbind bind]. unfold unpack_rest, try_authcrypt. rewrite J. cbn [soft pbind bind]. unfold try_sign. rewrite J2. auto.
Qed.
Lemma cut_not_json l t p q : spells l t -> t = p ++ q -> ~ ws q -> (forall n i f, raw_lex l <> RNum n i f) -> ~ json_syntax p.
Proof.
  intros S E W N (l' & S'). destruct (parse_cut l t p q S E W) as [(r' & e & P & _)|(n & i & f & X)]; [|now destruct (N n i f)].
  rewrite (parse_spells _ _ S') in P. discriminate.
Qed.
Lemma beginning_rejected fuel fuel' t r o o' tr tr' x m md :
  exec (unpack C fuel' (t ++ r) o') tr' (Some (Ok (m, md))) -> ~ ws r ->
  (um_encrypted md = false -> um_non_repudiation md = false -> ~ both_names m) ->
  exec (unpack C (S fuel) t o) tr x -> tr = [] /\ x = Some (Err InvalidState).
Proof.
  intros A W B0 H. destruct (accepted_reads _ _ _ _ _ _ A) as [(j & J)|[(j & J)|(E1 & E2 & M)]].
  - apply (jwe_stops_unpack fuel t o); auto. destruct stops_jwe. eapply (json_stops de_jwe); eauto.
  - apply (jws_stops_unpack fuel t o); auto.
    + apply from_json_iff in J as (l & S & D). apply (cut_not_json l _ t r S eq_refl W). intros n i f E. rewrite E in D. discriminate.
    + destruct stops_jws. eapply (json_stops de_jws); eauto.
  - specialize (B0 E1 E2). apply from_json_iff in M as (l & S & D). destruct (message_names _ _ _ D) as (ms & -> & F).
    destruct (parse_cut _ _ t r S eq_refl W) as [(r' & e & P & X)|(n & i & f & X)]; [|discriminate X].
    cbn [raw_lex] in X. change (fun m : list schar * lex => (rd_utf8 (fst m), raw_lex (snd m))) with raw_mem in X.
    assert (G : forall names, (forall k, In k standard_headers -> ~ In k names) -> ~ (exists k, In k (map fst (msg_extra m)) /\ In k names) ->
      Forall (fun m => exists k, rd_utf8 (fst m) = inr k /\ ~ In k names) ms).
    { intros names N1 N2. eapply Forall_impl; [|exact F]. intros y (k & E & [I|I]); exists k; split; auto. intros I'. eauto. }
    destruct (existsb (fun k => existsb (beq k) jwe_names) (map fst (msg_extra m))) eqn:XB.
    + apply (jws_stops_unpack fuel t o); auto.
      * apply (cut_not_json _ _ t r S eq_refl W). discriminate.
      * unfold jws_from_str, from_json. rewrite P, (jws_unknown ms r'); auto. apply G; [intros k I; now apply standard_apart|].
        intros Y. apply B0. split; auto. apply existsb_exists in XB as (k & I & K). apply existsb_exists in K as (k' & I' & K). apply beq_eq in K. subst. eauto.
    + apply (jwe_stops_unpack fuel t o); auto. unfold jwe_from_str, from_json. rewrite P, (jwe_unknown ms r'); auto. apply G; [intros k I; now apply standard_apart|].
      intros (k & I & I'). assert (existsb (fun k => existsb (beq k) jwe_names) (map fst (msg_extra m)) = true); [|congruence].
      apply existsb_exists. exists k. split; auto. apply existsb_exists. exists k. split; auto. now apply beq_eq.
Qed.
Lemma eof_cut_off fuel t o tr : ~ json_syntax t -> exec (unpack C (S fuel) t o) tr (Some (Err InvalidState)) -> cut_off t.
Proof.
  intros N H.
  assert (J : forall A (dec : raw -> res A) a, from_json dec t <> Ok a) by (intros A dec a E; apply N; apply from_json_iff in E as (l & S & _); now exists l).
  assert (K : forall A (dec : raw -> res A), (forall r, clean CutE.syn r -> errs (fun k => k = Malformed) (dec r)) -> errs json_kind (from_json dec t) ->
    errs (fun k => k = Malformed \/ k = InvalidState /\ cut_off t) (from_json dec t)).
  { intros A dec D Y. pose proof (CutE.json_cut dec t D Y) as X. destruct (from_json dec t); cbn; auto. }
  destruct (reject_with C (fun k => k = Malformed \/ k = InvalidState /\ cut_off t) fuel t o tr (Some (Err InvalidState)) (or_introl eq_refl)
    (K _ de_jwe (errs_jwe _ CutE.syn eq_refl CutE.syn_kind) (jwe_str_errs t))
    (K _ de_jws (errs_jws _ CutE.syn eq_refl CutE.syn_kind) (jws_str_errs t))
    (K _ (de_message (fparse C)) (errs_message _ CutE.syn eq_refl CutE.syn_kind (fparse C)) (msg_str_errs (fparse C) t))
    (J _ de_jwe) (J _ de_jws) (J _ (de_message (fparse C))) H) as (_ & k & [->|[_ X]] & E); [discriminate E|exact X].
Qed.

(** ** Texts that were packed *)
Definition closed (t : bytes) : Prop := exists u, t = u ++ ["}"%char].
Lemma obj_closed l : closed (obj_text l).
Proof. exists (B "{" ++ commas l). unfold obj_text. now rewrite <- app_assoc. Qed.
Lemma print_closed l : closed (print (VObj l)).
Proof. rewrite print_obj. apply obj_closed. Qed.
Lemma closed_rest t r : closed (t ++ r) -> r <> [] -> ~ ws r.
Proof.
  intros (u & E) N W. destruct (exists_last N) as (r' & c & ->). rewrite app_assoc in E. apply app_inj_tail in E as [_ ->].
  apply Forall_app in W as [_ W]. inversion W as [|? ? I]; subst. cbn in I. intuition discriminate.
Qed.
Lemma signed_closed m by_ tr text kid : exec (pack_signed C m by_) tr (Ok (text, kid)) -> closed text.
Proof.
  intros H. apply pack_signed_inv in H as (did & doc & asked & found & sec & a & k & alg & trp & _ & _ & _ & _ & _ & _ & _ & _ & S).
  unfold jws_sign in S. apply rbind_Ok in S as (st & _ & S). apply rbind_Ok in S as (sg & _ & S). apply Ok_inj in S. subst text. apply print_closed.
Qed.
Lemma onion_closed ds msg text : onion C ds msg text -> closed msg -> closed text.
Proof.
  induction 1 as [t|ce d ka alg enc sender rs e1 e2 e3 pt ct tag t text ds S O IH|id next headers v t text ds F O IH]; auto; intros _; apply IH.
  - apply seals_enveloped in S as (j & -> & _). apply print_closed.
  - apply obj_closed.
Qed.
Lemma encrypted_closed m to from sign_by o tr text pm : exec (pack_encrypted C m to from sign_by o) tr (Ok (text, pm)) -> closed text.
Proof.
  intros H. apply fresh in H as (tr1 & tr2 & msg & -> & W & _ & O). apply (onion_closed _ _ _ O). unfold Packing.written in W. destruct sign_by as [s|].
  - destruct W as (kid & W & _). eapply signed_closed; eauto.
  - destruct W as (W & _). apply pack_plaintext_inv in W as (-> & _). apply print_closed.
Qed.
(** Written by one of the three packing functions. *)
Lemma packed_closed m text : packed_as C m text -> closed text.
Proof.
  intros [(tr & H)|[(by_ & tr & kid & H)|(to & from & sign_by & o & tr & pm & H)]].
  - apply pack_plaintext_inv in H as (-> & _). apply print_closed.
  - eapply signed_closed; eauto.
  - eapply encrypted_closed; eauto.
Qed.
Lemma packed_beginning fuel fuel' t r o o' tr tr' x m m' md :
  packed_as C m' (t ++ r) -> r <> [] -> exec (unpack C fuel' (t ++ r) o') tr' (Some (Ok (m, md))) ->
  (um_encrypted md = false -> um_non_repudiation md = false -> ~ both_names m) ->
  exec (unpack C (S fuel) t o) tr x -> tr = [] /\ x = Some (Err InvalidState).
Proof. intros P N. intros H. apply (beginning_rejected fuel fuel' t r o o' tr tr' x m md H). apply (closed_rest t r); auto. eapply packed_closed; eauto. Qed.
End Cut.
