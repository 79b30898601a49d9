(** Consequences of the inversion of unpack. *)
From Verif.Model Require Import Prelude Utf8 Base64 Json Serde DidDoc Crypto Keys Effects Jws Jwe Message FromPrior Pack Routing Unpack.
From Verif.Spec Require Import Small Events Panics.
From Verif.Proofs Require Import Lib SmallP Wp UnpackInv UnpackP RejectP ApvP Errs NoPanic.
From Coq Require Import Permutation.

Section Facts.
Context (C : crypto).
Notation ran fuel text o tr m md := (exec (unpack C fuel text o) tr (Some (Ok (m, md)))).

Lemma some_iff {A} (o : option A) : is_some o = true <-> exists x, o = Some x.
Proof. destruct o; cbn; split; try easy; eauto. intros (x & H); discriminate. Qed.

Lemma metadata_consistent fuel text o tr m md : ran fuel text o tr m md ->
  (um_encrypted md = true <-> exists k, um_encrypted_to_kids md = Some k)
  /\ (um_non_repudiation md = true <-> exists k, um_sign_from md = Some k)
  /\ ((exists k, um_sign_from md = Some k) <-> (exists a, um_sign_alg md = Some a))
  /\ ((exists k, um_sign_from md = Some k) <-> (exists t, um_signed_message md = Some t))
  /\ (um_authenticated md = true <-> (exists k, um_encrypted_from_kid md = Some k) \/ (exists k, um_sign_from md = Some k))
  /\ ((exists k, um_encrypted_from_kid md = Some k) <-> (exists a, um_enc_alg_auth md = Some a))
  /\ (um_anonymous_sender md = true <-> exists a, um_enc_alg_anon md = Some a)
  /\ (um_encrypted md = true <-> (exists a, um_enc_alg_anon md = Some a) \/ (exists k, um_encrypted_from_kid md = Some k))
  /\ ((exists p, um_from_prior md = Some p) <-> exists k, um_from_prior_issuer_kid md = Some k)
  /\ ((exists p, um_from_prior md = Some p) <-> exists j, msg_from_prior m = Some j)
  /\ (um_re_wrapped md = true -> um_anonymous_sender md = true).
Proof.
  intros H. apply unpack_inv in H as (rew & anon & auth & sign & prior & t1 & t2 & t3 & O & _ & _ & _ & _ & P & ->). cbn.
  assert (R : rew = true -> anon <> None).
  { clear -O. induction O; try easy. intros _. destruct last; discriminate. }
  clear O. destruct anon as [[ks a]|], auth as [[ks' f]|], sign as [[k sa]|], prior as [[p kid]|]; cbn;
    repeat split; intros; try easy; eauto; try (destruct P as (jwt & P & _); eauto; fail);
    try (match goal with H : exists _, None = Some _ |- _ => destruct H; discriminate end);
    try (match goal with H : _ \/ _ |- _ => destruct H as [[? H]|[? H]]; discriminate end);
    try (match goal with H : exists _, msg_from_prior m = Some _ |- _ => destruct H; congruence end);
    try (exfalso; now apply R).
Qed.

Lemma signature_sound fuel text o tr m md kid : ran fuel text o tr m md -> um_sign_from md = Some kid ->
  exists signed sa payload, um_signed_message md = Some signed /\ um_sign_alg md = Some sa
    /\ signed_by C tr signed kid sa payload /\ message_from_str (fparse C) payload = Ok m.
Proof.
  intros H S. apply unpack_inv in H as (rew & anon & auth & sign & prior & t1 & t2 & t3 & O & _ & Si & M & _ & P & ->). cbn in *.
  destruct sign as [[k sa]|]; cbn in *; [|discriminate]. injection S as ->. exists t2, sa, t3. auto.
Qed.
Lemma sender_sound fuel text o tr m md kid : ran fuel text o tr m md -> um_encrypted_from_kid md = Some kid ->
  exists rew anon text1 j pt, outer C o tr text rew anon text1
    /\ auth_opened C tr (uo_all_keys o) text1 j kid pt
    /\ um_enc_alg_auth md = Some AuthA256cbcHs512
    /\ (anon = None -> um_encrypted_to_kids md = Some (recipient_kids j))
    /\ (um_signed_message md = None /\ message_from_str (fparse C) pt = Ok m
        \/ um_signed_message md = Some pt /\ exists k sa payload, signed_by C tr pt k sa payload /\ message_from_str (fparse C) payload = Ok m).
Proof.
  intros H S. apply unpack_inv in H as (rew & anon & auth & sign & prior & t1 & t2 & t3 & O & A & Si & M & _ & P & ->). cbn in *.
  destruct auth as [[ks k]|]; cbn in *; [|discriminate]. injection S as ->. destruct A as (j & A & ->). exists rew, anon, t1, j, t2.
  split; auto. split; auto. split; auto. split; [intros ->; reflexivity|].
  destruct sign as [[k' sa]|]; cbn.
  - right. split; auto. eauto.
  - left. destruct Si as [-> _]. auto.
Qed.
Lemma typ_plain fuel text o tr m md : ran fuel text o tr m md -> msg_typ m = B "application/didcomm-plain+json".
Proof. intros H. apply unpack_inv in H as (rew & anon & auth & sign & prior & t1 & t2 & t3 & O & A & Si & M & T & P & ->). exact T. Qed.
Lemma typ_reject fuel text o tr m x : jwe_from_str text = Err Malformed -> jws_from_str text = Err Malformed ->
  message_from_str (fparse C) text = Ok m -> msg_typ m <> B "application/didcomm-plain+json" ->
  exec (unpack C (S fuel) text o) tr x -> tr = [] /\ x = Some (Err Malformed).
Proof.
  intros E S M T H. unfold unpack in H. cbn [unpack_loop] in H.
  assert (A : forall md, try_anoncrypt C text o md = Ret (Ok None)) by (intros; unfold try_anoncrypt; rewrite E; reflexivity).
  rewrite A in H. cbn [bind] in H.
  assert (R : unpack_rest C text o um_init = Ret (Err Malformed)).
  { unfold unpack_rest, try_authcrypt. rewrite E. cbn [soft pbind bind]. unfold try_sign. rewrite S. cbn [soft pbind bind].
    unfold try_plaintext. rewrite M. cbn [soft pbind bind]. unfold msg_validate.
    destruct (beq (msg_typ m) plaintext_typ) eqn:B; [|reflexivity]. apply beq_eq in B. contradiction. }
  rewrite R in H. exact H.
Qed.

(** Every anoncrypt or authcrypt envelope opened. *)
Lemma outer_envelope o tr text rew anon text1 : outer C o tr text rew anon text1 ->
  forall j h, envelope C text j h -> ph_alg h = EcdhEsA256kw ->
  exists alg pt, anon_opened C tr (uo_all_keys o) text j alg pt /\ (rew = false -> text1 = pt).
Proof.
  intros O j h E A. inversion O as [t N|t j' alg pt AO U|t j' alg pt next v kid found rew' last t' AO U F Q O']; subst.
  - exfalso. destruct N as [N|(j' & h' & E' & A')].
    + destruct E as [E _]. congruence.
    + destruct (envelope_fun C _ _ _ _ _ E E') as [-> ->]. contradiction.
  - pose proof AO as (h' & apv & found & ce & E' & _). destruct (envelope_fun C _ _ _ _ _ E E') as [-> ->]. eauto.
  - pose proof AO as (h' & apv & fd & ce & E' & _). destruct (envelope_fun C _ _ _ _ _ E E') as [-> ->]. exists alg, pt. split; auto. discriminate.
Qed.
Lemma es_accepted fuel text o tr m md j h : ran fuel text o tr m md -> envelope C text j h -> ph_alg h = EcdhEsA256kw ->
  exists alg pt, anon_opened C tr (uo_all_keys o) text j alg pt.
Proof.
  intros H E A. apply unpack_inv in H as (rew & anon & auth & sign & prior & t1 & t2 & t3 & O & _).
  destruct (outer_envelope _ _ _ _ _ _ O _ _ E A) as (alg & pt & AO & _). eauto.
Qed.
Lemma pu_accepted fuel text o tr m md j h : ran fuel text o tr m md -> envelope C text j h -> ph_alg h = Ecdh1puA256kw ->
  exists from pt, auth_opened C tr (uo_all_keys o) text j from pt /\ um_encrypted_from_kid md = Some from.
Proof.
  intros H E A. apply unpack_inv in H as (rew & anon & auth & sign & prior & t1 & t2 & t3 & O & Au & _ & _ & _ & _ & ->).
  assert (t1 = text).
  { inversion O as [t N|t j' alg pt AO U|t j' alg pt next v kid found rew' last t' AO U F Q O']; subst; auto; exfalso;
    destruct AO as (h' & apv & fd & ce & E' & A' & _); destruct (envelope_fun C _ _ _ _ _ E E') as [-> ->]; congruence. }
  subst t1. destruct auth as [[ks from]|].
  - destruct Au as (j' & AO & ->). exists from, t2. pose proof AO as (h' & apv & fd & did & doc & ka & fk & E' & _).
    destruct (envelope_fun C _ _ _ _ _ E E') as [-> ->]. auto.
  - exfalso. destruct Au as [_ [N|(j' & h' & E' & N)]].
    + destruct E; congruence.
    + destruct (envelope_fun C _ _ _ _ _ E E') as [-> ->]. congruence.
Qed.
Lemma accepted_apv fuel text o tr m md j h : ran fuel text o tr m md -> envelope C text j h ->
  ph_alg h = EcdhEsA256kw \/ ph_alg h = Ecdh1puA256kw ->
  one_did (recipient_kids j) /\ exists apv, b64dec (ph_apv h) = Some apv /\ apv_for C (recipient_kids j) apv.
Proof.
  intros H E [A|A].
  - destruct (es_accepted _ _ _ _ _ _ _ _ H E A) as (alg & pt & h' & apv & fd & ce & E' & _ & _ & _ & _ & V & F & D & _).
    destruct (envelope_fun C _ _ _ _ _ E E') as [_ ->]. eauto.
  - destruct (pu_accepted _ _ _ _ _ _ _ _ H E A) as (from & pt & (h' & apv & fd & did & doc & ka & fk & E' & _ & _ & _ & _ & _ & V & F & D & _) & _).
    destruct (envelope_fun C _ _ _ _ _ E E') as [_ ->]. eauto.
Qed.
Lemma bad_apv_rejected fuel text o tr x j h : envelope C text j h -> ph_alg h = EcdhEsA256kw \/ ph_alg h = Ecdh1puA256kw ->
  (forall apv, b64dec (ph_apv h) = Some apv -> ~ apv_for C (recipient_kids j) apv) ->
  exec (unpack C (S fuel) text o) tr x -> tr = [] /\ x = Some (Err Malformed).
Proof.
  intros E [A|A] N H.
  - eapply es_unpack; eauto. intros ((apv & V & F) & _). now apply (N apv).
  - eapply pu_unpack; eauto. intros ((apv & V & F) & _). now apply (N apv).
Qed.
Lemma rewrapped_off fuel text o tr m md : ran fuel text o tr m md -> uo_unwrap o = false -> um_re_wrapped md = false.
Proof.
  intros H U. apply unpack_inv in H as (rew & anon & auth & sign & prior & t1 & t2 & t3 & O & _ & _ & _ & _ & _ & ->). cbn.
  inversion O; subst; auto; congruence.
Qed.
End Facts.
