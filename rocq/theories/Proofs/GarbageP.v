(** Texts that are neither an envelope nor a message. *)
From Verif.Model Require Import Prelude Utf8 Base64 Json Serde DidDoc Crypto Keys Effects Jws Jwe Message FromPrior Pack Routing Unpack.
From Verif.Spec Require Import Codec Small Events.
From Verif.Proofs Require Import Lib JsonP JsonDec SerdeP CodecP Errs.

Section Garbage.
Context (C : crypto).
Lemma reject_with (K : errkind -> Prop) fuel text o tr x :
  K Malformed ->
  errs K (jwe_from_str text) -> errs K (jws_from_str text) -> errs K (message_from_str (fparse C) text) ->
  (forall j, jwe_from_str text <> Ok j) -> (forall j, jws_from_str text <> Ok j) ->
  (forall m, message_from_str (fparse C) text <> Ok m) ->
  exec (unpack C (S fuel) text o) tr x -> tr = [] /\ exists k, K k /\ x = Some (Err k).
Proof.
  intros KM E1 E2 E3 N1 N2 N3. unfold unpack. cbn [unpack_loop]. unfold try_anoncrypt.
  destruct (jwe_from_str text) as [j|k1|] eqn:J; [destruct (N1 j); auto| |destruct E1]. cbn in E1.
  assert (D1 : k1 = Malformed \/ k1 <> Malformed) by (destruct k1; auto; right; discriminate).
  destruct D1 as [->|D1].
  2:{ destruct k1; try (cbn; intros (-> & ->); split; auto; eexists; split; eauto; fail). now destruct D1. }
  cbn [soft pbind bind]. unfold unpack_rest, try_authcrypt. rewrite J. cbn [soft pbind bind]. unfold try_sign.
  destruct (jws_from_str text) as [j|k2|] eqn:J2; [destruct (N2 j); auto| |destruct E2]. cbn in E2.
  assert (D2 : k2 = Malformed \/ k2 <> Malformed) by (destruct k2; auto; right; discriminate).
  destruct D2 as [->|D2].
  2:{ destruct k2; try (cbn; intros (-> & ->); split; auto; eexists; split; eauto; fail). now destruct D2. }
  cbn [soft pbind bind]. unfold try_plaintext.
  destruct (message_from_str (fparse C) text) as [j|k3|] eqn:J3; [destruct (N3 j); auto| |destruct E3]. cbn in E3.
  destruct k3; cbn; intros (-> & ->); split; auto; eexists; split; eauto.
Qed.
Lemma garbage_rejected fuel text o tr x :
  (forall j, jwe_from_str text <> Ok j) -> (forall j, jws_from_str text <> Ok j) ->
  (forall m, message_from_str (fparse C) text <> Ok m) ->
  exec (unpack C (S fuel) text o) tr x ->
  tr = [] /\ (x = Some (Err Malformed) \/ x = Some (Err InvalidState)).
Proof.
  intros N1 N2 N3 H. destruct (reject_with json_kind _ _ _ _ _ jm (jwe_str_errs _) (jws_str_errs _) (msg_str_errs _ _) N1 N2 N3 H) as (-> & k & [-> | ->] & ->); auto.
Qed.
Lemma json_rejected fuel d v o tr x :
  json_value (fparse C) d v ->
  (forall j, jwe_from_str (print v) <> Ok j) -> (forall j, jws_from_str (print v) <> Ok j) ->
  (forall m, message_from_str (fparse C) (print v) <> Ok m) ->
  exec (unpack C (S fuel) (print v) o) tr x -> tr = [] /\ x = Some (Err Malformed).
Proof.
  intros V N1 N2 N3 H. apply json_value_ok in V as (W & _ & _). apply wfv_printable in W.
  assert (E : tr = [] /\ exists k, k = Malformed /\ x = Some (Err k)).
  { apply (reject_with (fun k => k = Malformed) fuel (print v) o); auto; apply print_errs; auto.
    - apply errs_jwe; auto. intros e [].
    - apply errs_jws; auto. intros e [].
    - apply errs_message; auto. intros e []. }
  destruct E as (-> & k & -> & ->). auto.
Qed.
End Garbage.
