(** Third parties and signed messages. *)
From Verif.Model Require Import Prelude Utf8 Base64 Json Serde DidDoc Crypto Keys Effects Jws Jwe Message FromPrior Pack Routing Unpack.
From Verif.Spec Require Import Small Events World Accept Evidence.
From Verif.Proofs Require Import Lib SmallP NoPanic RoundP AcceptP ExactP.

Lemma shown_iff C dir own own' fuel text o tr m md s fuel' o' tr' x :
  exec (unpack C fuel text o) tr (Some (Ok (m, md))) -> Forall (answers dir own) tr -> um_signed_message md = Some s ->
  exec (unpack C (S fuel') s o') tr' x -> Forall (answers dir own') tr' ->
  (x = Some (Ok (m, evidence md)) <-> no_envelope C s).
Proof.
  intros X F SM X' F'. destruct (acceptable_sound C dir own _ _ _ _ _ _ X F) as (n & _ & H).
  destruct H as (rew & anon & auth & sign & prior & t1 & t2 & t3 & L & A & SG & R & T & P & ->).
  cbn [um_signed_message] in SM. destruct sign as [[kid sa]|]; [|discriminate SM]. cbn [option_map] in SM. injection SM as ->. split.
  - intros ->. destruct (acceptable_sound C dir own' _ _ _ _ _ _ X' F') as (n' & _ & H').
    destruct H' as (rew' & anon' & auth' & sign' & prior' & u1 & u2 & u3 & L' & A' & _ & _ & _ & _ & E).
    assert (E1 : is_some anon' || is_some auth' = false) by (apply (f_equal um_encrypted) in E; cbn in E; congruence).
    destruct anon'; [discriminate E1|]. destruct auth'; [discriminate E1|]. destruct A' as [-> A'].
    inversion L'; subst.
    + now split.
    + destruct last; discriminate.
  - intros [N1 N2].
    apply (safe_exec _ _ _ _ _ (valid_accepted C dir own' o' 0 s m _ (S fuel')
      (ex_intro _ false (ex_intro _ None (ex_intro _ None (ex_intro _ (Some (kid, sa)) (ex_intro _ prior (ex_intro _ s (ex_intro _ s (ex_intro _ t3
        (conj (layers_none C dir own' _ o' s N1) (conj (conj eq_refl N2) (conj SG (conj R (conj T (conj P eq_refl)))))))))))))) (Nat.lt_0_succ _)) X' F').
Qed.
(** The rotation token in a received message. *)
Lemma token_shown C dir own own' fuel text o tr m md jwt tr' x :
  exec (unpack C fuel text o) tr (Some (Ok (m, md))) -> Forall (answers dir own) tr -> msg_from_prior m = Some jwt ->
  exec (from_prior_unpack C jwt) tr' x -> Forall (answers dir own') tr' ->
  exists p kid, um_from_prior md = Some p /\ um_from_prior_issuer_kid md = Some kid /\ x = Ok (p, kid).
Proof.
  intros X F J X' F'. destruct (acceptable_sound C dir own _ _ _ _ _ _ X F) as (n & _ & H).
  destruct H as (rew & anon & auth & sign & prior & t1 & t2 & t3 & L & A & SG & R & T & P & ->).
  destruct prior as [[p kid]|]; [|congruence]. destruct P as (jwt' & J' & V). rewrite J in J'. injection J' as <-.
  exists p, kid. split; [reflexivity|]. split; [reflexivity|].
  exact (safe_exec _ _ _ _ _ (rotation_accept C dir own' jwt p kid V) X' F').
Qed.
