(** What signing keys are used for. *)
From Verif.Model Require Import Prelude Utf8 Base64 Json Serde DidDoc Crypto Keys Effects Jws Jwe Message FromPrior Pack Routing Unpack.
From Verif.Spec Require Import Codec Small Events Toy World Signing.
From Verif.Proofs Require Import Lib NoPanic UnpackFacts RoundP ToyP HideP SigningP.
From Verif.Props Require Import RoundTrip.

(** C09.  If a key has only signed messages in [msgs] and rotations in [priors], a text
    accepted as signed by it gives one of these messages... *)
Theorem C09_messages_honest : forall C fuel text o tr m md kid (msgs : message -> Prop) (priors : from_prior -> Prop),
  (forall m', msgs m' -> message_fits C m') -> (forall p, priors p -> prior_fits p) ->
  exec (unpack C fuel text o) tr (Some (Ok (m, md))) -> um_sign_from md = Some kid ->
  only_signed C tr kid msgs priors -> msgs m.
Proof.
  intros C fuel text o tr m md kid msgs priors MF PF R S OS.
  destruct (signature_sound C fuel text o tr m md kid R S) as (signed & sa & payload & _ & _ & SB & M).
  exact (honest_signed C msgs priors MF PF tr signed kid sa payload m OS SB M).
Qed.
Print Assumptions C09_messages_honest.
(** ... and a rotation accepted as signed by it is one of these rotations. *)
Theorem C09_rotations_honest : forall C fuel text o tr m md kid p (msgs : message -> Prop) (priors : from_prior -> Prop),
  (forall p, priors p -> prior_fits p) ->
  exec (unpack C fuel text o) tr (Some (Ok (m, md))) -> um_from_prior md = Some p -> um_from_prior_issuer_kid md = Some kid ->
  only_signed C tr kid msgs priors -> priors p.
Proof.
  intros C fuel text o tr m md kid p msgs priors PF R P K OS.
  apply UnpackInv.unpack_inv in R as (rew & anon & auth & sign & prior & t1 & t2 & t3 & _ & _ & _ & _ & _ & Q & ->). cbn in P, K.
  destruct prior as [[p' kid']|]; cbn in P, K; [|discriminate]. injection P as ->. injection K as ->. destruct Q as (jwt & _ & Q).
  exact (honest_rotation C msgs priors PF tr jwt kid p OS Q).
Qed.
Print Assumptions C09_rotations_honest.
(** pack_signed and FromPrior::pack use the signing primitive on these strings only:
    replacing it elsewhere changes nothing. *)
Theorem C09_signing_inputs : forall C f m sign_by tr x, (forall ka st k t, message_string m t -> f ka st k t = key_sign C ka st k t) ->
  exec (pack_signed C m sign_by) tr x <-> exec (pack_signed (with_sign C f) m sign_by) tr x.
Proof. intros C f m sign_by tr x H. exact (signed_inputs C f m sign_by H tr x). Qed.
Print Assumptions C09_signing_inputs.
Theorem C09_rotation_inputs : forall C f p kid tr x, (forall ka st k kid t, rotation_string kid p t -> f ka st k t = key_sign C ka st k t) ->
  exec (from_prior_pack C p kid) tr x <-> exec (from_prior_pack (with_sign C f) p kid) tr x.
Proof. intros C f p kid tr x H. exact (prior_inputs C f p kid H tr x). Qed.
Print Assumptions C09_rotation_inputs.

(** The toy primitives, with verification limited to given strings. *)
Definition picky (l : list bytes) : crypto := {|
  key := key toy; from_jwk := from_jwk toy; to_jwk_public := to_jwk_public toy; x25519_from_secret := x25519_from_secret toy;
  x25519_public_bytes := x25519_public_bytes toy; x25519_secret_bytes := x25519_secret_bytes toy; key_gen := key_gen toy;
  key_sign := key_sign toy; key_verify := fun a st k t s => if bmem t l then key_verify toy a st k t s else Some false;
  ecdh_es := ecdh_es toy; ecdh_1pu := ecdh_1pu toy;
  kw_wrap := kw_wrap toy; kw_unwrap := kw_unwrap toy; cek_gen := cek_gen toy; cek_import := cek_import toy; nonce_gen := nonce_gen toy;
  aead_enc := aead_enc toy; aead_dec := aead_dec toy; sha256 := sha256 toy; fparse := fparse toy |}.
Definition rich_string : bytes :=
  b64enc (B "{""typ"":""application/didcomm-signed+json"",""alg"":""EdDSA""}") ++ "."%char :: b64enc (message_text rich_msg).
Definition prior_string : bytes :=
  b64enc (B "{""typ"":""JWT"",""alg"":""EdDSA"",""kid"":""did:ex:alice#e""}") ++ "."%char :: b64enc (print (from_prior_tree toy_prior)).
Definition careful := picky [rich_string; prior_string].
Definition rich_signed : bytes := Eval vm_compute in text_of (run (toy_env toy_docs sec_alice) (pack_signed toy rich_msg (B "did:ex:alice"))).
Example C09_case : forall tr, only_signed careful tr (B "did:ex:alice#e") (fun m => m = rich_msg) (fun p => p = toy_prior)
  /\ message_fits careful rich_msg /\ prior_fits toy_prior
  /\ exists md, run (toy_env toy_docs sec_bob) (unpack careful 2 rich_signed default_unpack_options) = Some (Ok (rich_msg, md))
       /\ um_sign_from md = Some (B "did:ex:alice#e").
Proof.
  intros tr. split; [|split; [exact rich_fits|split]].
  - intros did doc ka k st t s _ _ _ V. cbn [careful picky key_verify] in V. destruct (bmem t [rich_string; prior_string]) eqn:E; [|discriminate].
    apply bmem_In in E. destruct E as [<-|[<-|[]]].
    + left. exists rich_msg. split; [reflexivity|]. exists (B "EdDSA"). split; [constructor|reflexivity].
    + right. exists toy_prior. split; [reflexivity|]. exists (B "EdDSA"). split; [constructor|reflexivity].
  - repeat split; try reflexivity; some_none.
  - eexists. vm_compute. repeat split.
Qed.
