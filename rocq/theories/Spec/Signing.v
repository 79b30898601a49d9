(** What signing keys are used for. *)
From Verif.Model Require Import Prelude Utf8 Base64 Json Serde DidDoc Crypto Keys Effects Jws Jwe Message FromPrior Pack Routing Unpack.
From Verif.Spec Require Import Small Codec Events World Text.

(** [t] is the string signed for the message [m]: protected header and payload, each in
    base64url, with a dot between them. *)
Definition message_string (m : message) (t : bytes) : Prop :=
  exists a, alg_name a /\ t = b64enc (jws_header_text a) ++ B "." ++ b64enc (plain_text m).
(** [t] is the string signed for the rotation [p] by the key [kid]. *)
Definition rotation_string (kid : bytes) (p : from_prior) (t : bytes) : Prop :=
  exists a, alg_name a /\ t = b64enc (token_header_text kid a) ++ B "." ++ b64enc (prior_text p).

Section Signing.
Context (C : crypto).
(** Under the keys that this execution has seen published for [kid], nothing verifies
    but strings signed for messages in [msgs] or rotations in [priors]. *)
Definition only_signed (tr : list event) (kid : bytes) (msgs : message -> Prop) (priors : from_prior -> Prop) : Prop :=
  forall did doc ka k st t s, url_of did kid -> resolved tr did doc -> publishes C doc_authentication doc kid ka k ->
    key_verify C ka st k t s = Some true ->
    (exists m, msgs m /\ message_string m t) \/ (exists p, priors p /\ rotation_string kid p t).

(** Replace the signing primitive. *)
Definition with_sign (f : kalg -> sigtype -> key C -> bytes -> option bytes) : crypto := {|
  key := key C; from_jwk := from_jwk C; to_jwk_public := to_jwk_public C; x25519_from_secret := x25519_from_secret C;
  x25519_public_bytes := x25519_public_bytes C; x25519_secret_bytes := x25519_secret_bytes C; key_gen := key_gen C;
  key_sign := f; key_verify := key_verify C; ecdh_es := ecdh_es C; ecdh_1pu := ecdh_1pu C;
  kw_wrap := kw_wrap C; kw_unwrap := kw_unwrap C; cek_gen := cek_gen C; cek_import := cek_import C; nonce_gen := nonce_gen C;
  aead_enc := aead_enc C; aead_dec := aead_dec C; sha256 := sha256 C; fparse := fparse C |}.
End Signing.
