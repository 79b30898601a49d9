(** A signed message shown to somebody else. *)
From Verif.Model Require Import Prelude Utf8 Base64 Json Serde DidDoc Crypto Keys Effects Jws Jwe Message FromPrior Pack Routing Unpack.
From Verif.Spec Require Import Small Events World Accept.

(** What a third party should learn from the signed message reported in [md]: who signed,
    how and what, and the rotation in it; nothing of the encryption around it. *)
Definition evidence (md : unpack_metadata) : unpack_metadata :=
  {| um_encrypted := false; um_authenticated := true; um_non_repudiation := true; um_anonymous_sender := false; um_re_wrapped := false;
     um_encrypted_from_kid := None; um_encrypted_to_kids := None; um_sign_from := um_sign_from md;
     um_from_prior_issuer_kid := um_from_prior_issuer_kid md; um_enc_alg_auth := None; um_enc_alg_anon := None;
     um_sign_alg := um_sign_alg md; um_signed_message := um_signed_message md; um_from_prior := um_from_prior md |}.
(** [text] is not also an envelope that somebody would try to open. *)
Definition no_envelope (C : crypto) (text : bytes) : Prop := other_jwe C EcdhEsA256kw text /\ other_jwe C Ecdh1puA256kw text.
