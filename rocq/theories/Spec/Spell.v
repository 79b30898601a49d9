(** Results of unpacking two texts that spell the same envelope or message. *)
From Verif.Model Require Import Prelude Message Unpack.

Definition with_signed (s : option bytes) (md : unpack_metadata) : unpack_metadata :=
  mkUM (um_encrypted md) (um_authenticated md) (um_non_repudiation md) (um_anonymous_sender md) (um_re_wrapped md)
       (um_encrypted_from_kid md) (um_encrypted_to_kids md) (um_sign_from md) (um_from_prior_issuer_kid md)
       (um_enc_alg_auth md) (um_enc_alg_anon md) (um_sign_alg md) s (um_from_prior md).

(** The same result; only the signed text that is kept as evidence is [t'] in place of [t]. *)
Definition same_result (t t' : bytes) (x x' : option (res (message * unpack_metadata))) : Prop :=
  x' = x \/ exists m md, x = Some (Ok (m, md)) /\ um_signed_message md = Some t /\ x' = Some (Ok (m, with_signed (Some t') md)).
