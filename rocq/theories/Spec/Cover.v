(** An anonymous envelope around a text that could be unpacked by itself. *)
From Verif.Model Require Import Prelude DidDoc Crypto Keys Effects Jwe Message FromPrior Pack Unpack.
From Verif.Spec Require Import World.

(** The metadata [md] of a text, when it came in an anoncrypt envelope to [kids]. *)
Definition covered (kids : list bytes) (alg : anon_alg) (md : unpack_metadata) : unpack_metadata :=
  {| um_encrypted := true;
     um_authenticated := um_authenticated md;
     um_non_repudiation := um_non_repudiation md;
     um_anonymous_sender := true;
     um_re_wrapped := um_re_wrapped md;
     um_encrypted_from_kid := um_encrypted_from_kid md;
     um_encrypted_to_kids := Some kids;
     um_sign_from := um_sign_from md;
     um_from_prior_issuer_kid := um_from_prior_issuer_kid md;
     um_enc_alg_auth := um_enc_alg_auth md;
     um_enc_alg_anon := Some alg;
     um_sign_alg := um_sign_alg md;
     um_signed_message := um_signed_message md;
     um_from_prior := um_from_prior md |}.

(** The resolvers behind [h] answer from [dir] and [own]. *)
Definition answers_from (dir : bytes -> option diddoc) (own : bytes -> option secret) (h : handler) : Prop :=
  forall o, answers dir own (Ev o (h o)).
(** Somebody without any secrets. *)
Definition nobody : bytes -> option secret := fun _ => None.
