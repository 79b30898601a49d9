(** Sizes: what bounds the work of unpacking. *)
From Verif.Model Require Import Prelude Crypto.

(** Opening an authenticated ciphertext never yields more bytes than it contains. *)
Definition aead_shrinks (C : crypto) : Prop :=
  forall ce cek iv aad c p, aead_dec C ce cek iv aad c = Some p -> List.length p <= List.length c.
