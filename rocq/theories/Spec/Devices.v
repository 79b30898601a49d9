(** Several devices of one recipient, each with some of its keys. *)
From Verif.Model Require Import Prelude DidDoc Crypto Effects Unpack.

(** One ciphertext opens to one text, whatever the key. *)
Definition committing (C : crypto) : Prop :=
  forall ce k1 k2 iv aad x p1 p2, aead_dec C ce k1 iv aad x = Some p1 -> aead_dec C ce k2 iv aad x = Some p2 -> p1 = p2.
(** Both devices get the same DID documents. *)
Definition same_documents (h1 h2 : handler) : Prop := forall did, h1 (OResolve did) = h2 (OResolve did).
(** Among any keys, one device holds some if and only if the other does. *)
Definition hold_alike (h1 h2 : handler) : Prop :=
  forall ids l1 l2, h1 (OFindSecrets ids) = Ok l1 -> h2 (OFindSecrets ids) = Ok l2 -> (l1 = [] <-> l2 = []).
