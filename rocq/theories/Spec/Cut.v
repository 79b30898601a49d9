(** Texts that end too early. *)
From Verif.Model Require Import Prelude Json Crypto Effects Message Pack Routing.
From Verif.Spec Require Import Codec Small Text Grammar World Events.

(** [cut_off t]: [t] is no JSON text but the beginning of one.  Up to three characters after
    an unfinished [\u] at its very end may be anything: they are not looked at. *)
Definition unfinished (u x : bytes) : Prop := x = [] \/ List.length x < 4 /\ exists v, u = v ++ B "\u".
Definition begins (P : bytes -> Prop) (t : bytes) : Prop := exists u x r, t = u ++ x /\ unfinished u x /\ P (u ++ r).
Definition cut_off (t : bytes) : Prop := ~ json_syntax t /\ begins json_syntax t.

(** Two custom headers: one with a name of an encrypted message, one with a name of a signed one. *)
Definition both_names (m : message) : Prop :=
  (exists k, In k (map fst (msg_extra m)) /\ In k jwe_names) /\ (exists k, In k (map fst (msg_extra m)) /\ In k jws_names).

(** [text] was written by one of the three packing functions from [m]. *)
Definition packed_as (C : crypto) (m : message) (text : bytes) : Prop :=
  (exists tr, exec (pack_plaintext C m) tr (Ok text))
  \/ (exists by_ tr kid, exec (pack_signed C m by_) tr (Ok (text, kid)))
  \/ (exists to from sign_by o tr pm, exec (pack_encrypted C m to from sign_by o) tr (Ok (text, pm))).
