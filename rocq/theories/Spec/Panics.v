(** Answers from outside that cannot make an operation panic. *)
From Verif.Model Require Import Prelude Base58 DidDoc Crypto Effects.

(** The unsigned varint (LEB128) of [n] in at most [k] bytes, not necessarily the
    shortest one, and whatever follows. *)
Inductive starts_with_varint : nat -> bytes -> N -> Prop :=
| varint_last k c rest : (N_of_ascii c < 128)%N -> starts_with_varint (S k) (c :: rest) (N_of_ascii c)
| varint_more k c rest n : (128 <= N_of_ascii c)%N -> starts_with_varint k rest n ->
    starts_with_varint (S k) (c :: rest) (N_of_ascii c - 128 + 128 * n).

(** An Ed25519 secret in Base58 holds at least 32 bytes, in Multibase at least the
    two bytes of its multicodec and 32 more.  Nothing is asked of other secrets, nor
    of secrets that do not decode or are in another base or have another multicodec. *)
Definition long_enough (s : secret) : Prop :=
  match sec_type s, sec_material s with
  | Ed25519VerificationKey2018, MBase58 t => forall d, b58dec t = Some d -> 32 <= List.length d
  | Ed25519VerificationKey2020, MMultibase t =>
      forall u d, t = "z"%char :: u -> b58dec u = Some d -> starts_with_varint 5 d 0x1300 -> 34 <= List.length d
  | _, _ => True
  end.

(** The resolvers did not panic and gave no Ed25519 secret that is too short. *)
Definition calm (e : event) : Prop :=
  match e with
  | Ev (OResolve _) r => r <> Panic
  | Ev (OFindSecrets _) r => r <> Panic
  | Ev (OGetSecret _) r => r <> Panic /\ forall s, r = Ok (Some s) -> long_enough s
  | Ev (ORandom _) _ => True
  end.
