(** What may depend on private keys. *)
From Verif.Model Require Import Prelude Utf8 Base64 Json Serde DidDoc Crypto Keys Effects Jws Jwe Message FromPrior Pack Routing Unpack.

Section Leak.
Context (C : crypto).

(** Keys that cannot be told apart by signing with them, ... *)
Definition sign_alike (a : kalg) (k1 k2 : key C) : Prop :=
  forall st m, key_sign C a st k1 m = key_sign C a st k2 m.
(** ... by agreeing on a key as the sender, ... *)
Definition send_alike (a : kalg) (k1 k2 : key C) : Prop :=
  forall epk r alg apu apv tag, ecdh_1pu C a epk k1 r alg apu apv tag false = ecdh_1pu C a epk k2 r alg apu apv tag false.
(** ... or as the recipient. *)
Definition receive_alike (a : kalg) (k1 k2 : key C) : Prop :=
  (forall epk alg apu apv, ecdh_es C a epk k1 alg apu apv true = ecdh_es C a epk k2 alg apu apv true)
  /\ forall epk s alg apu apv tag, ecdh_1pu C a epk s k1 alg apu apv tag true = ecdh_1pu C a epk s k2 alg apu apv tag true.

(** Secrets of the same kind whose keys are alike; both unreadable for the same reason
    otherwise. *)
Definition secret_alike (alike : kalg -> key C -> key C -> Prop) (s1 s2 : secret) : Prop :=
  sec_key_alg s1 = sec_key_alg s2
  /\ match sec_key_pair C s1, sec_key_pair C s2 with
     | Ok (a1, k1), Ok (a2, k2) => a1 = a2 /\ alike a1 k1 k2
     | Err e1, Err e2 => e1 = e2
     | Panic, Panic => True
     | _, _ => False
     end.
Definition found_alike (alike : kalg -> key C -> key C -> Prop) (r1 r2 : res (option secret)) : Prop :=
  match r1, r2 with
  | Ok (Some s1), Ok (Some s2) => secret_alike alike s1 s2
  | Ok None, Ok None => True
  | Err e1, Err e2 => e1 = e2
  | Panic, Panic => True
  | _, _ => False
  end.

(** The same surroundings but for the secrets, which are alike. *)
Record other_secrets (alike : kalg -> key C -> key C -> Prop) (h1 h2 : handler) : Prop := {
  os_resolve : forall did, h1 (OResolve did) = h2 (OResolve did);
  os_find : forall ids, h1 (OFindSecrets ids) = h2 (OFindSecrets ids);
  os_get : forall id, found_alike alike (h1 (OGetSecret id)) (h2 (OGetSecret id));
  os_random : forall u, h1 (ORandom u) = h2 (ORandom u) }.
End Leak.

(** The same surroundings but for the secrets, which may be any. *)
Record any_secrets (h1 h2 : handler) : Prop := {
  as_resolve : forall did, h1 (OResolve did) = h2 (OResolve did);
  as_random : forall u, h1 (ORandom u) = h2 (ORandom u) }.

(** The calls a program makes. *)
Fixpoint calls (h : handler) {A} (p : prog A) : list op :=
  match p with Ret _ => [] | Do o k => o :: calls h (k (h o)) end.
(** Same result, same calls. *)
Definition no_difference {A} (h1 h2 : handler) (p : prog A) : Prop :=
  run h1 p = run h2 p /\ calls h1 p = calls h2 p.
