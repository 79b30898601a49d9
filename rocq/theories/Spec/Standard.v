(** What remains to be assumed when the symmetric primitives are the standard ones. *)
From Verif.Model Require Import Prelude Json Crypto.
From Verif.Spec Require Import Small Codec Events World Packing Accept Works Size Ciphers.

(** Signatures are accepted, both sides of a key agreement get the same secret, public keys are JSON. *)
Record keys_agree (C : crypto) (pair : kalg -> key C -> key C -> Prop) : Prop := {
  agree_sign : forall a st p s m sg, pair a p s -> key_sign C a st s m = Some sg -> key_verify C a st p m sg = Some true;
  agree_es : forall a e epk jwk p s alg apu apv z, pair a p s -> key_gen C a e = Some epk -> to_jwk_public C a epk = Some jwk ->
    ecdh_es C a epk p alg apu apv false = Some z ->
    exists epk', from_jwk C a jwk = Some epk' /\ ecdh_es C a epk' s alg apu apv true = Some z;
  agree_1pu : forall a e epk jwk p s p' s' alg apu apv tag z, pair a p s -> pair a p' s' -> key_gen C a e = Some epk -> to_jwk_public C a epk = Some jwk ->
    ecdh_1pu C a epk s' p alg apu apv tag false = Some z ->
    exists epk', from_jwk C a jwk = Some epk' /\ ecdh_1pu C a epk' p' s alg apu apv tag true = Some z;
  agree_jwk : forall a e k v, key_gen C a e = Some k -> to_jwk_public C a k = Some v -> json_value (fparse C) 126 v }.

(** Keys can be generated and used. *)
Record keys_work (C : crypto) (pair : kalg -> key C -> key C -> Prop) : Prop := {
  work_gen : forall a e, agreement a -> key_gen C a e <> None;
  work_jwk : forall a e k, agreement a -> key_gen C a e = Some k -> to_jwk_public C a k <> None;
  work_es : forall a e epk v p alg apu apv, agreement a -> key_gen C a e = Some epk -> from_jwk C a v = Some p ->
    ecdh_es C a epk p alg apu apv false <> None;
  work_1pu : forall a e epk v p ps s alg apu apv tag, agreement a -> key_gen C a e = Some epk -> from_jwk C a v = Some p -> pair a ps s ->
    ecdh_1pu C a epk s p alg apu apv tag false <> None;
  work_sign : forall ja a st sa p s m, alg_row ja a st sa -> pair a p s -> key_sign C a st s m <> None }.

(** Signatures have 64 bytes, public keys [epk a]. *)
Record keys_sized (C : crypto) (epk : kalg -> nat) : Prop := {
  keys_sign : forall a st k m s, key_sign C a st k m = Some s -> size s = 64;
  keys_epk : forall a e k v, key_gen C a e = Some k -> to_jwk_public C a k = Some v -> size (print v) = epk a }.
