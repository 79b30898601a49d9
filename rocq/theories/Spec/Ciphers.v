(** The symmetric primitives as their standards define them (SHA-256, the Concat KDF of RFC 7518
    4.6, A256KW of RFC 3394, A256CBC-HS512, A256GCM, XC20P), put in place of those of a record of
    primitives.  In Rust the lengths of keys and nonces are part of their types; here they are
    looked at. *)
From Verif.Model Require Import Prelude Crypto.
From Verif.Spec Require Import Sha2 Aes Chacha.
Local Open Scope N_scope.

(** The first [n] bytes. *)
Definition fit (n : nat) (s : bytes) : list N := firstn n (ns s ++ zeros n).
Definition cek_len (c : cenc) : nat := match c with CA256CbcHs512 => 64 | _ => 32 end%nat.
Definition nonce_len (c : cenc) : nat := match c with CA256CbcHs512 => 16 | CXC20P => 24 | CA256Gcm => 12 end%nat.
Definition right_lengths (c : cenc) (k n : bytes) : bool :=
  Nat.eqb (List.length k) (cek_len c) && Nat.eqb (List.length n) (nonce_len c).
Definition std_enc (c : cenc) (k n aad p : bytes) : option (bytes * bytes) :=
  if right_lengths c k n then
    let f := match c with CA256CbcHs512 => cbchs_enc | CXC20P => xc20p_enc | CA256Gcm => gcm_enc end in
    let '(x, t) := f (ns k) (ns n) (ns aad) (ns p) in Some (bs x, bs t)
  else None.
Definition std_dec (c : cenc) (k n aad ct : bytes) : option bytes :=
  if right_lengths c k n then
    let f := match c with CA256CbcHs512 => cbchs_dec | CXC20P => xc20p_dec | CA256Gcm => gcm_dec end in
    option_map bs (f (ns k) (ns n) (ns aad) (ns ct))
  else None.
(** Whole blocks of 8 bytes, two at least. *)
Definition wrappable (p : bytes) : bool := Nat.eqb (Nat.modulo (List.length p) 8) 0 && Nat.leb 16 (List.length p).
Definition std_wrap (k p : bytes) : option bytes := if wrappable p then Some (bs (kw_wrap_n (fit 32 k) (ns p))) else None.
Definition std_unwrap (k c : bytes) : option bytes := option_map bs (kw_unwrap_n (fit 32 k) (ns c)).
Definition std_cek (c : cenc) (e : bytes) : option bytes := Some (bs (fit (cek_len c) e)).
Definition std_import (c : cenc) (k : bytes) : option bytes := if Nat.eqb (List.length k) (cek_len c) then Some k else None.
Definition std_nonce (c : cenc) (e : bytes) : bytes := bs (fit (nonce_len c) e).
Definition std_sha256 (m : bytes) : bytes := bs (sha256_n (ns m)).

(** The Concat KDF, one round: [z] is the shared secret, [pub] the length of the key and what
    follows it. *)
Definition prefixed (l : list N) : list N := to_be 4 (len l) ++ l.
Definition concat_kdf (z alg apu apv pub : list N) : list N :=
  sha256_n ([0; 0; 0; 1] ++ z ++ prefixed alg ++ prefixed apu ++ prefixed apv ++ pub).
Definition std_kdf (z alg apu apv tag : bytes) : bytes :=
  bs (concat_kdf (ns z) (ns alg) (ns apu) (ns apv) (to_be 4 256 ++ match tag with [] => [] | _ => prefixed (ns tag) end)).

(** Keys, key agreement and signatures of [C], everything else from the standards.  What [C]
    gives for a key agreement is taken for the shared secret. *)
Definition standard (C : crypto) : crypto := {|
  key := key C;
  from_jwk := from_jwk C;
  to_jwk_public := to_jwk_public C;
  x25519_from_secret := x25519_from_secret C;
  x25519_public_bytes := x25519_public_bytes C;
  x25519_secret_bytes := x25519_secret_bytes C;
  key_gen := key_gen C;
  key_sign := key_sign C;
  key_verify := key_verify C;
  ecdh_es := fun a e r alg apu apv receive =>
    option_map (fun z => std_kdf z alg apu apv []) (ecdh_es C a e r alg apu apv receive);
  ecdh_1pu := fun a e s r alg apu apv tag receive =>
    option_map (fun z => std_kdf z alg apu apv tag) (ecdh_1pu C a e s r alg apu apv tag receive);
  kw_wrap := std_wrap;
  kw_unwrap := std_unwrap;
  cek_gen := std_cek;
  cek_import := std_import;
  nonce_gen := std_nonce;
  aead_enc := std_enc;
  aead_dec := std_dec;
  sha256 := std_sha256;
  fparse := fparse C
|}.
