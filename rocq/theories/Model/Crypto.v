(** The cryptographic primitives of askar-crypto and sha2 that the code calls, as
    a record.  Nothing is assumed about them here; laws are stated separately in
    Spec/World.v and appear as hypotheses of the theorems that need them. *)
From Verif.Model Require Import Prelude Json.

(** src/utils/crypto.rs:115-122: KnownKeyAlg *)
Inductive kalg := KEd25519 | KX25519 | KP256 | KK256 | KUnsupported.

(** Derived PartialEq of KnownKeyAlg, src/utils/crypto.rs:115-122. *)
Definition kalg_eqb (a b : kalg) : bool :=
  match a, b with
  | KEd25519, KEd25519 | KX25519, KX25519 | KP256, KP256 | KK256, KK256
  | KUnsupported, KUnsupported => true
  | _, _ => false
  end.

(** askar_crypto::sign::SignatureType, in the three values used (src/jws/envelope.rs). *)
Inductive sigtype := SigEdDSA | SigES256 | SigES256K.

(** Content encryption keys: AesKey<A256CbcHs512>, Chacha20Key<XC20P>, AesKey<A256Gcm>.
    (The CE parameters of src/message/pack_encrypted/anoncrypt.rs:103-131 and authcrypt.rs.) *)
Inductive cenc := CA256CbcHs512 | CXC20P | CA256Gcm.

(** The primitives, one field each; the comments cite where src/ calls them
    (src/utils/crypto.rs:17-113, src/jwe/encrypt.rs:37-112, src/jws/sign.rs, src/jws/verify.rs,
    src/jwk.rs:10-31). *)
Record crypto := {
  (** An askar key pair (public part, and secret part if known), of any algorithm. *)
  key : Type;
  (** FromJwk::from_jwk on the printed JWK (src/jwk.rs:10-18). *)
  from_jwk : kalg -> value -> option key;
  (** ToJwk::to_jwk_public followed by JSON parsing (src/jwk.rs:20-31). *)
  to_jwk_public : kalg -> key -> option value;
  (** X25519KeyPair::from_secret_bytes, with_public_bytes, with_secret_bytes
      (src/utils/did.rs:335-351). *)
  x25519_from_secret : bytes -> option key;
  x25519_public_bytes : key -> bytes;
  x25519_secret_bytes : key -> option bytes;
  (** KeyGen::generate: a key from entropy. *)
  key_gen : kalg -> bytes -> option key;
  (** KeySign::create_signature and KeySigVerify::verify_signature. *)
  key_sign : kalg -> sigtype -> key -> bytes -> option bytes;
  key_verify : kalg -> sigtype -> key -> bytes -> bytes -> option bool;
  (** AesKey<A256Kw>::from_key_derivation of EcdhEs / Ecdh1PU
      (src/utils/crypto.rs:67-113): arguments are ephemeral key, (sender key,)
      recipient key, alg, apu, apv, (cc_tag,) receive. *)
  ecdh_es : kalg -> key -> key -> bytes -> bytes -> bytes -> bool -> option bytes;
  ecdh_1pu : kalg -> key -> key -> key -> bytes -> bytes -> bytes -> bytes -> bool -> option bytes;
  (** AesKey<A256Kw>::encrypt_in_place / decrypt_in_place (src/utils/crypto.rs:18-48). *)
  kw_wrap : bytes -> bytes -> option bytes;
  kw_unwrap : bytes -> bytes -> option bytes;
  (** Content keys: generate from entropy, import (from_secret_bytes). *)
  cek_gen : cenc -> bytes -> option bytes;
  cek_import : cenc -> bytes -> option bytes;
  nonce_gen : cenc -> bytes -> bytes;
  (** KeyAeadInPlace::encrypt_in_place: key, nonce, aad, plaintext; result is split
      at the returned ciphertext length into ciphertext and tag. *)
  aead_enc : cenc -> bytes -> bytes -> bytes -> bytes -> option (bytes * bytes);
  (** decrypt_in_place on ciphertext followed by tag. *)
  aead_dec : cenc -> bytes -> bytes -> bytes -> bytes -> option bytes;
  (** Sha256::digest *)
  sha256 : bytes -> bytes;
  (** serde_json number parsing, see Json.v. *)
  fparse : bytes -> option bytes
}.
