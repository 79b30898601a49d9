(** The record of primitives filled with real ones.  As in askar-crypto, kty and crv of a JWK are
    not looked at (src/jwe/decrypt.rs:470-474).  Differences from askar-crypto: a JWK with a
    private part is not checked against its public part, and signatures take their nonces from
    another derivation.  Floats are kept as written. *)
From Verif.Model Require Import Prelude Base64 Json Crypto DidDoc Effects Message Unpack.
From Verif.Spec Require Import Sha2 Aes Chacha Ciphers.
From Verif.Tests Require Import Curves.
Open Scope N_scope.

(** Public and private part; for points of a Weierstrass curve the public part is x and y. *)
Record rkey := mkRK { rk_pub : list N; rk_sec : option (list N) }.

Definition jfield (k : string) (v : value) : option bytes :=
  match v with
  | VObj l => match amap_get (B k) l with Some (VStr s) => Some s | _ => None end
  | _ => None
  end.
Definition jbytes (k : string) (v : value) : option (list N) :=
  match jfield k v with
  | Some s => match b64dec s with Some b => if Nat.eqb (List.length b) 32 then Some (ns b) else None | None => None end
  | None => None
  end.
Definition curve_of (a : kalg) : option curve := match a with KP256 => Some secp256r1 | KK256 => Some secp256k1 | _ => None end.
Definition curve_name (a : kalg) : string :=
  match a with KEd25519 => "Ed25519" | KX25519 => "X25519" | KP256 => "P-256" | KK256 => "secp256k1" | KUnsupported => "" end%string.
Definition real_from_jwk (a : kalg) (v : value) : option rkey :=
  match curve_of a with
  | Some c =>
      match jbytes "x" v, jbytes "y" v with
      | Some x, Some y => if on_curve c (be x) (be y) then Some (mkRK (x ++ y) (jbytes "d" v)) else None
      | _, _ => None
      end
  | None => match jbytes "x" v with Some x => Some (mkRK x (jbytes "d" v)) | None => None end
  end.
Definition jstr (l : list N) : value := VStr (b64enc (bs l)).
Definition real_to_jwk (a : kalg) (k : rkey) : option value :=
  let crv := VStr (B (curve_name a)) in
  match curve_of a with
  | Some _ => Some (VObj [(B "crv", crv); (B "kty", VStr (B "EC")); (B "x", jstr (firstn 32 (rk_pub k))); (B "y", jstr (skipn 32 (rk_pub k)))])
  | None => Some (VObj [(B "crv", crv); (B "kty", VStr (B "OKP")); (B "x", jstr (rk_pub k))])
  end.
Definition point (k : rkey) : N * N := (be (firstn 32 (rk_pub k)), be (skipn 32 (rk_pub k))).
Definition unpoint (p : N * N) : list N := to_be 32 (fst p) ++ to_be 32 (snd p).
Definition real_key_gen (a : kalg) (e : bytes) : option rkey :=
  let sk := fit 32 e in
  match a with
  | KEd25519 => Some (mkRK (ed_public sk) (Some sk))
  | KX25519 => Some (mkRK (x25519 sk base25) (Some sk))
  | _ => match curve_of a with
         | Some c => match wmul c (be sk) (wbase c) with Some p => Some (mkRK (unpoint p) (Some sk)) | None => None end
         | None => None
         end
  end.
(** Diffie-Hellman of the secret of the first with the public part of the second. *)
Definition dh (a : kalg) (k p : rkey) : option (list N) :=
  match rk_sec k with
  | None => None
  | Some sk =>
      match a with
      | KX25519 => Some (x25519 sk (rk_pub p))
      | _ => match curve_of a with
             | Some c => match wmul c (be sk) (point p) with Some q => Some (to_be 32 (fst q)) | None => None end
             | None => None
             end
      end
  end.
Definition real_es (a : kalg) (e r : rkey) (alg apu apv : bytes) (receive : bool) : option bytes :=
  match (if receive then dh a r e else dh a e r) with
  | Some z => Some (std_kdf (bs z) alg apu apv [])
  | None => None
  end.
Definition real_1pu (a : kalg) (e s r : rkey) (alg apu apv tag : bytes) (receive : bool) : option bytes :=
  match (if receive then dh a r e else dh a e r), (if receive then dh a r s else dh a s r) with
  | Some ze, Some zs => Some (std_kdf (bs (ze ++ zs)) alg apu apv tag)
  | _, _ => None
  end.
Definition real_sign (a : kalg) (t : sigtype) (k : rkey) (m : bytes) : option bytes :=
  match a, t, rk_sec k with
  | KEd25519, SigEdDSA, Some sk => Some (bs (ed_sign sk (rk_pub k) (ns m)))
  | KP256, SigES256, Some sk => option_map bs (ecdsa_sign secp256r1 (be sk) (sha256_n (ns m)))
  | KK256, SigES256K, Some sk => option_map bs (ecdsa_sign secp256k1 (be sk) (sha256_n (ns m)))
  | _, _, _ => None
  end.
Definition real_verify (a : kalg) (t : sigtype) (k : rkey) (m sig : bytes) : option bool :=
  match a, t with
  | KEd25519, SigEdDSA => Some (ed_verify (rk_pub k) (ns m) (ns sig))
  | KP256, SigES256 => Some (ecdsa_verify secp256r1 (point k) (sha256_n (ns m)) (ns sig))
  | KK256, SigES256K => Some (ecdsa_verify secp256k1 (point k) (sha256_n (ns m)) (ns sig))
  | _, _ => None
  end.
Definition real : crypto := {|
  key := rkey;
  from_jwk := real_from_jwk;
  to_jwk_public := real_to_jwk;
  x25519_from_secret := fun s => if Nat.eqb (List.length s) 32 then real_key_gen KX25519 s else None;
  x25519_public_bytes := fun k => bs (rk_pub k);
  x25519_secret_bytes := fun k => option_map bs (rk_sec k);
  key_gen := real_key_gen;
  key_sign := real_sign;
  key_verify := real_verify;
  ecdh_es := real_es;
  ecdh_1pu := real_1pu;
  kw_wrap := std_wrap;
  kw_unwrap := std_unwrap;
  cek_gen := std_cek;
  cek_import := std_import;
  nonce_gen := std_nonce;
  aead_enc := std_enc;
  aead_dec := std_dec;
  sha256 := std_sha256;
  fparse := fun s => Some s
|}.

(** The resolvers of the tests; randomness is a fixed string per use. *)
Definition seeded (seed : string) (u : rand_use) : bytes :=
  let t := match u with RCek _ => "cek" | REpk _ => "epk" | RNonce _ => "nonce" | RUuid => "uuid" end%string in
  match u with RUuid => B seed | _ => bs (sha512_n (ns (B seed ++ B t))) end.
Definition test_env (seed : string) (docs : list diddoc) (secs : list secret) : handler := fun o =>
  match o return resp o with
  | OResolve did => example_resolve docs did
  | OFindSecrets ids => example_find_secrets secs ids
  | OGetSecret id => example_get_secret secs id
  | ORandom u => seeded seed u
  end.
