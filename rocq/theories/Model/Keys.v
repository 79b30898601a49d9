(** src/utils/did.rs and the key conversions of src/utils/crypto.rs:132-179. *)
From Verif.Model Require Import Prelude Json Base64 Base58 DidDoc Crypto.

(** src/utils/did.rs:18-21 *)
Definition is_did (did : bytes) : bool :=
  let parts := split ":" did in
  Nat.leb 3 (List.length parts)
  && match parts with p :: _ => beq p (B "did") | [] => false end.

(** src/utils/did.rs:23-30 *)
Definition did_or_url (s : bytes) : bytes * option bytes :=
  match split_once "#" s with
  | Some (did, _) => (did, Some s)
  | None => (s, None)
  end.

(** [value[k].as_str()]: serde_json indexing of a missing member or of a
    non-object gives Null. *)
Definition get_str (k : bytes) (v : value) : option bytes :=
  match v with
  | VObj l => match amap_get k l with Some (VStr s) => Some s | _ => None end
  | _ => None
  end.

(** The (kty, crv) dispatch shared by src/utils/did.rs:40-46, 82-107, 256-262, 298-323. *)
Definition jwk_alg (v : value) : kalg :=
  match get_str (B "kty") v, get_str (B "crv") v with
  | Some kty, Some crv =>
      if beq kty (B "EC") && beq crv (B "P-256") then KP256
      else if beq kty (B "EC") && beq crv (B "secp256k1") then KK256
      else if beq kty (B "OKP") && beq crv (B "Ed25519") then KEd25519
      else if beq kty (B "OKP") && beq crv (B "X25519") then KX25519
      else KUnsupported
  | _, _ => KUnsupported
  end.

(** src/utils/did.rs:33-73 (VerificationMethod::key_alg) and 249-289
    (Secret::key_alg): the same table. *)
Definition key_alg (t : vmtype) (m : material) : kalg :=
  match t, m with
  | JsonWebKey2020, MJwk v => jwk_alg v
  | X25519KeyAgreementKey2019, MBase58 _ => KX25519
  | Ed25519VerificationKey2018, MBase58 _ => KEd25519
  | X25519KeyAgreementKey2020, MMultibase _ => KX25519
  | Ed25519VerificationKey2020, MMultibase _ => KEd25519
  | _, _ => KUnsupported
  end.
(** src/utils/did.rs:33-73: key_alg of VerificationMethod *)
Definition vm_key_alg (vm : verification_method) : kalg := key_alg (vm_type vm) (vm_material vm).
(** src/utils/did.rs:249-289: key_alg of Secret *)
Definition sec_key_alg (s : secret) : kalg := key_alg (sec_type s) (sec_material s).

(** [json!({"kty": "OKP", "crv": crv, "x": x})] as a [Value] (sorted members).
    (src/utils/did.rs:119-124 and its siblings.) *)
Definition okp_jwk (crv : string) (x : bytes) : value :=
  VObj [(B "crv", VStr (B crv)); (B "kty", VStr (B "OKP")); (B "x", VStr x)].
(** The same with the secret part (src/utils/did.rs:345-351, 376-381). *)
Definition okp_jwk_priv (crv : string) (d x : bytes) : value :=
  VObj [(B "crv", VStr (B crv)); (B "d", VStr d); (B "kty", VStr (B "OKP")); (B "x", VStr x)].

Section Keys.
Context (C : crypto).

(** [P256KeyPair::from_jwk_value(value).kind(Malformed, ..).map(KnownKeyPair::P256)] and
    the other three: src/jwk.rs:10-18 with src/utils/did.rs:82-107. *)
Definition jwk_key (a : kalg) (v : value) : res (kalg * key C) :=
  let? k := ok_or Malformed (from_jwk C a v) in Ok (a, k).

(** Multibase: 'z' prefix, base58, multicodec (src/utils/did.rs:167-183 and the
    three sibling blocks). *)
Definition multibase_key (want : codec) (value : bytes) : res bytes :=
  match value with
  | c :: t =>
      if Ascii.eqb c "z" then
        let? decoded := ok_or Malformed (b58dec t) in
        let? (cd, rest) := from_multicodec decoded in
        if codec_eqb cd want then Ok rest else Err IllegalArgument
      else Err IllegalArgument
  | [] => Err IllegalArgument
  end.

(** src/utils/did.rs:75-245: VerificationMethod::as_key_pair *)
Definition vm_key_pair (vm : verification_method) : res (kalg * key C) :=
  match vm_type vm, vm_material vm with
  | JsonWebKey2020, MJwk v =>
      match jwk_alg v with
      | KUnsupported => Err Unsupported
      | a => jwk_key a v
      end
  | X25519KeyAgreementKey2019, MBase58 s =>
      let? d := ok_or Malformed (b58dec s) in jwk_key KX25519 (okp_jwk "X25519" (b64enc d))
  | Ed25519VerificationKey2018, MBase58 s =>
      let? d := ok_or Malformed (b58dec s) in jwk_key KEd25519 (okp_jwk "Ed25519" (b64enc d))
  | X25519KeyAgreementKey2020, MMultibase s =>
      let? d := multibase_key CX25519Pub s in jwk_key KX25519 (okp_jwk "X25519" (b64enc d))
  | Ed25519VerificationKey2020, MMultibase s =>
      let? d := multibase_key CEd25519Pub s in jwk_key KEd25519 (okp_jwk "Ed25519" (b64enc d))
  | _, _ => Err Unsupported
  end.

(** src/utils/did.rs:335-355 and 408-431: an X25519 secret from its bytes. *)
Definition x25519_secret_key (d : bytes) : res (kalg * key C) :=
  let? kp := ok_or Malformed (x25519_from_secret C d) in
  let x := b64enc (x25519_public_bytes C kp) in
  let jwk := match x25519_secret_bytes C kp with
             | Some sk => okp_jwk_priv "X25519" (b64enc sk) x
             | None => okp_jwk "X25519" x
             end in
  jwk_key KX25519 jwk.

(** src/utils/did.rs:368-381 and 458-475: [split_at(32)] panics on short input. *)
Definition ed25519_secret_key (decoded : bytes) : res (kalg * key C) :=
  let? (d, x) := split_at 32 decoded in
  jwk_key KEd25519 (okp_jwk_priv "Ed25519" (b64enc d) (b64enc x)).

(** src/utils/did.rs:291-483: Secret::as_key_pair *)
Definition sec_key_pair (s : secret) : res (kalg * key C) :=
  match sec_type s, sec_material s with
  | JsonWebKey2020, MJwk v =>
      match jwk_alg v with
      | KUnsupported => Err Unsupported
      | a => jwk_key a v
      end
  | X25519KeyAgreementKey2019, MBase58 t =>
      let? d := ok_or Malformed (b58dec t) in x25519_secret_key d
  | Ed25519VerificationKey2018, MBase58 t =>
      let? d := ok_or Malformed (b58dec t) in ed25519_secret_key d
  | X25519KeyAgreementKey2020, MMultibase t =>
      let? d := multibase_key CX25519Priv t in x25519_secret_key d
  | Ed25519VerificationKey2020, MMultibase t =>
      let? d := multibase_key CEd25519Priv t in ed25519_secret_key d
  | _, _ => Err Unsupported
  end.

(** src/utils/crypto.rs:136-178: as_ed25519, as_x25519, as_p256, as_k256 (one
    function, parameterised by the expected algorithm). *)
Definition as_alg (a : kalg) (alg : kalg) (kp : res (kalg * key C)) : res (key C) :=
  if kalg_eqb alg a then
    let? (a', k) := kp in
    if kalg_eqb a' a then Ok k else Err InvalidState
  else Err InvalidState.
(** src/utils/crypto.rs:136-178 for VerificationMethod *)
Definition vm_as (a : kalg) (vm : verification_method) : res (key C) :=
  as_alg a (vm_key_alg vm) (vm_key_pair vm).
(** src/utils/crypto.rs:136-178 for Secret *)
Definition sec_as (a : kalg) (s : secret) : res (key C) :=
  as_alg a (sec_key_alg s) (sec_key_pair s).

End Keys.
