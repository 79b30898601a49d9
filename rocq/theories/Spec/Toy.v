(** A toy instance of the cryptographic record, with documents and secrets, used
    only for the concrete cases shown beside the theorems (and to show that the
    laws assumed by some of them can hold).  It is not secure: a key pair is a byte
    string that is its own secret, keys and tags are concatenations. *)
From Verif.Model Require Import Prelude Utf8 Base64 Json Serde DidDoc Crypto Keys Effects Jws Jwe Message FromPrior Pack Routing Unpack.

Definition toy_kalg (a : kalg) : bytes :=
  match a with KEd25519 => B "E" | KX25519 => B "X" | KP256 => B "P" | KK256 => B "K" | KUnsupported => B "U" end.
Definition toy_sig (s : sigtype) : bytes :=
  match s with SigEdDSA => B "e" | SigES256 => B "p" | SigES256K => B "k" end.
Definition toy_curve (a : kalg) : bytes * bytes :=
  match a with
  | KP256 => (B "P-256", B "EC") | KK256 => (B "secp256k1", B "EC")
  | KEd25519 => (B "Ed25519", B "OKP") | _ => (B "X25519", B "OKP")
  end.
Definition toy_jwk (a : kalg) (k : bytes) : value :=
  VObj [(B "crv", VStr (fst (toy_curve a))); (B "kty", VStr (snd (toy_curve a))); (B "x", VStr (b64enc k))].
Definition toy_from_jwk (a : kalg) (v : value) : option bytes :=
  if kalg_eqb (jwk_alg v) a then match get_str (B "x") v with Some x => b64dec x | None => None end else None.
(** The rest of [s] after the prefix [p]. *)
Fixpoint strip (p s : bytes) : option bytes :=
  match p, s with
  | [], _ => Some s
  | a :: p', b :: s' => if Ascii.eqb a b then strip p' s' else None
  | _, [] => None
  end.
Definition toy_tag (k iv aad : bytes) : bytes := k ++ B "|" ++ iv ++ B "|" ++ aad.
Definition toy_aead_dec (k iv aad x : bytes) : option bytes := strip (rev (toy_tag k iv aad)) (rev x).
Definition toy_kdf (l : list bytes) : option bytes := Some (B "<" ++ flat_map (fun x => x ++ B ";") l ++ B ">").

Definition toy : crypto := {|
  key := bytes;
  from_jwk := toy_from_jwk;
  to_jwk_public := fun a k => Some (toy_jwk a k);
  x25519_from_secret := fun d => Some d;
  x25519_public_bytes := fun k => k;
  x25519_secret_bytes := fun k => Some k;
  key_gen := fun _ e => Some e;
  key_sign := fun a st k m => Some (toy_kalg a ++ toy_sig st ++ k ++ B "|" ++ m);
  key_verify := fun a st k m s => Some (beq s (toy_kalg a ++ toy_sig st ++ k ++ B "|" ++ m));
  ecdh_es := fun a e r alg apu apv _ => toy_kdf [toy_kalg a; e; r; alg; apu; apv];
  ecdh_1pu := fun a e s r alg apu apv tag _ => toy_kdf [toy_kalg a; e; s; r; alg; apu; apv; tag];
  kw_wrap := fun kw cek => Some (kw ++ cek);
  kw_unwrap := fun kw w => strip kw w;
  cek_gen := fun _ e => Some e;
  cek_import := fun _ k => Some k;
  nonce_gen := fun _ e => e;
  aead_enc := fun _ k iv aad pt => Some (rev pt, toy_tag k iv aad);
  aead_dec := fun _ k iv aad x => toy_aead_dec k iv aad x;
  sha256 := fun x => x;
  fparse := fun t => if beq t (B "1.5") then Some t else None
|}.

(** ** Documents and secrets *)
Definition vm_jwk (id : string) (a : kalg) (k : string) : verification_method :=
  mkVM (B id) JsonWebKey2020 (B "did:ex:ctl") (MJwk (toy_jwk a (B k))).
Definition sec_jwk (id : string) (a : kalg) (k : string) : secret :=
  mkSecret (B id) JsonWebKey2020 (MJwk (toy_jwk a (B k))).

Definition doc_alice : diddoc :=
  mkDoc (B "did:ex:alice") [B "did:ex:alice#x"; B "did:ex:alice#p"] [B "did:ex:alice#e"; B "did:ex:alice#s"]
    [vm_jwk "did:ex:alice#x" KX25519 "ax"; vm_jwk "did:ex:alice#p" KP256 "ap";
     vm_jwk "did:ex:alice#e" KEd25519 "ae"; vm_jwk "did:ex:alice#s" KP256 "as"] [].
Definition doc_bob : diddoc :=
  mkDoc (B "did:ex:bob") [B "did:ex:bob#x1"; B "did:ex:bob#p"; B "did:ex:bob#x2"] [B "did:ex:bob#k"]
    [vm_jwk "did:ex:bob#x1" KX25519 "bx1"; vm_jwk "did:ex:bob#p" KP256 "bp"; vm_jwk "did:ex:bob#x2" KX25519 "bx2";
     vm_jwk "did:ex:bob#k" KK256 "bk"]
    [mkService (B "did:ex:bob#svc") (DIDCommMessaging (mkMS (B "did:ex:med1") (Some [B "didcomm/v2"]) [B "did:ex:med2#x"]))].
Definition doc_med1 : diddoc :=
  mkDoc (B "did:ex:med1") [B "did:ex:med1#x"] [] [vm_jwk "did:ex:med1#x" KX25519 "m1"]
    [mkService (B "did:ex:med1#svc") (DIDCommMessaging (mkMS (B "http://m1") None []))].
Definition doc_med2 : diddoc :=
  mkDoc (B "did:ex:med2") [B "did:ex:med2#x"] [] [vm_jwk "did:ex:med2#x" KX25519 "m2"] [].
Definition toy_docs : list diddoc := [doc_alice; doc_bob; doc_med1; doc_med2].
Definition sec_alice : list secret :=
  [sec_jwk "did:ex:alice#x" KX25519 "ax"; sec_jwk "did:ex:alice#p" KP256 "ap"; sec_jwk "did:ex:alice#e" KEd25519 "ae"].
Definition sec_bob : list secret :=
  [sec_jwk "did:ex:bob#x2" KX25519 "bx2"; sec_jwk "did:ex:bob#x1" KX25519 "bx1"; sec_jwk "did:ex:bob#k" KK256 "bk"].
Definition sec_med1 : list secret := [sec_jwk "did:ex:med1#x" KX25519 "m1"].
Definition sec_med2 : list secret := [sec_jwk "did:ex:med2#x" KX25519 "m2"].

(** The example resolvers over these lists, with a fixed "random" source. *)
Definition toy_rand (u : rand_use) : bytes :=
  match u with RCek _ => B "cek" | REpk _ => B "epk" | RNonce _ => B "iv" | RUuid => B "uuid" end.
Definition toy_env (docs : list diddoc) (secs : list secret) : handler := fun o =>
  match o return resp o with
  | OResolve did => example_resolve docs did
  | OFindSecrets ids => example_find_secrets secs ids
  | OGetSecret id => example_get_secret secs id
  | ORandom u => toy_rand u
  end.

Definition toy_msg : message :=
  mb_to (B "did:ex:bob") (mb_from (B "did:ex:alice")
    (mb_new (B "id-1") (B "https://example.org/hello") (VObj [(B "text", VStr (B "hi ""bob"""))]))).
Definition toy_prior : from_prior := fpb_new (B "did:ex:bob") (B "did:ex:alice").

(** Receive a text or fail visibly. *)
Definition text_of {A} (r : res (bytes * A)) : bytes := match r with Ok (t, _) => t | _ => [] end.

Definition toy_signed : bytes := text_of (run (toy_env toy_docs sec_alice) (pack_signed toy toy_msg (B "did:ex:alice"))).
Definition toy_pack (from sign : option bytes) (protect forward : bool) : bytes :=
  text_of (run (toy_env toy_docs sec_alice)
    (pack_encrypted toy toy_msg (B "did:ex:bob") from sign
       (mkPO protect forward None None AuthA256cbcHs512 AnonXc20p))).
Definition toy_unpack (secs : list secret) (text : bytes) (o : unpack_options) : option (res (message * unpack_metadata)) :=
  run (toy_env toy_docs secs) (unpack toy 9 text o).

(** What the resolvers were asked, and what they answered, in a run. *)
Fixpoint trace (h : handler) {A} (m : prog A) : list event :=
  match m with
  | Ret _ => []
  | Do o k => Ev o (h o) :: trace h (k (h o))
  end.
(** A run is an execution: the concrete cases computed with [run] are executions. *)
Lemma run_exec h {A} (m : prog A) : exec m (trace h m) (run h m).
Proof. induction m as [a|o k IH]; cbn; [auto|]. exists (h o), (trace h (k (h o))). split; auto. Qed.
(** The interesting part of a successful run. *)
Definition ok_part {A B} (f : A -> B) (x : option (res A)) : option B :=
  match x with Some (Ok a) => Some (f a) | _ => None end.
Definition err_part {A} (x : option (res A)) : option errkind :=
  match x with Some (Err k) => Some k | _ => None end.
