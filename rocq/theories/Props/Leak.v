(** Private keys are given to the primitives and used for nothing else. *)
From Verif.Model Require Import Prelude Utf8 Base64 Json Serde DidDoc Crypto Keys Effects Jws Jwe Message FromPrior Pack Routing Unpack.
From Verif.Spec Require Import Leak Toy.
From Verif.Proofs Require Import Lib LeakP.

(** C90.  What a recipient is told, and whom the library asks on the way, depends on the
    recipient's secrets only through the keys they agree on with senders: whether these
    secrets could also sign, how they are written down, what else their JWK says, makes no
    difference. *)
Theorem C90_unpack : forall C h1 h2 fuel text o,
  other_secrets C (receive_alike C) h1 h2 -> no_difference h1 h2 (unpack C fuel text o).
Proof. intros C h1 h2 fuel text o OS. apply (tied_unpack C h1 h2 (any_of_other _ _ _ _ OS) (receive_alike C) OS). auto. Qed.
Print Assumptions C90_unpack.

(** C90.  A signed text, or a rotation token, depends on secrets only through the
    signatures they make. *)
Theorem C90_signed : forall C h1 h2 m by_,
  other_secrets C (sign_alike C) h1 h2 -> no_difference h1 h2 (pack_signed C m by_).
Proof. intros C h1 h2 m by_ OS. apply (tied_signed C h1 h2 (any_of_other _ _ _ _ OS) (sign_alike C) OS). auto. Qed.
Theorem C90_prior : forall C h1 h2 p issuer_kid,
  other_secrets C (sign_alike C) h1 h2 -> no_difference h1 h2 (from_prior_pack C p issuer_kid).
Proof. intros C h1 h2 p ik OS. apply (tied_prior_pack C h1 h2 (any_of_other _ _ _ _ OS) (sign_alike C) OS). auto. Qed.
Print Assumptions C90_signed.
Print Assumptions C90_prior.

(** C90.  An encrypted text depends on secrets only through the signatures they make and
    the keys they agree on as senders (never as recipients). *)
Theorem C90_packed : forall C h1 h2 m to from sign_by o,
  other_secrets C (fun a k1 k2 => sign_alike C a k1 k2 /\ send_alike C a k1 k2) h1 h2 ->
  no_difference h1 h2 (pack_encrypted C m to from sign_by o).
Proof. intros C h1 h2 m to from sign_by o OS. apply (tied_pack C h1 h2 (any_of_other _ _ _ _ OS) _ OS); intros a k1 k2 [A A']; auto. Qed.
Print Assumptions C90_packed.

(** C90.  The other operations do not depend on secrets at all. *)
Theorem C90_secretless : forall C h1 h2,
  any_secrets h1 h2 ->
  (forall m, no_difference h1 h2 (pack_plaintext C m))
  /\ (forall m to o, no_difference h1 h2 (pack_encrypted C m to None None o))
  /\ (forall jwt, no_difference h1 h2 (from_prior_unpack C jwt))
  /\ forall text headers to keys alg, no_difference h1 h2 (wrap_in_forward C text headers to keys alg).
Proof.
  intros C h1 h2 AS. split; [intros; now apply tied_plaintext|]. split; [intros; now apply tied_pack_anonymous|].
  split; intros; [now apply tied_prior_unpack|now apply tied_wrap].
Qed.
Print Assumptions C90_secretless.

(** Keys as with X25519, where some bits of a private key do not count: here only the
    first two characters do. *)
Definition clamped : crypto := {|
  key := bytes;
  from_jwk := toy_from_jwk;
  to_jwk_public := fun a k => Some (toy_jwk a k);
  x25519_from_secret := fun d => Some d;
  x25519_public_bytes := fun k => k;
  x25519_secret_bytes := fun k => Some k;
  key_gen := fun _ e => Some e;
  key_sign := fun a st k m => Some (toy_kalg a ++ toy_sig st ++ firstn 2 k ++ B "|" ++ m);
  key_verify := fun a st k m s => Some (beq s (toy_kalg a ++ toy_sig st ++ k ++ B "|" ++ m));
  ecdh_es := fun a e r alg apu apv recv => toy_kdf [toy_kalg a; e; if recv then firstn 2 r else r; alg; apu; apv];
  ecdh_1pu := fun a e s r alg apu apv tag recv => toy_kdf [toy_kalg a; e; if recv then s else firstn 2 s; if recv then firstn 2 r else r; alg; apu; apv; tag];
  kw_wrap := fun kw cek => Some (kw ++ cek);
  kw_unwrap := fun kw w => strip kw w;
  cek_gen := fun _ e => Some e;
  cek_import := fun _ k => Some k;
  nonce_gen := fun _ e => e;
  aead_enc := fun _ k iv aad pt => Some (rev pt, toy_tag k iv aad);
  aead_dec := fun _ k iv aad x => toy_aead_dec k iv aad x;
  sha256 := fun x => x;
  fparse := fun t => if beq t (B "1.5") then Some t else None
|}.
(** Alice's secrets, and others that count the same. *)
Definition alice_other : list secret :=
  [sec_jwk "did:ex:alice#x" KX25519 "ax, but otherwise"; sec_jwk "did:ex:alice#p" KP256 "ap!"; sec_jwk "did:ex:alice#e" KEd25519 "aeaeae"].
Definition env1 : handler := toy_env toy_docs sec_alice.
Definition env2 : handler := toy_env toy_docs alice_other.
Lemma by_two a (k1 k2 : bytes) : firstn 2 k1 = firstn 2 k2 -> (sign_alike clamped a k1 k2 /\ send_alike clamped a k1 k2) /\ receive_alike clamped a k1 k2.
Proof. intros E. split; split; unfold sign_alike, send_alike; intros; cbn [key_sign ecdh_es ecdh_1pu clamped]; now rewrite E. Qed.
Lemma alice_alike (alike : kalg -> key clamped -> key clamped -> Prop) : (forall a (k1 k2 : bytes), firstn 2 k1 = firstn 2 k2 -> alike a k1 k2) ->
  other_secrets clamped alike env1 env2.
Proof.
  intros A. constructor; try reflexivity.
  - intros ids. unfold env1, env2, toy_env, example_find_secrets, sec_alice, alice_other. f_equal.
    apply filter_ext. intros sid. cbn [find_first sec_id sec_jwk]. repeat match goal with |- context [beq ?x ?y] => destruct (beq x y) end; reflexivity.
  - intros id. unfold env1, env2, toy_env, example_get_secret, sec_alice, alice_other, found_alike. cbn [find_first sec_id sec_jwk].
  repeat match goal with |- context [beq ?x ?y] => destruct (beq x y) end; cbn [find_first]; auto;
    (split; [vm_compute; reflexivity|]); vm_compute sec_key_pair; (split; [reflexivity|]); apply A; reflexivity.
Qed.
(** Different secrets of Alice; she reads, signs and sends, and the texts are the same. *)
Definition to_bob (h : handler) : bytes := text_of (run h (pack_encrypted clamped toy_msg (B "did:ex:bob") (Some (B "did:ex:alice")) (Some (B "did:ex:alice")) (mkPO false false None None AuthA256cbcHs512 AnonXc20p))).
Definition to_alice : bytes := text_of (run env1 (pack_encrypted clamped (mb_to (B "did:ex:alice") toy_msg) (B "did:ex:alice") None None (mkPO false false None None AuthA256cbcHs512 AnonXc20p))).
Example C90_case : other_secrets clamped (receive_alike clamped) env1 env2
  /\ other_secrets clamped (sign_alike clamped) env1 env2
  /\ other_secrets clamped (fun a k1 k2 => sign_alike clamped a k1 k2 /\ send_alike clamped a k1 k2) env1 env2
  /\ env1 (OGetSecret (B "did:ex:alice#x")) <> env2 (OGetSecret (B "did:ex:alice#x"))
  /\ to_bob env1 <> [] /\ to_bob env2 = to_bob env1
  /\ ok_part (fun r => um_encrypted (snd r)) (run env1 (unpack clamped 9 to_alice default_unpack_options)) = Some true
  /\ ok_part (fun r => um_encrypted (snd r)) (run env2 (unpack clamped 9 to_alice default_unpack_options)) = Some true.
Proof.
  split; [apply alice_alike; intros; now apply by_two|]. split; [apply alice_alike; intros; now apply by_two|]. split; [apply alice_alike; intros; now apply by_two|].
  split; [vm_compute; discriminate|]. split; [vm_compute; discriminate|]. split; [vm_compute; reflexivity|]. split; vm_compute; reflexivity.
Qed.
(** Nobody's secrets, for what needs none. *)
Example C90_secretless_case : any_secrets env1 (toy_env toy_docs [])
  /\ text_of (run env1 (pack_encrypted clamped toy_msg (B "did:ex:bob") None None (mkPO false true None None AuthA256cbcHs512 AnonXc20p))) <> [].
Proof. split; [split; reflexivity|vm_compute; discriminate]. Qed.
