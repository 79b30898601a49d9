(** What the error kinds Malformed, InvalidState and Unsupported say. *)
From Verif.Model Require Import Prelude Utf8 Base64 Json Serde DidDoc Crypto Keys Effects Jws Jwe Message FromPrior Pack Routing Unpack.
From Verif.Spec Require Import Small Events Packing Asked Conc Blame Grammar Cut Cause Toy.
From Verif.Proofs Require Import Lib CutE CauseP CauseK CauseT Errs.
From Verif.Props Require Import Blame.

(** C98.  Unpack ends with InvalidState or Unsupported only for a reason that this kind is for: a
    text that is only the beginning of JSON, a resolver that failed or contradicts itself, a key or an algorithm that
    cannot be used, a refusing back end; and a reason is always in the message, the documents and
    the secrets of this run. *)
Theorem C98_unpack_cause : forall C fuel text o tr k,
  exec (unpack C fuel text o) tr (Some (Err k)) -> unpack_cause C text tr k.
Proof. exact unpack_causes. Qed.
Print Assumptions C98_unpack_cause.
(** C98.  The same for pack_encrypted, which also ends with Malformed only because of the rotation
    token, the keys in documents and secrets, or the message to be forwarded. *)
Theorem C98_pack_cause : forall C m to from sign_by o tr k,
  exec (pack_encrypted C m to from sign_by o) tr (Err k) -> pack_cause C m to from sign_by o tr k.
Proof. exact pack_causes. Qed.
Print Assumptions C98_pack_cause.
(** C98.  pack_signed and pack_plaintext fail for the reasons pack_encrypted has before it encrypts:
    the same holds whatever recipient and options one imagines, so no reason that is about
    them applies. *)
Theorem C98_signed_cause : forall C m s tr k,
  exec (pack_signed C m s) tr (Err k) -> forall to o, pack_cause C m to None (Some s) o tr k.
Proof. intros C m s tr k H to o. exact (signed_causes C m s tr k to o H). Qed.
Print Assumptions C98_signed_cause.
Theorem C98_plain_cause : forall C m tr k,
  exec (pack_plaintext C m) tr (Err k) -> forall to o, pack_cause C m to None None o tr k.
Proof. intros C m tr k H to o. exact (plain_causes C m tr k to o H). Qed.
Print Assumptions C98_plain_cause.
(** C98.  FromPrior::pack: the claims are improper, the secret is no signing key or cannot be read, or the
    back end refuses to sign. *)
Theorem C98_token_cause : forall C p ik tr k, exec (from_prior_pack C p ik) tr (Err k) -> token_cause C p tr k.
Proof. exact token_causes. Qed.
Print Assumptions C98_token_cause.
(** C98.  FromPrior::unpack fails as packing a message with this token does. *)
Theorem C98_token_read_cause : forall C jwt m tr k, msg_from_prior m = Some jwt ->
  exec (from_prior_unpack C jwt) tr (Err k) -> forall to o, pack_cause C m to None None o tr k.
Proof. intros C jwt m tr k M H to o. exact (token_read_causes C jwt m tr k to o M H). Qed.
Print Assumptions C98_token_read_cause.
(** A text that is cut off. *)
Example C98_text_case : unpack_cause toy (B "{""id"":") [] InvalidState /\ cut_off (B "{""id"":").
Proof.
  assert (N : cut_off (B "{""id"":")).
  { assert (E : jwe_from_str (B "{""id"":") = Err InvalidState) by (vm_compute; reflexivity).
    destruct (json_cut de_jwe (B "{""id"":") (errs_jwe (fun k => k = Malformed) syn eq_refl syn_kind) (jwe_str_errs (B "{""id"":")) _ E) as [X|[_ X]]; [discriminate X|exact X]. }
  split; [|exact N]. right. exact (st_text toy _ [] (B "{""id"":") (met_here toy _) N).
Qed.
(** Signed by an algorithm the library does not know; by one that does not fit the key; Bob's keys
    as Ed25519 keys; a key of Bob that is not described; a signature with Alice's X25519 key. *)
Definition signed_by (alg : jws_alg) : bytes :=
  print (jws_tree (mkJws [mkSig (B "did:ex:alice#e") (b64enc (print (jws_header_tree (mkJH (B "application/didcomm-signed+json") alg)))) (b64enc (B "s"))] (b64enc (B "{}")))).
Definition doc_bob_ed : diddoc :=
  mkDoc (B "did:ex:bob") [B "did:ex:bob#e"] [] [mkVM (B "did:ex:bob#e") Ed25519VerificationKey2018 (B "did:ex:bob") (MBase58 (B "2"))] [].
Definition doc_bob_missing : diddoc := mkDoc (B "did:ex:bob") [B "did:ex:bob#x9"] [] (doc_verification_method doc_bob) [].
Definition doc_alice_sx : diddoc :=
  mkDoc (B "did:ex:alice") (doc_key_agreement doc_alice) (doc_key_agreement doc_alice) (doc_verification_method doc_alice) [].
Definition kind_of (text : bytes) : option errkind := fst (failing toy_docs sec_bob text).
Definition anon_kind (docs : list diddoc) (from sign_by : option bytes) : option errkind :=
  err_part (Some (run (toy_env docs sec_alice) (pack_encrypted toy toy_msg (B "did:ex:bob") from sign_by default_pack_options))).
Example C98_case :
  kind_of (B "{""id"":") = Some InvalidState /\ kind_of (signed_by (JwsAlgOther (B "RS256"))) = Some Unsupported
  /\ kind_of (signed_by Es256) = Some InvalidState /\ kind_of (signed_by EdDSA) = Some Malformed
  /\ anon_kind [doc_bob_ed] None None = Some InvalidState
  /\ anon_kind [doc_bob_missing] None None = Some Unsupported
  /\ anon_kind [doc_bob_missing; doc_alice] (Some (B "did:ex:alice")) None = Some Malformed
  /\ anon_kind [doc_bob; doc_alice_sx] None (Some (B "did:ex:alice#x")) = Some Unsupported.
Proof. vm_compute. auto 12. Qed.
(** Signing with Alice's X25519 key, and a message whose rotation token is no token. *)
Definition sign_kind (m : message) (by_ : bytes) : option errkind :=
  err_part (Some (run (toy_env [doc_alice_sx; doc_alice] sec_alice) (pack_signed toy m by_))).
Definition prior_msg : message := mkMsg (B "1") (B "application/didcomm-plain+json") (B "t") (VObj []) None None None None [] None None (Some (B "x.y")) None.
Example C98_signed_case : sign_kind toy_msg (B "did:ex:alice#x") = Some Unsupported
  /\ err_part (Some (run (toy_env [] []) (pack_plaintext toy prior_msg))) = Some Malformed.
Proof. vm_compute. auto. Qed.
(** A rotation to the same DID; one signed with Alice's X25519 key; with a secret of Alice's that is no key. *)
Definition token_kind (docs : list diddoc) (secs : list secret) (p : from_prior) (ik : option bytes) : option errkind :=
  err_part (Some (run (toy_env docs secs) (from_prior_pack toy p ik))).
Definition rotates (a b : bytes) : from_prior := mkFP a b None None None None None.
Example C98_token_case : token_kind toy_docs sec_alice (rotates (B "did:ex:alice") (B "did:ex:alice")) None = Some Malformed
  /\ token_kind toy_docs sec_alice (rotates (B "did:ex:alice") (B "did:ex:bob#1")) None = Some Malformed
  /\ token_kind [doc_alice_sx] sec_alice (rotates (B "did:ex:alice") (B "did:ex:bob")) (Some (B "did:ex:alice#x")) = Some Unsupported
  /\ token_kind toy_docs [mkSecret (B "did:ex:alice#e") Ed25519VerificationKey2018 (MBase58 (B "0"))] (rotates (B "did:ex:alice") (B "did:ex:bob")) None = Some Malformed.
Proof. vm_compute. auto. Qed.
