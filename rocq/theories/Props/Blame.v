(** What the kind of an error says. *)
From Verif.Model Require Import Prelude Utf8 Base64 Json Serde DidDoc Crypto Keys Effects Jws Jwe Message FromPrior Pack Routing Unpack.
From Verif.Spec Require Import Small Events Packing Asked Conc Blame Toy.
From Verif.Proofs Require Import Lib BlameP.

(** C73.  Errors of unpack are true: DIDNotResolved, DIDUrlNotFound and SecretNotFound are reported
    only when the last answer of a resolver was just that (or the resolver itself reported that
    kind), for a key that the message names; I/O errors come from resolvers only. *)
Theorem C73_unpack_errors_true : forall C fuel text o tr k,
  exec (unpack C fuel text o) tr (Some (Err k)) -> unpack_blames C text tr k.
Proof. intros C fuel text o tr k E. exact (proj1 (unpack_reports C fuel text o tr _ E)). Qed.
Print Assumptions C73_unpack_errors_true.
(** A DID that does not resolve is always reported as such. *)
Theorem C73_unpack_unresolved : forall C fuel text o tr x did,
  exec (unpack C fuel text o) tr (Some x) -> In (Ev (OResolve did) (Ok None)) tr -> x = Err DIDNotResolved.
Proof. intros C fuel text o tr x did E. exact (proj2 (unpack_reports C fuel text o tr x E) did). Qed.
Print Assumptions C73_unpack_unresolved.
(** The same for pack_encrypted, where NoCompatibleCrypto in addition means that no key of the
    sender shares a curve with a key of the recipient. *)
Theorem C73_pack_errors_true : forall C m to from sign_by o tr k,
  exec (pack_encrypted C m to from sign_by o) tr (Err k) -> pack_blames C m to from sign_by o tr k.
Proof. intros C m to from sign_by o tr k E. exact (proj1 (pack_reports C m to from sign_by o tr _ E)). Qed.
Print Assumptions C73_pack_errors_true.
(** An error of a resolver, a DID that does not resolve and a secret that is not there end packing
    with the kind that says so. *)
Theorem C73_pack_answers_reported : forall C m to from sign_by o tr x e k,
  exec (pack_encrypted C m to from sign_by o) tr x -> In e tr -> ends_pack e k -> x = Err k.
Proof. intros C m to from sign_by o tr x e k E. exact (proj2 (pack_reports C m to from sign_by o tr x E) e k). Qed.
Print Assumptions C73_pack_answers_reported.

Definition last_of (l : list event) : list op := match rev l with Ev c _ :: _ => [c] | [] => [] end.
(** Alice without her signing key; Alice unknown; nothing of Bob's. *)
Definition doc_alice_no_e : diddoc :=
  mkDoc (B "did:ex:alice") (doc_key_agreement doc_alice) [B "did:ex:alice#s"] (doc_verification_method doc_alice) [].
Definition failing (docs : list diddoc) (secs : list secret) (text : bytes) : option errkind * list op :=
  (err_part (run (toy_env docs secs) (unpack toy 9 text default_unpack_options)),
   last_of (Toy.trace (toy_env docs secs) (unpack toy 9 text default_unpack_options))).
Example C73_unpack_case :
  failing [doc_alice_no_e; doc_bob] sec_bob toy_signed = (Some DIDUrlNotFound, [OResolve (B "did:ex:alice")])
  /\ failing [doc_bob] sec_bob toy_signed = (Some DIDNotResolved, [OResolve (B "did:ex:alice")])
  /\ failing toy_docs sec_alice (toy_pack None None false false)
     = (Some SecretNotFound, [OFindSecrets [B "did:ex:bob#x1"; B "did:ex:bob#x2"]]).
Proof. vm_compute. auto. Qed.
Definition pack_failing (docs : list diddoc) (secs : list secret) (to from : bytes) (o : pack_options) : option errkind :=
  err_part (Some (run (toy_env docs secs) (pack_encrypted toy toy_msg to (Some from) None o))).
Definition doc_alice_p : diddoc :=
  mkDoc (B "did:ex:alice") [B "did:ex:alice#p"] [] (doc_verification_method doc_alice) [].
Definition doc_bob_x : diddoc :=
  mkDoc (B "did:ex:bob") [B "did:ex:bob#x1"] [] (doc_verification_method doc_bob) [].
Example C73_pack_case :
  pack_failing toy_docs sec_alice (B "did:ex:bob#none") (B "did:ex:alice") default_pack_options = Some DIDUrlNotFound
  /\ pack_failing toy_docs sec_bob (B "did:ex:bob") (B "did:ex:alice") default_pack_options = Some SecretNotFound
  /\ pack_failing [doc_bob] sec_alice (B "did:ex:bob") (B "did:ex:alice") default_pack_options = Some DIDNotResolved
  /\ pack_failing [doc_bob_x; doc_alice_p] sec_alice (B "did:ex:bob") (B "did:ex:alice") default_pack_options = Some NoCompatibleCrypto
  /\ pack_failing [doc_alice; doc_bob; doc_med1] sec_alice (B "did:ex:bob") (B "did:ex:alice") default_pack_options = Some DIDNotResolved.
Proof. vm_compute. auto 9. Qed.

(** C74.  IllegalArgument means that the arguments of the call are wrong.  That is false: a multibase
    key of the wrong kind in the document of the other party is reported so as well, by packing and
    by unpacking. *)
Definition doc_bob_odd : diddoc :=
  mkDoc (B "did:ex:bob") [B "did:ex:bob#x"] []
    [mkVM (B "did:ex:bob#x") X25519KeyAgreementKey2020 (B "did:ex:bob") (MMultibase (B "z2J"))] [].
Definition doc_alice_odd : diddoc :=
  mkDoc (B "did:ex:alice") [] [B "did:ex:alice#e"]
    [mkVM (B "did:ex:alice#e") Ed25519VerificationKey2020 (B "did:ex:alice") (MMultibase (B "z2J"))] [].
Definition plain_call : message := mb_new (B "1") (B "t") (VObj []).
Lemma plain_call_fine : ~ refused plain_call (B "did:ex:bob") None None.
Proof.
  intros R. destruct (RouteP.validate_cases plain_call (B "did:ex:bob") None None) as [[_ N]|[V _]]; [exact (N R)|].
  vm_compute in V. discriminate.
Qed.
Theorem C74_pack_illegal_argument_refuted : exists C h m to o,
  ~ refused m to None None /\ po_messaging_service o = None /\ msg_from_prior m = None
  /\ run h (pack_encrypted C m to None None o) = Err IllegalArgument.
Proof.
  exists toy, (toy_env [doc_bob_odd] []), plain_call, (B "did:ex:bob"), default_pack_options.
  split; [exact plain_call_fine|]. vm_compute. auto.
Qed.
Print Assumptions C74_pack_illegal_argument_refuted.
Theorem C74_unpack_illegal_argument_refuted : exists C h fuel text o,
  run h (unpack C fuel text o) = Some (Err IllegalArgument).
Proof. exists toy, (toy_env [doc_alice_odd] []), 9, toy_signed, default_unpack_options. vm_compute. reflexivity. Qed.
Print Assumptions C74_unpack_illegal_argument_refuted.
(** What is missing below is the last alternative.  The other reasons are: the arguments are
    refused, the messaging service asked for cannot be used, the rotation token of the message was
    signed for another DID, or the resolver itself said so. *)
Theorem C74_pack_illegal_argument_partial : forall C m to from sign_by o tr,
  exec (pack_encrypted C m to from sign_by o) tr (Err IllegalArgument) ->
  raised tr IllegalArgument \/ refused m to from sign_by
  \/ (exists did doc sid, po_messaging_service o = Some sid /\ did_part to did /\ resolved tr did doc /\ service_unusable doc sid)
  \/ foreign_rotation C m tr \/ multibase_key_seen tr.
Proof. intros C m to from sign_by o tr E. exact (proj1 (pack_reports C m to from sign_by o tr _ E)). Qed.
Print Assumptions C74_pack_illegal_argument_partial.
Theorem C74_unpack_illegal_argument_partial : forall C fuel text o tr,
  exec (unpack C fuel text o) tr (Some (Err IllegalArgument)) -> raised tr IllegalArgument \/ multibase_key_seen tr.
Proof. intros C fuel text o tr E. exact (proj1 (unpack_reports C fuel text o tr _ E)). Qed.
Print Assumptions C74_unpack_illegal_argument_partial.
Definition with_service (s : string) : pack_options :=
  mkPO true true None (Some (B s)) AuthA256cbcHs512 AnonXc20p.
Example C74_case :
  pack_failing toy_docs sec_alice (B "did:ex:bob") (B "did:ex:alice") (with_service "did:ex:bob#other") = Some IllegalArgument
  /\ pack_failing toy_docs sec_alice (B "bob") (B "did:ex:alice") default_pack_options = Some IllegalArgument
  /\ pack_failing toy_docs sec_alice (B "did:ex:bob") (B "did:ex:alice") (with_service "did:ex:bob#svc") = None.
Proof. vm_compute. auto. Qed.
