(** How many questions an operation puts to the resolvers. *)
From Verif.Model Require Import Prelude Utf8 Base64 Json Serde DidDoc Crypto Keys Effects Jws Jwe Message FromPrior Pack Routing Unpack.
From Verif.Spec Require Import Codec Small Events Toy Bounds Cost.
From Verif.Proofs Require Import Lib CostP.
From Verif.Props Require Import Term.

(** C87.  Whoever wrote the text, unpacking it puts at most as many questions to the resolvers as
    the text has bytes, however it is nested and whatever the resolvers answer, as long as
    find_secrets does not report more keys than it was asked about. *)
Theorem C87_unpack : forall C fuel text o tr x n, aead_shrinks C -> floats_stable (fparse C) ->
  exec (unpack C fuel text o) tr x -> Forall finds_asked tr -> questions tr n -> n <= List.length text.
Proof. intros C fuel text o tr x n S F. exact (unpack_questions C S F fuel text o tr x n). Qed.
Print Assumptions C87_unpack.

(** Packing puts a bounded number of questions, plus one for each routing key. *)
Theorem C87_pack_encrypted : forall C m to from sign_by o tr x n k, exec (pack_encrypted C m to from sign_by o) tr x ->
  routes_within k tr -> questions tr n -> n <= 11 + k.
Proof. intros C m to from sign_by o tr x n k H R Q. apply questions_asked in Q as ->. eapply pack_most; eauto. Qed.
Print Assumptions C87_pack_encrypted.
Theorem C87_pack_signed : forall C m by_ tr x n, exec (pack_signed C m by_) tr x -> questions tr n -> n <= 4.
Proof. intros C m by_ tr x n. apply most_questions, signed_most. Qed.
Print Assumptions C87_pack_signed.
Theorem C87_pack_plaintext : forall C m tr x n, exec (pack_plaintext C m) tr x -> questions tr n -> n <= 1.
Proof. intros C m tr x n. apply most_questions, plain_most. Qed.
Print Assumptions C87_pack_plaintext.
Theorem C87_from_prior : forall C p kid jwt,
  (forall tr x n, exec (from_prior_pack C p kid) tr x -> questions tr n -> n <= 3)
  /\ (forall tr x n, exec (from_prior_unpack C jwt) tr x -> questions tr n -> n <= 1).
Proof. intros C p kid jwt. split; intros tr x n; apply most_questions; [apply prior_pack_most|apply prior_most]. Qed.
Print Assumptions C87_from_prior.
Theorem C87_wrap : forall C msg headers to keys alg tr x n, exec (wrap_in_forward C msg headers to keys alg) tr x ->
  questions tr n -> n <= List.length keys.
Proof. intros C msg headers to keys alg tr x n. apply most_questions, wrap_most. Qed.
Print Assumptions C87_wrap.

(** Each bound for packing is reached: Alice signs and encrypts a message with a rotation token for
    Bob, whose endpoint is a mediator with one routing key. *)
Definition by_bob : bytes := Eval vm_compute in text_of (run (toy_env toy_docs sec_bob) (from_prior_pack toy toy_prior None)).
Definition moved_msg : message := mb_from_prior by_bob toy_msg.
Definition counted {A} (secs : list secret) (m : prog A) : nat := asked (Toy.trace (toy_env toy_docs secs) m).
Example C87_pack_case :
  counted sec_alice (pack_encrypted toy moved_msg (B "did:ex:bob") (Some (B "did:ex:alice")) (Some (B "did:ex:alice")) default_pack_options) = 12
  /\ counted sec_alice (pack_signed toy moved_msg (B "did:ex:alice")) = 4
  /\ counted sec_alice (pack_plaintext toy moved_msg) = 1
  /\ counted sec_bob (from_prior_pack toy toy_prior None) = 3
  /\ counted sec_alice (from_prior_unpack toy by_bob) = 1
  /\ counted sec_alice (wrap_in_forward toy (B "{}") None (B "did:ex:bob") [B "did:ex:med1"; B "did:ex:med2"] AnonXc20p) = 2.
Proof. vm_compute. repeat split. Qed.
(** The nested message of C19: one forward to unwrap, eight questions. *)
Example C87_unpack_case : aead_shrinks toy /\ floats_stable (fparse toy)
  /\ (let tr := Toy.trace (toy_env toy_docs sec_bob) (unpack toy 2 toy_nested (mkUO true true)) in
      asked tr = 8 /\ List.length tr = 8
      /\ forallb (fun e => match e with Ev (OFindSecrets ids) r => match r with Ok found => Nat.leb (List.length found) (List.length ids) | _ => true end | _ => true end) tr = true).
Proof. split; [exact (proj1 C19_case)|]. split; [exact (proj1 (proj2 C19_case))|]. vm_compute. repeat split. Qed.
