(** The remaining calls: whom they ask and what their errors say. *)
From Verif.Model Require Import Prelude Utf8 Base64 Json Serde DidDoc Crypto Keys Effects Jws Jwe Message FromPrior Pack Routing Unpack DocJson.
From Verif.Spec Require Import Small Events World Packing Conc Asked Blame Calls Toy.
From Verif.Proofs Require Import Lib SmallP PackP RouteP AskedP CallsP ToyP.
From Verif.Props Require Import RoundTrip Asked.

(** C86.  pack_plaintext only resolves the DID that the rotation token of the message names; it
    needs no secret and no randomness.  Its errors are true, and what the resolvers answer
    is reported (as in C73). *)
Theorem C86_plaintext : forall C m tr x, exec (pack_plaintext C m) tr x ->
  asks_only (prior_dids m) no_keys False tr /\ errors_true (prior_keys m) (foreign_rotation C m) tr x.
Proof.
  intros C m tr x E. split.
  - eapply asks_of; [exact E|]. apply plaintext_calls. auto.
  - eapply errors_of; [exact E|]. apply plaintext_reports; auto using foreign_more, calm_nil.
Qed.
Print Assumptions C86_plaintext.
(** pack_signed in addition resolves the DID of the signer and fetches one of its
    authentication keys; it needs no randomness. *)
Theorem C86_signed : forall C m s tr x, exec (pack_signed C m s) tr x ->
  asks_only (fun did => did_part s did \/ prior_dids m did) (signing_keys s) False tr
  /\ errors_true (signed_keys m s) (fun tr => foreign_rotation C m tr \/ ~ did_text s) tr x.
Proof.
  intros C m s tr x E. split.
  - eapply asks_of; [exact E|]. apply signed_calls; auto.
  - eapply errors_of; [exact E|]. apply signed_reports; auto using foreign_more, calm_nil, sk_signer, sk_token.
    intros D. right. intros H. apply is_did_text in H. congruence.
Qed.
Print Assumptions C86_signed.
(** FromPrior::pack resolves the DID that is rotated from, and no other, and fetches one of
    its authentication keys, the one asked for if any. *)
Theorem C86_prior_pack : forall C p kid tr x, exec (from_prior_pack C p kid) tr x ->
  asks_only (eq (fp_iss p)) (issuer_keys p kid) False tr
  /\ errors_true (kid_keys kid) (fun _ => foreign_kid p kid) tr x.
Proof.
  intros C p kid tr x E. split.
  - eapply asks_of; [exact E|]. apply issue_calls; auto.
  - eapply errors_of; [exact E|]. apply issue_reports; auto using calm_nil, kk_here.
Qed.
Print Assumptions C86_prior_pack.

(** C17.  A rotation is signed with the key asked for, or, if none was asked for, with the
    first authentication key of the DID rotated from whose secret is held. *)
Theorem C17_rotation_key : forall C dir own p ik tr jwt kid, exec (from_prior_pack C p ik) tr (Ok (jwt, kid)) ->
  Forall (answers dir own) tr -> Forall in_order tr ->
  exists doc, dir (fp_iss p) = Some doc /\ In kid (doc_authentication doc)
    /\ match ik with
       | Some u => kid = u /\ url_of (fp_iss p) u
       | None => first_with (fun k => own k <> None) (doc_authentication doc) kid
       end.
Proof.
  intros C dir own p ik tr jwt kid H A O.
  apply prior_pack_inv in H as (doc & asked & found & sec & a & k & alg & -> & AW & HD & _).
  rewrite Forall_forall in A, O. assert (A1 := A _ (or_introl eq_refl)). assert (A2 := A _ (or_intror (or_introl eq_refl))). assert (O2 := O _ (or_intror (or_introl eq_refl))).
  cbn in A1, A2, O2. destruct A2 as (fo & E & FO). injection E as <-. destruct O2 as (P & PK). injection A1 as A1. symmetry in A1.
  exists doc. split; [exact A1|]. pose proof (first_held own P asked found kid PK FO HD) as F.
  assert (I : In kid asked) by (destruct F as (l1 & l2 & -> & _); apply in_or_app; right; now left).
  destruct ik as [u|]; [destruct AW as (-> & U & IN); destruct I as [<-|[]]; auto|subst asked; auto].
Qed.
Print Assumptions C17_rotation_key.
(** C66.  So it is for a JavaScript caller. *)
Theorem C66_rotation_key : forall C dir own p ik tr jwt kid, exec (js_from_prior_pack C p ik) tr (Ok (jwt, kid)) ->
  Forall (answers dir own) tr -> Forall in_order tr ->
  exists doc, dir (fp_iss p) = Some doc /\ In kid (doc_authentication doc)
    /\ match ik with
       | Some u => kid = u /\ url_of (fp_iss p) u
       | None => first_with (fun k => own k <> None) (doc_authentication doc) kid
       end.
Proof. exact C17_rotation_key. Qed.
Print Assumptions C66_rotation_key.
(** FromPrior::unpack only resolves the DID of the key that signed the token. *)
Theorem C86_prior_unpack : forall C jwt tr x, exec (from_prior_unpack C jwt) tr x ->
  asks_only (token_names jwt) no_keys False tr /\ errors_true (token_keys jwt) (fun _ => False) tr x.
Proof.
  intros C jwt tr x E. split.
  - eapply asks_of; [exact E|]. apply token_asks. auto.
  - eapply errors_of; [exact E|]. apply token_reports; auto using calm_nil, tk_here.
Qed.
Print Assumptions C86_prior_unpack.
(** wrap_in_forward only resolves the DIDs of the routing keys, not the recipient, and
    needs no secret. *)
Theorem C86_wrap : forall C msg headers to keys alg tr x, exec (wrap_in_forward C msg headers to keys alg) tr x ->
  asks_only (fun did => exists k, In k keys /\ did_part k did) no_keys True tr
  /\ errors_true (hop_keys keys) (fun _ => False) tr x.
Proof.
  intros C msg headers to keys alg tr x E. split.
  - eapply asks_of; [exact E|]. apply wrap_in_forward_calls; eauto.
  - eapply errors_of; [exact E|]. apply wrap_reports; auto using calm_nil, hk_here.
Qed.
Print Assumptions C86_wrap.
(** Of these calls, those without secrets give the same result with resolvers that agree on the
    DIDs named. *)
Theorem C86_prior_unpack_depends : forall C jwt h1 h2, (forall did, token_names jwt did -> h1 (OResolve did) = h2 (OResolve did)) ->
  run h1 (from_prior_unpack C jwt) = run h2 (from_prior_unpack C jwt).
Proof. intros C jwt h1 h2 H. eapply only_same; [intros tr x E; apply (C86_prior_unpack _ _ _ _ E)|exact H|tauto]. Qed.
Print Assumptions C86_prior_unpack_depends.
Theorem C86_plaintext_depends : forall C m h1 h2, (forall did, prior_dids m did -> h1 (OResolve did) = h2 (OResolve did)) ->
  run h1 (pack_plaintext C m) = run h2 (pack_plaintext C m).
Proof. intros C m h1 h2 H. eapply only_same; [intros tr x E; apply (C86_plaintext _ _ _ _ E)|exact H|tauto]. Qed.
Print Assumptions C86_plaintext_depends.
Theorem C86_wrap_depends : forall C msg headers to keys alg h1 h2,
  (forall k did, In k keys -> did_part k did -> h1 (OResolve did) = h2 (OResolve did)) -> (forall u, h1 (ORandom u) = h2 (ORandom u)) ->
  run h1 (wrap_in_forward C msg headers to keys alg) = run h2 (wrap_in_forward C msg headers to keys alg).
Proof.
  intros C msg headers to keys alg h1 h2 H R. eapply only_same; [intros tr x E; apply (C86_wrap _ _ _ _ _ _ _ _ E)|intros did (k & I & D); eauto|auto].
Qed.
Print Assumptions C86_wrap_depends.

Definition calls_of {A} (m : prog A) : list op := map asked_of (Toy.trace (toy_env toy_docs sec_alice) m).
Definition rotation : from_prior := fpb_new (B "did:ex:alice") (B "did:ex:bob").
Definition rotation_token : bytes := Eval vm_compute in text_of (run (toy_env toy_docs sec_alice) (from_prior_pack toy rotation None)).
Definition no_random (l : list op) : list op := filter (fun c => match c with ORandom _ => false | _ => true end) l.
Example C86_case :
  calls_of (from_prior_pack toy rotation (Some (B "did:ex:alice#e"))) = [OResolve (B "did:ex:alice"); OFindSecrets [B "did:ex:alice#e"]; OGetSecret (B "did:ex:alice#e")]
  /\ run (toy_env toy_docs sec_alice) (from_prior_pack toy rotation (Some (B "did:ex:bob#e"))) = Err IllegalArgument
  /\ run (toy_env toy_docs sec_alice) (from_prior_pack toy rotation (Some (B "did:ex:alice#x"))) = Err DIDUrlNotFound
  /\ run (toy_env toy_docs sec_bob) (from_prior_pack toy rotation None) = Err SecretNotFound
  /\ calls_of (from_prior_unpack toy rotation_token) = [OResolve (B "did:ex:alice")]
  /\ run (toy_env [] []) (from_prior_unpack toy rotation_token) = Err DIDNotResolved
  /\ calls_of (pack_plaintext toy (mb_from_prior rotation_token (mb_from (B "did:ex:bob") toy_msg))) = [OResolve (B "did:ex:alice")]
  /\ calls_of (pack_signed toy toy_msg (B "did:ex:alice#e")) = [OResolve (B "did:ex:alice"); OFindSecrets [B "did:ex:alice#e"]; OGetSecret (B "did:ex:alice#e")]
  /\ run (toy_env toy_docs sec_alice) (pack_signed toy toy_msg (B "alice")) = Err IllegalArgument
  /\ no_random (calls_of (wrap_in_forward toy (B "{}") None (B "did:ex:bob") [B "did:ex:med1"; B "did:ex:med2"] AnonXc20p)) = [OResolve (B "did:ex:med2"); OResolve (B "did:ex:med1")].
Proof. vm_compute. repeat split. Qed.
(** Alice holds the secret of the first of her two authentication keys. *)
Example C17_rotation_case :
  (exists tr r, by_alice (js_from_prior_pack toy rotation None) tr r /\ Forall in_order tr /\ kid_of r = Some (B "did:ex:alice#e"))
  /\ (exists tr r, by_alice (from_prior_pack toy rotation (Some (B "did:ex:alice#e"))) tr r /\ Forall in_order tr /\ kid_of r = Some (B "did:ex:alice#e"))
  /\ run (toy_env toy_docs sec_alice) (js_from_prior_pack toy rotation (Some (B "did:ex:alice#s"))) = Err SecretNotFound.
Proof.
  split; [|split]; [eexists _, _; split; [apply alice_runs|]; split; [apply toy_env_in_order|]; vm_compute; reflexivity..|vm_compute; reflexivity].
Qed.
