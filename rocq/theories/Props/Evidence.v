(** Can a signed message be shown to a third party? *)
From Verif.Model Require Import Prelude Utf8 Base64 Json Serde DidDoc Crypto Keys Effects Jws Jwe Message FromPrior Pack Routing Unpack.
From Verif.Spec Require Import Codec Small Events Toy World Accept Evidence.
From Verif.Proofs Require Import Lib SmallP NoPanic RoundP ToyP AcceptP ExactP UsedP EvidenceP.
From Verif.Props Require Import RoundTrip.

(** C101.  If unpack reports a signed message, anybody who resolves the same DID documents,
    with whatever secrets or none, reads the same message from it, signed by the same key,
    with the same rotation, if and only if it is not an envelope as well.  Missing: signed
    messages that are envelopes as well, of which this is false (below). *)
Theorem C101_shown_partial : forall C dir own own' fuel text o tr m md signed fuel' o' tr' x,
  exec (unpack C fuel text o) tr (Some (Ok (m, md))) -> Forall (answers dir own) tr -> um_signed_message md = Some signed ->
  exec (unpack C (S fuel') signed o') tr' x -> Forall (answers dir own') tr' ->
  (x = Some (Ok (m, evidence md)) <-> no_envelope C signed).
Proof. exact shown_iff. Qed.
Print Assumptions C101_shown_partial.
(** C101.  In what this library packs it never is: the recipient of a message that was
    packed with a signature, however encrypted, can show it to anybody. *)
Theorem C101_packed : forall C pair dir own own' own'' m to from sign_by po tr text pm fuel o tr' x fuel' o' tr'' y,
  lawful C pair -> directory dir -> secrets_match C pair dir own -> secrets_match C pair dir own' -> message_fits C m ->
  exec (pack_encrypted C m to from (Some sign_by) po) tr (Ok (text, pm)) -> Forall (answers dir own) tr -> pm_service pm = None ->
  holds_one own' (pm_to_kids pm) ->
  exec (unpack C (S fuel) text o) tr' x -> Forall (answers dir own') tr' ->
  exists md signed, x = Some (Ok (m, md)) /\ um_signed_message md = Some signed /\ um_sign_from md = pm_sign_by_kid pm
    /\ (exec (unpack C (S fuel') signed o') tr'' y -> Forall (answers dir own'') tr'' -> y = Some (Ok (m, evidence md))).
Proof.
  intros C pair dir own own' own'' m to from sign_by po tr text pm fuel o tr' x fuel' o' tr'' y L D SM SM' MF P F SV H U F'.
  assert (E : exists anon auth sign prior, signature_of C dir tr m (Some sign_by) sign
    /\ pm_sign_by_kid pm = option_map (fun s => fst (fst s)) sign /\ x = Some (Ok (m, metadata anon auth sign prior))).
  { destruct from as [from|].
    - destruct (C04_authcrypt_round _ _ _ _ _ _ _ _ _ _ _ _ _ _ _ _ _ L D SM SM' MF P F SV H U F') as (prior & sign & fk & _ & S & _ & K & E).
      do 4 eexists. eauto.
    - destruct (C03_anoncrypt_round _ _ _ _ _ _ _ _ _ _ _ _ _ _ _ _ L D SM SM' MF P F SV H ltac:(discriminate) U F') as (prior & sign & _ & S & _ & K & E).
      do 4 eexists. eauto. }
  destruct E as (anon & auth & sign & prior & S & K & ->). destruct sign as [[[kid sa] s]|]; [|destruct S].
  exists (metadata anon auth (Some (kid, sa, s)) prior), s. split; [reflexivity|]. split; [reflexivity|]. split; [now rewrite K|].
  intros Y F''. apply (C101_shown_partial C dir own' own'' (Datatypes.S fuel) text o tr' m _ s fuel' o' tr'' y U F' eq_refl Y F'').
  destruct S as [(tr0 & I & PS) (did & doc & alg & ka & k & st & _ & RD & (IN & _) & _)].
  assert (KI : key_id_ok kid) by (apply (D did doc RD), in_or_app; now right).
  destruct (signed_reads C pair L dir own m sign_by tr0 s kid SM PS (incl_Forall I F) KI) as (N & _).
  split; left; exact N.
Qed.
Print Assumptions C101_packed.
(** C101.  The rotation token of a received message can be shown to anybody, always. *)
Theorem C101_token : forall C dir own own' fuel text o tr m md jwt tr' x,
  exec (unpack C fuel text o) tr (Some (Ok (m, md))) -> Forall (answers dir own) tr -> msg_from_prior m = Some jwt ->
  exec (from_prior_unpack C jwt) tr' x -> Forall (answers dir own') tr' ->
  exists p kid, um_from_prior md = Some p /\ um_from_prior_issuer_kid md = Some kid /\ x = Ok (p, kid).
Proof. exact token_shown. Qed.
Print Assumptions C101_token.

(** Alice's signed message in an envelope to Bob, shown to somebody without secrets. *)
Definition bob_has : bytes := Eval vm_compute in
  text_of (run (toy_env toy_docs sec_alice) (pack_encrypted toy rich_msg (B "did:ex:bob") (Some (B "did:ex:alice")) (Some (B "did:ex:alice#e")) auth_opts)).
Definition signed_in (r : option (res (message * unpack_metadata))) : bytes :=
  match r with Some (Ok (_, md)) => match um_signed_message md with Some s => s | None => [] end | _ => [] end.
Example C101_case : exists md, toy_unpack sec_bob bob_has default_unpack_options = Some (Ok (rich_msg, md))
  /\ um_sign_from md = Some (B "did:ex:alice#e") /\ um_encrypted_from_kid md = Some (B "did:ex:alice#x")
  /\ toy_unpack [] (signed_in (toy_unpack sec_bob bob_has default_unpack_options)) default_unpack_options = Some (Ok (rich_msg, evidence md)).
Proof. eexists. split; [vm_compute; reflexivity|]. split; [reflexivity|]. split; [reflexivity|]. vm_compute. reflexivity. Qed.

(** C101 is false of messages signed by somebody who wants it to be.  The members of
    Alice's signed message together with those of an envelope to a mediator: *)
Definition other_msg : message := mb_new (B "id-2") (B "https://example.org/other") (VObj []).
Definition two_faced : bytes := Eval vm_compute in
  removelast toy_signed ++ B "," ++ tl (text_of (run (toy_env toy_docs sec_alice)
    (pack_encrypted toy other_msg (B "did:ex:med1") None None (mkPO false false None None AuthA256cbcHs512 AnonXc20p)))).
Definition two_faced_sent : bytes := Eval vm_compute in
  match run (toy_env toy_docs sec_alice) (authcrypt toy (B "did:ex:bob") (B "did:ex:alice") two_faced AuthA256cbcHs512 AnonXc20p false) with
  | Ok (t, _, _) => t | _ => [] end.
(** Bob is told that Alice signed [toy_msg]; the mediator, who is shown the signed message,
    reads another message, signed by nobody, and a party without secrets reads nothing. *)
Theorem C101_shown_refuted : exists md md',
  toy_unpack sec_bob two_faced_sent default_unpack_options = Some (Ok (toy_msg, md))
  /\ um_sign_from md = Some (B "did:ex:alice#e") /\ um_non_repudiation md = true /\ um_signed_message md = Some two_faced
  /\ toy_unpack sec_med1 two_faced default_unpack_options = Some (Ok (other_msg, md')) /\ um_sign_from md' = None
  /\ toy_unpack [] two_faced default_unpack_options = Some (Err SecretNotFound).
Proof. do 2 eexists. split; [vm_compute; reflexivity|]. split; [reflexivity|]. split; [reflexivity|]. split; [vm_compute; reflexivity|]. split; [vm_compute; reflexivity|]. split; [reflexivity|vm_compute; reflexivity]. Qed.
Print Assumptions C101_shown_refuted.
