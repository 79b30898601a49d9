(** Exactly when packing succeeds. *)
From Verif.Model Require Import Prelude Utf8 Base64 Json Serde DidDoc Crypto Keys Effects Jws Jwe Message FromPrior Pack Routing Unpack.
From Verif.Spec Require Import Codec Small Events Toy World Packing Accept Works Packs Grammar.
From Verif.Proofs Require Import Lib SmallP NoPanic RoundP ToyP RejectP RouteP AcceptP WorksP PacksP.
From Verif.Props Require Import RoundTrip Pack Accept Works.

(** C100.  A plaintext is written if and only if its rotation, when it has one, is valid
    and consistent. *)
Theorem C100_plaintext : forall C dir own m tr r, exec (pack_plaintext C m) tr r -> Forall (answers dir own) tr ->
  ((exists text, r = Ok text) <-> rotation_ready C dir m).
Proof.
  intros C dir own m tr r H A. split; [intros (t & ->); eapply plaintext_needs; eauto|].
  intros R. exists (message_text m). exact (safe_exec _ _ _ _ _ (plaintext_works C dir own m R) H A).
Qed.
Print Assumptions C100_plaintext.
(** C100.  It is signed if and only if, besides, the key that is found first is one for
    signatures. *)
Theorem C100_signed : forall C pair dir own find m by_ tr r, working C pair -> secrets_match C pair dir own -> finder own find ->
  exec (pack_signed C m by_) tr r -> Forall (answers_by dir own find) tr ->
  ((exists text kid, r = Ok (text, kid)) <-> rotation_ready C dir m /\ signer_fits dir find by_).
Proof.
  intros C pair dir own find m by_ tr r W S F H A. split; [intros (t & k & ->); eapply signed_needs; eauto|].
  intros [R SF]. destruct (safe_exec _ _ _ _ _ (signed_goes C pair W dir own S find F m by_ R SF) H A) as ([t k] & ->). eauto.
Qed.
Print Assumptions C100_signed.
(** C100.  A rotation likewise. *)
Theorem C100_token : forall C pair dir own find p ik tr r, working C pair -> secrets_match C pair dir own -> finder own find ->
  exec (from_prior_pack C p ik) tr r -> Forall (answers_by dir own find) tr ->
  ((exists jwt kid, r = Ok (jwt, kid)) <-> token_fits dir find p ik).
Proof.
  intros C pair dir own find p ik tr r W S F H A. split; [intros (t & k & ->); eapply token_needs; eauto|].
  intros TF. destruct (safe_exec _ _ _ _ _ (token_goes C pair W dir own S find F p ik TF) H A) as ([t k] & ->). eauto.
Qed.
Print Assumptions C100_token.
(** C100.  pack_encrypted succeeds if and only if the arguments are not refused, the
    rotation is consistent, the signer can sign, the keys fit and the way is open. *)
Theorem C100_encrypted : forall C pair dir own find m to from sign_by o tr r,
  lawful C pair -> working C pair -> directory dir -> secrets_match C pair dir own -> finder own find ->
  exec (pack_encrypted C m to from sign_by o) tr r -> Forall (answers_by dir own find) tr ->
  ((exists text pm, r = Ok (text, pm)) <-> packable C dir find m to from sign_by o).
Proof.
  intros C pair dir own find m to from sign_by o tr r L W D S F H A. split; [intros (t & k & ->); eapply encrypted_needs; eauto|].
  intros P. destruct (safe_exec _ _ _ _ _ (encrypted_goes C pair L W dir D own S find F m to from sign_by o P) H A) as ([t k] & ->). eauto.
Qed.
Print Assumptions C100_encrypted.
(** C100.  wrap_in_forward succeeds if and only if there are routing keys, the text is
    JSON, and every routing key can be encrypted for. *)
Theorem C100_forward : forall C pair dir own msg headers to rks alg tr r, lawful C pair -> working C pair -> directory dir ->
  exec (wrap_in_forward C msg headers to rks alg) tr r -> Forall (answers dir own) tr ->
  ((exists t, r = Ok t) <-> rks <> [] /\ (exists v, json_denotes (fparse C) msg v) /\ Forall (recipient_ready C dir) rks).
Proof. intros C pair dir own msg headers to rks alg tr r L W D. now apply (forward_iff C pair L W dir D own). Qed.
Print Assumptions C100_forward.

(** Alice's secrets resolver answers in the order of the question. *)
Definition in_turn (secs : list secret) (ids : list bytes) : list bytes := match example_find_secrets secs ids with Ok l => l | _ => [] end.
Lemma in_turn_finds secs : finder (own_of secs) (in_turn secs).
Proof.
  intros ids i. pose proof (toy_env_trace toy_docs secs (find_secrets ids)) as T. cbn in T. inversion T as [|? ? X _]; subst. cbn in X.
  destruct X as (found & E & X). unfold in_turn. rewrite E. apply X.
Qed.
Lemma in_turn_trace secs {A} (p : prog A) : Forall (answers_by (dir_of toy_docs) (own_of secs) (in_turn secs)) (trace (toy_env toy_docs secs) p).
Proof.
  induction p as [a|o k IH]; cbn [trace]; constructor; [|apply IH]. pose proof (toy_env_trace toy_docs secs (Do o (fun _ => Ret tt))) as T. cbn in T.
  inversion T as [|? ? X _]; subst. destruct o as [did|ids|i|u]; try exact X. cbn in X |- *. destruct X as (found & E & _). unfold in_turn. now rewrite E.
Qed.
(** Dual's authentication keys are a key for key agreement and one for signatures. *)
Definition doc_dual : diddoc :=
  mkDoc (B "did:ex:dual") [B "did:ex:dual#x"] [B "did:ex:dual#x"; B "did:ex:dual#e"]
    [vm_jwk "did:ex:dual#x" KX25519 "dx"; vm_jwk "did:ex:dual#e" KEd25519 "de"] [].
Definition sec_dual : list secret := [sec_jwk "did:ex:dual#x" KX25519 "dx"; sec_jwk "did:ex:dual#e" KEd25519 "de"].
Definition backwards (ids : list bytes) : list bytes := rev (in_turn sec_dual ids).
Definition dual_env (find : list bytes -> list bytes) : handler := fun o =>
  match o return resp o with OFindSecrets ids => Ok (find ids) | o => toy_env [doc_dual] sec_dual o end.
Example C100_case :
  (** Alice can send Bob a signed and authenticated message through his mediators. *)
  packable toy dir (in_turn sec_alice) rich_msg (B "did:ex:bob") (Some (B "did:ex:alice")) (Some (B "did:ex:alice")) default_pack_options
  (** Her second authentication key, whose secret she does not hold, cannot sign. *)
  /\ ~ signer_fits dir (in_turn sec_alice) (B "did:ex:alice#s")
  (** Whether Dual can sign depends on the order in which the secrets are found. *)
  /\ secrets_match toy toy_pair (dir_of [doc_dual]) (own_of sec_dual) /\ finder (own_of sec_dual) backwards
  /\ run (dual_env (in_turn sec_dual)) (pack_signed toy rich_msg (B "did:ex:dual")) = Err Unsupported
  /\ kid_of (run (dual_env backwards) (pack_signed toy rich_msg (B "did:ex:dual"))) = Some (B "did:ex:dual#e").
Proof.
  destruct toy_world as (L & D & S & _).
  split.
  { assert (E : exists pm, pm_of (run (toy_env toy_docs sec_alice) (pack_encrypted toy rich_msg (B "did:ex:bob") (Some (B "did:ex:alice")) (Some (B "did:ex:alice")) default_pack_options)) = Some pm) by (eexists; vm_compute; reflexivity).
    destruct E as (pm & E).
    refine (proj1 (C100_encrypted _ _ _ _ _ _ _ _ _ _ _ _ L toy_works D S (in_turn_finds sec_alice) (run_exec (toy_env toy_docs sec_alice) _) (in_turn_trace sec_alice _)) _).
    destruct (run _ _) as [[t pm']| |]; try discriminate E. eauto. }
  split.
  { intros SF.
    assert (X : exists text kid, run (toy_env toy_docs sec_alice) (pack_signed toy rich_msg (B "did:ex:alice#s")) = Ok (text, kid)).
    { refine (proj2 (C100_signed _ _ _ _ _ _ _ _ _ toy_works S (in_turn_finds sec_alice) (run_exec (toy_env toy_docs sec_alice) _) (in_turn_trace sec_alice _)) _).
      split; [|exact SF]. intros jwt E. discriminate E. }
    destruct X as (t & k & X). vm_compute in X. discriminate X. }
  split; [apply match_check_ok; vm_compute; reflexivity|]. split.
  { intros ids i. unfold backwards. rewrite <- in_rev. apply in_turn_finds. }
  split; vm_compute; reflexivity.
Qed.
