(** What was packed is unpacked again.  [C] with [pair] are primitives that undo each
    other ([lawful]), [dir] the DID directory seen by both sides, [own] the secrets of
    the packing side and [own'] those of the receiving side (see Spec/World.v). *)
From Verif.Model Require Import Prelude Utf8 Base64 Json Serde DidDoc Crypto Keys Effects Jws Jwe Message FromPrior Pack Routing Unpack.
From Verif.Spec Require Import Codec Small Events Toy World.
From Verif.Proofs Require Import Lib RoundP ToyP.

(** The concrete world: Alice packs, Bob unpacks. *)
Definition dir := dir_of toy_docs.
Definition alice := own_of sec_alice.
Definition bob := own_of sec_bob.
Definition rich_msg : message :=
  mb_header (B "lang") (VStr (B "en")) (mb_created 1700000000 (mb_thid (B "t") (mb_attachment (ab_id (B "a1") (ab_base64 (B "qq"))) toy_msg))).
Lemma toy_world : lawful toy toy_pair /\ directory dir /\ secrets_match toy toy_pair dir alice /\ secrets_match toy toy_pair dir bob.
Proof.
  split; [exact toy_lawful|]. split; [apply directory_check_ok; vm_compute; reflexivity|].
  split; apply match_check_ok; vm_compute; reflexivity.
Qed.
Ltac some_none := let x := fresh in let E := fresh in intros x E; try discriminate E; injection E as <-; reflexivity.
Lemma rich_fits : message_fits toy rich_msg.
Proof.
  repeat split; try reflexivity; try some_none.
  - constructor; [vm_compute; repeat constructor|]. intros k x [E|[]]. injection E as <- <-. split; [reflexivity|]. constructor. reflexivity.
  - intros l E. injection E as <-. repeat constructor.
  - intros l E. injection E as <-. repeat constructor; try reflexivity; some_none.
  - vm_compute. constructor; [intros []|constructor].
  - destruct H as [H|[]]. injection H as <- <-. reflexivity.
  - destruct H as [H|[]]. injection H as <- <-. cbn. intuition discriminate.
  - destruct H as [H|[]]. injection H as <- <-. constructor. reflexivity.
  - intros I. destruct (I (B "tag")) as [E|[]]; [cbn; auto 10|discriminate E].
  - intros I. destruct (I (B "payload")) as [E|[]]; [cbn; auto 10|discriminate E].
Qed.
(** Alice runs [p] in this world. *)
Definition by_alice {A} (p : prog A) (tr : list event) (r : A) : Prop := exec p tr r /\ Forall (answers dir alice) tr.
Lemma alice_runs {A} (p : prog A) : by_alice p (trace (toy_env toy_docs sec_alice) p) (run (toy_env toy_docs sec_alice) p).
Proof. split; [apply run_exec|apply toy_env_trace]. Qed.
Lemma alice_gets {A B} (p : prog (res A)) (f : res A -> option B) b : f (run (toy_env toy_docs sec_alice) p) = Some b ->
  exists tr r, by_alice p tr r /\ f r = Some b.
Proof. intros E. eexists _, _. split; [apply alice_runs|exact E]. Qed.
Definition pm_of (r : res (bytes * pack_metadata)) : option pack_metadata := match r with Ok (_, pm) => Some pm | _ => None end.
Definition kid_of (r : res (bytes * bytes)) : option bytes := match r with Ok (_, k) => Some k | _ => None end.

(** C01.  A packed plaintext message is read back, with metadata of a plaintext. *)
Theorem C01_plaintext_round : forall C dir own own' m tr text fuel o tr' x, message_fits C m ->
  exec (pack_plaintext C m) tr (Ok text) -> Forall (answers dir own) tr ->
  exec (unpack C (S fuel) text o) tr' x -> Forall (answers dir own') tr' ->
  exists prior, rotation_of C tr m prior /\ x = Some (Ok (m, metadata None None None prior)).
Proof. exact plaintext_round. Qed.
Print Assumptions C01_plaintext_round.
Example C01_case : message_fits toy rich_msg /\ exists tr text, by_alice (pack_plaintext toy rich_msg) tr (Ok text)
  /\ exists md, toy_unpack sec_bob text default_unpack_options = Some (Ok (rich_msg, md)).
Proof.
  split; [exact rich_fits|]. eexists _, _. split.
  - assert (E : run (toy_env toy_docs sec_alice) (pack_plaintext toy rich_msg) = Ok (message_text rich_msg)) by (vm_compute; reflexivity).
    rewrite <- E. apply alice_runs.
  - eexists. vm_compute. reflexivity.
Qed.

(** C02.  A signed message is read back; the metadata name the key that signed. *)
Theorem C02_signed_round : forall C pair dir own own' m sign_by tr text kid fuel o tr' x,
  lawful C pair -> directory dir -> secrets_match C pair dir own -> message_fits C m ->
  exec (pack_signed C m sign_by) tr (Ok (text, kid)) -> Forall (answers dir own) tr ->
  exec (unpack C (S fuel) text o) tr' x -> Forall (answers dir own') tr' ->
  exists prior sa, rotation_of C tr m prior /\ signature_of C dir tr m (Some sign_by) (Some (kid, sa, text))
    /\ x = Some (Ok (m, metadata None None (Some (kid, sa, text)) prior)).
Proof. intros C pair dir own own' m sign_by tr text kid fuel o tr' x L D. now apply (signed_round C pair L dir D own). Qed.
Print Assumptions C02_signed_round.
Example C02_case : secrets_match toy toy_pair dir alice /\ message_fits toy rich_msg
  /\ exists tr r, by_alice (pack_signed toy rich_msg (B "did:ex:alice")) tr r /\ kid_of r = Some (B "did:ex:alice#e").
Proof. split; [apply toy_world|]. split; [exact rich_fits|]. apply alice_gets. vm_compute. reflexivity. Qed.

(** C03.  Anoncrypt, not handed to a mediator (C05 is about those): whoever holds the
    secret of any one of the recipient keys reads the message. *)
Theorem C03_anoncrypt_round : forall C pair dir own own' m to sign_by po tr text pm fuel o tr' x,
  lawful C pair -> directory dir -> secrets_match C pair dir own -> secrets_match C pair dir own' -> message_fits C m ->
  exec (pack_encrypted C m to None sign_by po) tr (Ok (text, pm)) -> Forall (answers dir own) tr -> pm_service pm = None ->
  holds_one own' (pm_to_kids pm) -> (sign_by = None -> kept dir own' o m) ->
  exec (unpack C (S fuel) text o) tr' x -> Forall (answers dir own') tr' ->
  exists prior sign, rotation_of C tr m prior /\ signature_of C dir tr m sign_by sign
    /\ pm_from_kid pm = None /\ pm_sign_by_kid pm = option_map (fun s => fst (fst s)) sign
    /\ x = Some (Ok (m, metadata (Some (pm_to_kids pm, po_enc_alg_anon po)) None sign prior)).
Proof. intros C pair dir own own' m to sign_by po tr text pm fuel o tr' x L D. now apply (anon_round C pair L dir D own). Qed.
Print Assumptions C03_anoncrypt_round.
Definition anon_opts : pack_options := mkPO false false None None AuthA256cbcHs512 AnonA256gcm.
Example C03_case : message_fits toy rich_msg /\ kept dir bob default_unpack_options rich_msg
  /\ exists tr r pm, by_alice (pack_encrypted toy rich_msg (B "did:ex:bob") None (Some (B "did:ex:alice#e")) anon_opts) tr r
  /\ pm_of r = Some pm /\ pm_service pm = None /\ holds_one bob (pm_to_kids pm)
  /\ pm_to_kids pm = [B "did:ex:bob#x1"; B "did:ex:bob#x2"] /\ pm_sign_by_kid pm = Some (B "did:ex:alice#e").
Proof.
  split; [exact rich_fits|]. split; [intros _ E; discriminate E|].
  assert (E : exists pm, pm_of (run (toy_env toy_docs sec_alice) (pack_encrypted toy rich_msg (B "did:ex:bob") None (Some (B "did:ex:alice#e")) anon_opts)) = Some pm
    /\ pm_service pm = None /\ pm_to_kids pm = [B "did:ex:bob#x1"; B "did:ex:bob#x2"] /\ pm_sign_by_kid pm = Some (B "did:ex:alice#e"))
    by (eexists; vm_compute; auto).
  destruct E as (pm & E & E1 & E2 & E3). destruct (alice_gets _ _ _ E) as (tr & r & R & F). exists tr, r, pm. repeat split; auto; try apply R.
  rewrite E2. exists (B "did:ex:bob#x2"), (sec_jwk "did:ex:bob#x2" KX25519 "bx2"). split; [cbn; auto|vm_compute; reflexivity].
Qed.

(** C04.  Authcrypt, with or without protect_sender and signature. *)
Theorem C04_authcrypt_round : forall C pair dir own own' m to from sign_by po tr text pm fuel o tr' x,
  lawful C pair -> directory dir -> secrets_match C pair dir own -> secrets_match C pair dir own' -> message_fits C m ->
  exec (pack_encrypted C m to (Some from) sign_by po) tr (Ok (text, pm)) -> Forall (answers dir own) tr -> pm_service pm = None ->
  holds_one own' (pm_to_kids pm) ->
  exec (unpack C (S fuel) text o) tr' x -> Forall (answers dir own') tr' ->
  exists prior sign fkid, rotation_of C tr m prior /\ signature_of C dir tr m sign_by sign
    /\ pm_from_kid pm = Some fkid /\ pm_sign_by_kid pm = option_map (fun s => fst (fst s)) sign
    /\ x = Some (Ok (m, metadata (if po_protect_sender po then Some (pm_to_kids pm, po_enc_alg_anon po) else None)
                               (Some (pm_to_kids pm, fkid)) sign prior)).
Proof. intros C pair dir own own' m to from sign_by po tr text pm fuel o tr' x L D. now apply (auth_round C pair L dir D own). Qed.
Print Assumptions C04_authcrypt_round.
Definition auth_opts : pack_options := mkPO true false None None AuthA256cbcHs512 AnonXc20p.
Example C04_case : message_fits toy rich_msg
  /\ exists tr r pm, by_alice (pack_encrypted toy rich_msg (B "did:ex:bob") (Some (B "did:ex:alice")) (Some (B "did:ex:alice#e")) auth_opts) tr r
  /\ pm_of r = Some pm /\ pm_service pm = None /\ holds_one bob (pm_to_kids pm)
  /\ pm_from_kid pm = Some (B "did:ex:alice#x") /\ pm_sign_by_kid pm = Some (B "did:ex:alice#e").
Proof.
  split; [exact rich_fits|].
  assert (E : exists pm, pm_of (run (toy_env toy_docs sec_alice) (pack_encrypted toy rich_msg (B "did:ex:bob") (Some (B "did:ex:alice")) (Some (B "did:ex:alice#e")) auth_opts)) = Some pm
    /\ pm_service pm = None /\ pm_to_kids pm = [B "did:ex:bob#x1"; B "did:ex:bob#x2"] /\ pm_from_kid pm = Some (B "did:ex:alice#x")
    /\ pm_sign_by_kid pm = Some (B "did:ex:alice#e"))
    by (eexists; vm_compute; auto).
  destruct E as (pm & E & E1 & E2 & E3 & E4). destruct (alice_gets _ _ _ E) as (tr & r & R & F). exists tr, r, pm. repeat split; auto; try apply R.
  rewrite E2. exists (B "did:ex:bob#x2"), (sec_jwk "did:ex:bob#x2" KX25519 "bx2"). split; [cbn; auto|vm_compute; reflexivity].
Qed.

(** C22.  A rotation token is read back. *)
Theorem C22_rotation_round : forall C pair dir own own' p ik tr jwt kid tr' r,
  lawful C pair -> directory dir -> secrets_match C pair dir own -> prior_fits p ->
  exec (from_prior_pack C p ik) tr (Ok (jwt, kid)) -> Forall (answers dir own) tr ->
  exec (from_prior_unpack C jwt) tr' r -> Forall (answers dir own') tr' -> r = Ok (p, kid).
Proof. intros C pair dir own own' p ik tr jwt kid tr' r L D. now apply (prior_round C pair L dir D own). Qed.
Print Assumptions C22_rotation_round.
Example C22_case : let p := fpb_new (B "did:ex:alice") (B "did:ex:alice2") in prior_fits p
  /\ exists tr r, by_alice (from_prior_pack toy p None) tr r /\ kid_of r = Some (B "did:ex:alice#e").
Proof.
  split; [repeat split; try reflexivity; some_none|]. apply alice_gets. vm_compute. reflexivity.
Qed.
