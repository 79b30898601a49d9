(** Checks that unpack leaves to its caller. *)
From Verif.Model Require Import Prelude Utf8 Base64 Json Serde DidDoc Crypto Keys Effects Jws Jwe Message FromPrior Pack Routing Unpack.
From Verif.Spec Require Import Codec Small Events Toy World Text Packing Signing Sealed.
From Verif.Proofs Require Import Lib NoPanic UnpackFacts RoundP ToyP HideP SigningP SealedP ChecksP.
From Verif.Props Require Import RoundTrip Unpack Signing Cond Sealed.

Definition read_by (C : crypto) (secs : list secret) (text : bytes) : option (res (message * unpack_metadata)) :=
  run (toy_env toy_docs secs) (unpack C 9 text default_unpack_options).
Lemma read_ran C secs text m md : read_by C secs text = Some (Ok (m, md)) -> exists tr, ran C 9 text default_unpack_options tr m md.
Proof. intros E. eexists. rewrite <- E. unfold read_by. apply run_exec. Qed.

(** C78.  unpack does not compare the recipient with the [to] header.  Bob encrypts for a
    mediator the message that Alice signed for Bob: accepted, with non-repudiation. *)
Definition passed_on : bytes := Eval vm_compute in
  text_of (run (toy_env toy_docs []) (anoncrypt toy (B "did:ex:med1") toy_signed AnonXc20p)).
Theorem C78_addressed_refuted : exists C fuel text o tr m md kid l, ran C fuel text o tr m md
  /\ um_non_repudiation md = true /\ um_encrypted_to_kids md = Some [kid] /\ msg_to m = Some l /\ forall did, In did l -> ~ url_of did kid.
Proof.
  assert (E : exists md, read_by toy sec_med1 passed_on = Some (Ok (toy_msg, md)) /\ um_non_repudiation md = true
    /\ um_encrypted_to_kids md = Some [B "did:ex:med1#x"]) by (eexists; vm_compute; auto).
  destruct E as (md & E & N & K). apply read_ran in E as (tr & E). exists toy, 9, passed_on, default_unpack_options, tr, toy_msg, md, (B "did:ex:med1#x"), [B "did:ex:bob"].
  split; [exact E|]. split; [exact N|]. split; [exact K|]. split; [reflexivity|]. intros did [<-|[]] (f & F & _). vm_compute in F. discriminate.
Qed.
Print Assumptions C78_addressed_refuted.
(** A message that this library encrypted is addressed to the DID of every key it was
    encrypted for (missing: envelopes made otherwise). *)
Theorem C78_addressed_partial : forall C dir own m to from sign_by po tr text pm l kid, directory dir ->
  exec (pack_encrypted C m to from sign_by po) tr (Ok (text, pm)) -> Forall (answers dir own) tr ->
  msg_to m = Some l -> In kid (pm_to_kids pm) -> exists did, In did l /\ url_of did kid.
Proof. exact addressed. Qed.
Print Assumptions C78_addressed_partial.
(** Concrete case: C03_case, with two keys of Bob. *)
Example C78_case : msg_to rich_msg = Some [B "did:ex:bob"].
Proof. reflexivity. Qed.

(** C79.  unpack has no clock: it accepts a message and a rotation whose times admit no
    moment at all. *)
Definition in_force (now : N) (p : from_prior) : Prop :=
  (forall t, fp_nbf p = Some t -> (t <= now)%N) /\ (forall t, fp_exp p = Some t -> (now < t)%N).
Definition fresh (now : N) (m : message) : Prop := forall t, msg_expires m = Some t -> (now < t)%N.
Definition stale_prior : from_prior := fpb_nbf 2 (fpb_exp 1 (fpb_new (B "did:ex:alice") (B "did:ex:carol"))).
Definition stale_jwt : bytes := Eval vm_compute in text_of (run (toy_env toy_docs sec_alice) (from_prior_pack toy stale_prior None)).
Definition stale : message := Eval vm_compute in
  mb_expires 0 (mb_created 5 (mb_from_prior stale_jwt (mb_from (B "did:ex:carol") (mb_new (B "1") (B "t") (VObj []))))).
Definition stale_text : bytes := Eval vm_compute in message_text stale.
Theorem C79_expiry_refuted : exists C fuel text o tr m md p, ran C fuel text o tr m md /\ um_from_prior md = Some p
  /\ forall now, ~ fresh now m /\ ~ in_force now p.
Proof.
  assert (E : exists md, read_by toy [] stale_text = Some (Ok (stale, md)) /\ um_from_prior md = Some stale_prior) by (eexists; vm_compute; auto).
  destruct E as (md & E & P). apply read_ran in E as (tr & E). exists toy, 9, stale_text, default_unpack_options, tr, stale, md, stale_prior.
  split; [exact E|]. split; [exact P|]. intros now. split.
  - intros F. specialize (F _ eq_refl). now apply N.nlt_0_r in F.
  - intros [F1 F2]. specialize (F1 _ eq_refl). specialize (F2 _ eq_refl). revert F1 F2. clear. intros F1 F2.
    assert (2 < 1)%N by (eapply N.le_lt_trans; eauto). discriminate.
Qed.
Print Assumptions C79_expiry_refuted.
(** What is reported are the times that the key's owner wrote: if it has only signed
    what is in force, the caller gets what is in force (missing: any other). *)
Theorem C79_honest_times_partial : forall C fuel text o tr m md kid now (msgs : message -> Prop) (priors : from_prior -> Prop),
  (forall m', msgs m' -> message_fits C m' /\ fresh now m') -> (forall p, priors p -> prior_fits p /\ in_force now p) ->
  ran C fuel text o tr m md -> only_signed C tr kid msgs priors ->
  (um_sign_from md = Some kid -> fresh now m)
  /\ forall p, um_from_prior md = Some p -> um_from_prior_issuer_kid md = Some kid -> in_force now p.
Proof.
  intros C fuel text o tr m md kid now msgs priors MF PF R OS. split.
  - intros S. apply MF. apply (C09_messages_honest C fuel text o tr m md kid msgs priors); auto; intros x X; [apply MF in X|apply PF in X]; tauto.
  - intros p P K. apply PF. apply (C09_rotations_honest C fuel text o tr m md kid p msgs priors); auto; intros x X; apply PF in X; tauto.
Qed.
Print Assumptions C79_honest_times_partial.
(** Concrete case: C09_case; its message and rotation have no such limits. *)
Example C79_case : forall now, fresh now rich_msg /\ in_force now toy_prior.
Proof. intros now. split; [intros t E; discriminate E|split; intros t E; discriminate E]. Qed.

(** C80.  The curve of the ephemeral key is not compared with that of the recipient key;
    a key import that does not look at it accepts any.  Here envelopes label their
    ephemeral X25519 key as P-256. *)
Definition relaxed : crypto := {|
  key := key toy; from_jwk := fun _ v => match get_str (B "x") v with Some x => b64dec x | None => None end;
  to_jwk_public := fun _ k => Some (toy_jwk KP256 k); x25519_from_secret := x25519_from_secret toy;
  x25519_public_bytes := x25519_public_bytes toy; x25519_secret_bytes := x25519_secret_bytes toy; key_gen := key_gen toy;
  key_sign := key_sign toy; key_verify := key_verify toy; ecdh_es := ecdh_es toy; ecdh_1pu := ecdh_1pu toy;
  kw_wrap := kw_wrap toy; kw_unwrap := kw_unwrap toy; cek_gen := cek_gen toy; cek_import := cek_import toy; nonce_gen := nonce_gen toy;
  aead_enc := aead_enc toy; aead_dec := aead_dec toy; sha256 := sha256 toy; fparse := fparse toy |}.
Definition crossed : bytes := Eval vm_compute in
  text_of (run (toy_env toy_docs sec_alice) (pack_encrypted relaxed toy_msg (B "did:ex:bob") None None (mkPO false false None None AuthA256cbcHs512 AnonXc20p))).
Theorem C80_epk_curve_refuted : exists C fuel text o tr m md j h kid sec k,
  ran C fuel text o tr m md /\ envelope C text j h /\ jwk_alg (ph_epk h) = KP256
  /\ In kid (recipient_kids j) /\ held tr kid sec /\ sec_key_pair C sec = Ok (KX25519, k).
Proof.
  assert (E : exists md, read_by relaxed sec_bob crossed = Some (Ok (toy_msg, md))) by (eexists; vm_compute; reflexivity). destruct E as (md & E).
  pose (h0 := toy_env toy_docs sec_bob). pose (tr := Lib.trace h0 (unpack relaxed 9 crossed default_unpack_options)).
  assert (R : ran relaxed 9 crossed default_unpack_options tr toy_msg md) by (rewrite <- E; apply run_exec).
  destruct (jwe_from_str crossed) as [j|e|] eqn:J; [|vm_compute in J; discriminate J|vm_compute in J; discriminate J].
  destruct (b64dec (jwe_protected j)) as [hb|] eqn:P; [|vm_compute in J; injection J as <-; vm_compute in P; discriminate P].
  destruct (from_json (de_jwe_header relaxed) hb) as [h|e|] eqn:H;
    [|exfalso; vm_compute in J; injection J as <-; vm_compute in P; injection P as <-; vm_compute in H; discriminate H..].
  exists relaxed, 9, crossed, default_unpack_options, tr, toy_msg, md, j, h, (B "did:ex:bob#x1"), (sec_jwk "did:ex:bob#x1" KX25519 "bx1"), (B "bx1").
  split; [exact R|]. split; [split; [exact J|exists hb; auto]|].
  vm_compute in J. injection J as <-. vm_compute in P. injection P as <-. vm_compute in H. injection H as <-.
  split; [vm_compute; reflexivity|]. split; [vm_compute; auto|]. split; [vm_compute; auto 10|vm_compute; reflexivity].
Qed.
Print Assumptions C80_epk_curve_refuted.
(** With a key import that checks the curve, an accepted envelope has an ephemeral key on
    the curve of the recipient key (missing: other key imports). *)
Theorem C80_epk_curve_partial : forall C fuel text o tr m md j h, (forall a v k, from_jwk C a v = Some k -> jwk_alg v = a) ->
  ran C fuel text o tr m md -> envelope C text j h -> ph_alg h = EcdhEsA256kw \/ ph_alg h = Ecdh1puA256kw ->
  exists kid sec k, In kid (recipient_kids j) /\ held tr kid sec /\ sec_key_pair C sec = Ok (jwk_alg (ph_epk h), k).
Proof. intros C fuel text o tr m md j h F. exact (epk_checked C F fuel text o tr m md j h). Qed.
Print Assumptions C80_epk_curve_partial.
Example C80_case : (forall a v k, from_jwk toy a v = Some k -> jwk_alg v = a)
  /\ exists md, read_by toy sec_bob (toy_pack (Some (B "did:ex:alice")) None true false) = Some (Ok (toy_msg, md)).
Proof.
  split; [|eexists; vm_compute; reflexivity]. intros a v k E. cbn in E. unfold toy_from_jwk in E.
  destruct (kalg_eqb (jwk_alg v) a) eqn:Q; [|discriminate]. destruct (jwk_alg v), a; try discriminate Q; reflexivity.
Qed.

(** C81.  Signer and sender may be different parties: Alice encrypts what Bob signed. *)
Definition mixed : bytes := Eval vm_compute in
  text_of (run (toy_env toy_docs (sec_alice ++ sec_bob)) (pack_encrypted toy toy_msg (B "did:ex:bob") (Some (B "did:ex:alice")) (Some (B "did:ex:bob"))
    (mkPO false false None None AuthA256cbcHs512 AnonXc20p))).
Theorem C81_one_party_refuted : exists C fuel text o tr m md from signer, ran C fuel text o tr m md
  /\ um_encrypted_from_kid md = Some from /\ um_sign_from md = Some signer /\ forall did, url_of did from -> ~ url_of did signer.
Proof.
  assert (E : exists md, read_by toy sec_bob mixed = Some (Ok (toy_msg, md)) /\ um_encrypted_from_kid md = Some (B "did:ex:alice#x")
    /\ um_sign_from md = Some (B "did:ex:bob#k")) by (eexists; vm_compute; auto).
  destruct E as (md & E & F & S). apply read_ran in E as (tr & E). exists toy, 9, mixed, default_unpack_options, tr, toy_msg, md, (B "did:ex:alice#x"), (B "did:ex:bob#k").
  split; [exact E|]. split; [exact F|]. split; [exact S|]. intros did U1 U2.
  assert (A : url_of (B "did:ex:alice") (B "did:ex:alice#x")) by (eexists; split; [reflexivity|cbn; intuition discriminate]).
  assert (D : url_of (B "did:ex:bob") (B "did:ex:bob#k")) by (eexists; split; [reflexivity|cbn; intuition discriminate]).
  pose proof (url_of_one _ _ _ U1 A) as X. rewrite (url_of_one _ _ _ U2 D) in X. discriminate X.
Qed.
Print Assumptions C81_one_party_refuted.
(** They are of one DID if either key was only used for messages from its own DID, and
    the message names its sender (missing: any other case). *)
Theorem C81_one_party_partial : forall C fuel text o tr m md from signer did (sealed signed : message -> Prop) (priors : from_prior -> Prop),
  (forall m', sealed m' -> message_fits C m' /\ forall f, msg_from m' = Some f -> url_of f from) ->
  (forall m', signed m' -> message_fits C m' /\ forall f, msg_from m' = Some f -> url_of f signer) -> (forall p, priors p -> prior_fits p) ->
  ran C fuel text o tr m md -> um_encrypted_from_kid md = Some from -> um_sign_from md = Some signer -> msg_from m = Some did ->
  only_sealed C tr from sealed -> only_signed C tr signer signed priors -> url_of did from /\ url_of did signer.
Proof.
  intros C fuel text o tr m md from signer did sealed signed priors M1 M2 PF R F S D O1 O2. split.
  - exact (C26_sealer_matches_partial C fuel text o tr m md from did sealed M1 R F O1 D).
  - exact (C26_signer_matches_partial C fuel text o tr m md signer did signed priors M2 PF R S O2 D).
Qed.
Print Assumptions C81_one_party_partial.
(** The toy primitives with both restrictions of C09_case and C77_case. *)
Definition prudent : crypto := {|
  key := key toy; from_jwk := from_jwk toy; to_jwk_public := to_jwk_public toy; x25519_from_secret := x25519_from_secret toy;
  x25519_public_bytes := x25519_public_bytes toy; x25519_secret_bytes := x25519_secret_bytes toy; key_gen := key_gen toy;
  key_sign := key_sign toy; key_verify := key_verify careful; ecdh_es := ecdh_es toy; ecdh_1pu := ecdh_1pu toy;
  kw_wrap := kw_wrap toy; kw_unwrap := kw_unwrap toy; cek_gen := cek_gen toy; cek_import := cek_import toy; nonce_gen := nonce_gen toy;
  aead_enc := aead_enc toy; aead_dec := aead_dec loyal; sha256 := sha256 toy; fparse := fparse toy |}.
Example C81_case : forall tr, only_sealed prudent tr (B "did:ex:alice#x") (fun m => m = rich_msg)
  /\ only_signed prudent tr (B "did:ex:alice#e") (fun m => m = rich_msg) (fun p => p = toy_prior)
  /\ exists md, read_by prudent sec_bob sealed_and_signed = Some (Ok (rich_msg, md))
       /\ um_encrypted_from_kid md = Some (B "did:ex:alice#x") /\ um_sign_from md = Some (B "did:ex:alice#e").
Proof.
  intros tr. destruct (C77_case tr) as [S _]. destruct (C09_case tr) as [G _]. split; [exact S|]. split; [exact G|]. eexists. vm_compute. repeat split.
Qed.
