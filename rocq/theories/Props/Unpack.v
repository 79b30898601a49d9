(** Properties of Message::unpack and FromPrior::unpack, for every execution: any
    text, options, documents, secrets and resolver answers.  [tr] lists the calls
    made to the resolvers with their answers; [C] is any set of primitives. *)
From Verif.Model Require Import Prelude Utf8 Base64 Json Serde Base58 DidDoc Crypto Keys Effects Jws Jwe Message FromPrior Pack Routing Unpack.
From Verif.Spec Require Import Codec Small Events Panics Toy.
From Verif.Proofs Require Import Lib UnpackInv UnpackP RejectP ApvP NoPanic UnpackFacts GarbageP.
From Coq Require Import Permutation.

(** [text] unpacks to [m] with metadata [md]. *)
Notation ran C fuel text o tr m md := (exec (unpack C fuel text o) tr (Some (Ok (m, md)))).

(** Concrete runs: Bob receives what Alice packed. *)
Definition bob_reads (text : bytes) (o : unpack_options) := toy_unpack sec_bob text o.
Lemma bob_exec text o : exec (unpack toy 9 text o) (trace (toy_env toy_docs sec_bob) (unpack toy 9 text o)) (bob_reads text o).
Proof. apply run_exec. Qed.

(** C06.  The metadata fields agree with each other. *)
Theorem C06_metadata_consistent : forall C fuel text o tr m md, ran C fuel text o tr m md ->
  (um_encrypted md = true <-> exists k, um_encrypted_to_kids md = Some k)
  /\ (um_non_repudiation md = true <-> exists k, um_sign_from md = Some k)
  /\ ((exists k, um_sign_from md = Some k) <-> (exists a, um_sign_alg md = Some a))
  /\ ((exists k, um_sign_from md = Some k) <-> (exists t, um_signed_message md = Some t))
  /\ (um_authenticated md = true <-> (exists k, um_encrypted_from_kid md = Some k) \/ (exists k, um_sign_from md = Some k))
  /\ ((exists k, um_encrypted_from_kid md = Some k) <-> (exists a, um_enc_alg_auth md = Some a))
  /\ (um_anonymous_sender md = true <-> exists a, um_enc_alg_anon md = Some a)
  /\ (um_encrypted md = true <-> (exists a, um_enc_alg_anon md = Some a) \/ (exists k, um_encrypted_from_kid md = Some k))
  /\ ((exists p, um_from_prior md = Some p) <-> exists k, um_from_prior_issuer_kid md = Some k)
  /\ ((exists p, um_from_prior md = Some p) <-> exists j, msg_from_prior m = Some j)
  /\ (um_re_wrapped md = true -> um_anonymous_sender md = true).
Proof. exact metadata_consistent. Qed.
Print Assumptions C06_metadata_consistent.
Example C06_case : ok_part (fun '(m, md) => (um_encrypted md, um_authenticated md, um_non_repudiation md, um_anonymous_sender md))
  (bob_reads (toy_pack (Some (B "did:ex:alice")) (Some (B "did:ex:alice")) true false) default_unpack_options)
  = Some (true, true, true, true).
Proof. vm_compute. reflexivity. Qed.

(** C07.  A reported signature was verified with a published authentication key,
    over exactly [protected.payload] (see [signed_by]), and the message is the payload. *)
Theorem C07_signature_verified : forall C fuel text o tr m md kid,
  ran C fuel text o tr m md -> um_sign_from md = Some kid ->
  exists signed sa payload, um_signed_message md = Some signed /\ um_sign_alg md = Some sa
    /\ signed_by C tr signed kid sa payload /\ message_from_str (fparse C) payload = Ok m.
Proof. exact signature_sound. Qed.
Print Assumptions C07_signature_verified.
Example C07_case : ok_part (fun '(m, md) => (um_sign_from md, um_sign_alg md, msg_id m)) (bob_reads toy_signed default_unpack_options)
  = Some (Some (B "did:ex:alice#e"), Some SignEdDSA, B "id-1").
Proof. vm_compute. reflexivity. Qed.

(** C08.  A reported sender key was resolved, is published under keyAgreement and
    took part in the derivation of the key that opened the envelope (see
    [auth_opened]); the message comes out of that plaintext. *)
Theorem C08_sender_key_used : forall C fuel text o tr m md kid,
  ran C fuel text o tr m md -> um_encrypted_from_kid md = Some kid ->
  exists rew anon text1 j pt, outer C o tr text rew anon text1
    /\ auth_opened C tr (uo_all_keys o) text1 j kid pt
    /\ um_enc_alg_auth md = Some AuthA256cbcHs512
    /\ (anon = None -> um_encrypted_to_kids md = Some (recipient_kids j))
    /\ (um_signed_message md = None /\ message_from_str (fparse C) pt = Ok m
        \/ um_signed_message md = Some pt /\ exists k sa payload, signed_by C tr pt k sa payload /\ message_from_str (fparse C) payload = Ok m).
Proof. exact sender_sound. Qed.
Print Assumptions C08_sender_key_used.
Example C08_case : ok_part (fun '(m, md) => (um_encrypted_from_kid md, um_encrypted_to_kids md))
  (bob_reads (toy_pack (Some (B "did:ex:alice")) None false false) default_unpack_options)
  = Some (Some (B "did:ex:alice#x"), Some [B "did:ex:bob#x1"; B "did:ex:bob#x2"]).
Proof. vm_compute. reflexivity. Qed.

(** C10.  An accepted envelope carries the digest of its own recipient list. *)
Theorem C10_apv_accepted : forall C fuel text o tr m md j h,
  ran C fuel text o tr m md -> envelope C text j h -> ph_alg h = EcdhEsA256kw \/ ph_alg h = Ecdh1puA256kw ->
  one_did (recipient_kids j) /\ exists apv, b64dec (ph_apv h) = Some apv /\ apv_for C (recipient_kids j) apv.
Proof. exact accepted_apv. Qed.
Print Assumptions C10_apv_accepted.
(** C10.  Any other apv is rejected as Malformed, before any resolver is asked. *)
Theorem C10_apv_rejected : forall C fuel text o tr x j h,
  envelope C text j h -> ph_alg h = EcdhEsA256kw \/ ph_alg h = Ecdh1puA256kw ->
  (forall apv, b64dec (ph_apv h) = Some apv -> ~ apv_for C (recipient_kids j) apv) ->
  exec (unpack C (S fuel) text o) tr x -> tr = [] /\ x = Some (Err Malformed).
Proof. exact bad_apv_rejected. Qed.
Print Assumptions C10_apv_rejected.
(** C10.  Without a SHA-256 collision, one apv fits only one set of key ids (key ids
    with a single #), in whatever order. *)
Theorem C10_apv_binds : forall C k1 k2 d1 d2 apv,
  k1 <> [] -> k2 <> [] -> Forall (plain_url d1) k1 -> Forall (plain_url d2) k2 ->
  apv_for C k1 apv -> apv_for C k2 apv ->
  Permutation k1 k2 \/ exists x y, x <> y /\ sha256 C x = sha256 C y.
Proof. exact apv_binds. Qed.
Print Assumptions C10_apv_binds.
Theorem C10_apv_order : forall C k1 k2 apv, Permutation k1 k2 -> apv_for C k1 apv -> apv_for C k2 apv.
Proof. exact apv_perm. Qed.
Print Assumptions C10_apv_order.
(** An envelope whose recipient list lost an entry. *)
Definition drop_recipient (text : bytes) : bytes :=
  match jwe_from_str text with
  | Ok j => print (jwe_tree (mkJwe (jwe_protected j) (tl (jwe_recipients j)) (jwe_iv j) (jwe_ciphertext j) (jwe_tag j)))
  | _ => []
  end.
Example C10_case :
  let text := toy_pack None None false false in
  ok_part (fun '(m, md) => um_encrypted_to_kids md) (bob_reads text default_unpack_options)
    = Some (Some [B "did:ex:bob#x1"; B "did:ex:bob#x2"])
  /\ err_part (bob_reads (drop_recipient text) default_unpack_options) = Some Malformed.
Proof. vm_compute. auto. Qed.
(** C55.  The condition on # cannot be dropped: these two lists have the same digest,
    whatever the hash function. *)
Theorem C55_apv_unambiguous_refuted : forall C, exists k1 k2 apv d,
  Forall (url_of d) k1 /\ Forall (url_of d) k2 /\ ~ Permutation k1 k2 /\ apv_for C k1 apv /\ apv_for C k2 apv.
Proof.
  intros C. exists [B "did:ex:b#1.did:ex:b#2"], [B "did:ex:b#1"; B "did:ex:b#2"], (apv_of C [B "did:ex:b#1.did:ex:b#2"]), (B "did:ex:b").
  assert (U : forall f, url_of (B "did:ex:b") (B "did:ex:b" ++ "#"%char :: f)).
  { intros f. exists f. split; auto. cbn. intros H. repeat (destruct H as [H|H]; [discriminate|]). destruct H. }
  split; [constructor; [apply (U (B "1.did:ex:b#2"))|constructor]|].
  split; [constructor; [apply (U (B "1"))|constructor; [apply (U (B "2"))|constructor]]|].
  split; [intros P; apply Permutation_length in P; discriminate|].
  split; apply apv_for_spec; reflexivity.
Qed.
Print Assumptions C55_apv_unambiguous_refuted.

(** C11.  In an accepted authcrypt envelope apu is present and UTF-8, skid if present
    equals it, and it is the reported sender key. *)
Theorem C11_sender_consistent : forall C fuel text o tr m md j h,
  ran C fuel text o tr m md -> envelope C text j h -> ph_alg h = Ecdh1puA256kw ->
  exists apu, announces h (Some apu) /\ utf8 apu = true /\ (ph_skid h = None \/ ph_skid h = Some apu)
    /\ um_encrypted_from_kid md = Some apu.
Proof.
  intros C fuel text o tr m md j h H E A. destruct (pu_accepted C _ _ _ _ _ _ _ _ H E A) as (from & pt & (h' & apv & fd & did & doc & ka & fk & E' & _ & _ & An & U & S & _) & F).
  destruct (envelope_fun C _ _ _ _ _ E E') as [_ ->]. eauto.
Qed.
Print Assumptions C11_sender_consistent.
(** C11.  Otherwise the envelope is rejected as Malformed and nobody is asked. *)
Theorem C11_sender_rejected : forall C fuel text o tr x j h,
  envelope C text j h -> ph_alg h = Ecdh1puA256kw ->
  (forall apu, announces h (Some apu) -> utf8 apu = true -> ph_skid h = None \/ ph_skid h = Some apu -> forall did, ~ url_of did apu) ->
  exec (unpack C (S fuel) text o) tr x -> tr = [] /\ x = Some (Err Malformed).
Proof. intros C fuel text o tr x j h E A N H. eapply pu_unpack; eauto. intros (_ & apu & did & An & U & S & D). exact (N _ An U S _ D). Qed.
Print Assumptions C11_sender_rejected.
(** C11.  An anoncrypt envelope that carries an apu is never accepted. *)
Theorem C11_anoncrypt_apu : forall C fuel text o tr m md j h,
  envelope C text j h -> ph_alg h = EcdhEsA256kw -> ph_apu h <> None -> ~ ran C fuel text o tr m md.
Proof.
  intros C fuel text o tr m md j h E A U H. destruct (es_accepted C _ _ _ _ _ _ _ _ H E A) as (alg & pt & h' & apv & fd & ce & E' & _ & _ & An & _).
  destruct (envelope_fun C _ _ _ _ _ E E') as [_ ->]. unfold announces in An. destruct (ph_apu h'); auto.
Qed.
Print Assumptions C11_anoncrypt_apu.
(** The same authcrypt message with its skid changed. *)
Definition edit_header (f : jwe_header -> jwe_header) (text : bytes) : bytes :=
  match jwe_from_str text with
  | Ok j => match jwe_parse toy j with
            | Ok p => print (jwe_tree (mkJwe (b64enc (print (jwe_header_tree (f (pj_protected p))))) (jwe_recipients j) (jwe_iv j) (jwe_ciphertext j) (jwe_tag j)))
            | _ => []
            end
  | _ => []
  end.
Example C11_case :
  let text := toy_pack (Some (B "did:ex:alice")) None false false in
  let skid s h := mkPH (ph_typ h) (ph_alg h) (ph_enc h) s (ph_apu h) (ph_apv h) (ph_epk h) in
  err_part (bob_reads (edit_header (skid (Some (B "did:ex:bob#k"))) text) default_unpack_options) = Some Malformed
  /\ ok_part (fun '(m, md) => um_encrypted_from_kid md) (bob_reads (edit_header (fun h => h) text) default_unpack_options)
     = Some (Some (B "did:ex:alice#x")).
Proof. vm_compute. auto. Qed.

(** C12.  Calls made while unpacking: secrets only for keys the envelopes name (see
    [unpack_call] and [reach]), and only secrets that were reported; no randomness. *)
Theorem C12_only_addressed_secrets : forall C fuel text o tr x,
  exec (unpack C fuel text o) tr x ->
  forall t1 e r t2, tr = t1 ++ Ev e r :: t2 -> unpack_call C text (uo_all_keys o) t1 e.
Proof. exact unpack_calls. Qed.
Print Assumptions C12_only_addressed_secrets.
Definition call_of (e : event) : op := let (o, _) := e in o.
Example C12_case :
  let text := toy_pack (Some (B "did:ex:alice")) (Some (B "did:ex:alice")) true false in
  map call_of (trace (toy_env toy_docs sec_bob) (unpack toy 9 text default_unpack_options))
  = [OFindSecrets [B "did:ex:bob#x1"; B "did:ex:bob#x2"]; OGetSecret (B "did:ex:bob#x1");
     OResolve (B "did:ex:alice");
     OFindSecrets [B "did:ex:bob#x1"; B "did:ex:bob#x2"]; OGetSecret (B "did:ex:bob#x1");
     OResolve (B "did:ex:alice")].
Proof. vm_compute. reflexivity. Qed.

(** C13.  An anoncrypt envelope not addressed to keys of one DID is rejected as
    Malformed and nobody is asked. *)
Theorem C13_one_did_anoncrypt : forall C fuel text o tr x j h,
  envelope C text j h -> ph_alg h = EcdhEsA256kw -> ~ one_did (recipient_kids j) ->
  exec (unpack C (S fuel) text o) tr x -> tr = [] /\ x = Some (Err Malformed).
Proof. intros C fuel text o tr x j h E A N H. eapply es_unpack; eauto. intros (_ & _ & O). contradiction. Qed.
Print Assumptions C13_one_did_anoncrypt.
(** C13.  Likewise authcrypt: the sender is resolved first, so a resolver failure may
    be reported instead, but no secret is ever asked for and nothing is returned. *)
Theorem C13_one_did_authcrypt : forall C fuel text o tr x j h,
  envelope C text j h -> ph_alg h = Ecdh1puA256kw -> ~ one_did (recipient_kids j) ->
  exec (unpack C (S fuel) text o) tr x -> Forall (fun e => ~ secret_call e) tr /\ forall m md, x <> Some (Ok (m, md)).
Proof. intros C fuel text o tr x j h. exact (pu_dids C text j h o fuel tr x). Qed.
Print Assumptions C13_one_did_authcrypt.
(** An envelope for two DIDs with a correct digest. *)
Definition two_dids (text : bytes) : bytes :=
  match jwe_from_str text with
  | Ok j =>
      let rs := mkRc (B "did:ex:carol#1") (B "AAAA") :: jwe_recipients j in
      let text' := print (jwe_tree (mkJwe (jwe_protected j) rs (jwe_iv j) (jwe_ciphertext j) (jwe_tag j))) in
      edit_header (fun h => mkPH (ph_typ h) (ph_alg h) (ph_enc h) (ph_skid h) (ph_apu h) (b64enc (apv_of toy (map rc_kid rs))) (ph_epk h)) text'
  | _ => []
  end.
Example C13_case :
  err_part (bob_reads (two_dids (toy_pack None None false false)) default_unpack_options) = Some Malformed
  /\ err_part (bob_reads (two_dids (toy_pack (Some (B "did:ex:alice")) None false false)) default_unpack_options) = Some Malformed
  /\ map call_of (trace (toy_env toy_docs sec_bob) (unpack toy 9 (two_dids (toy_pack (Some (B "did:ex:alice")) None false false)) default_unpack_options))
     = [OResolve (B "did:ex:alice")].
Proof. vm_compute. auto. Qed.

(** C18.  Only messages of the plaintext type are returned. *)
Theorem C18_typ_plain : forall C fuel text o tr m md,
  ran C fuel text o tr m md -> msg_typ m = B "application/didcomm-plain+json".
Proof. exact typ_plain. Qed.
Print Assumptions C18_typ_plain.
(** C18.  A plain message of another type is rejected as Malformed. *)
Theorem C18_typ_rejected : forall C fuel text o tr m x,
  jwe_from_str text = Err Malformed -> jws_from_str text = Err Malformed ->
  message_from_str (fparse C) text = Ok m -> msg_typ m <> B "application/didcomm-plain+json" ->
  exec (unpack C (S fuel) text o) tr x -> tr = [] /\ x = Some (Err Malformed).
Proof. exact typ_reject. Qed.
Print Assumptions C18_typ_rejected.
Example C18_case :
  let read t := bob_reads (B t) default_unpack_options in
  ok_part (fun '(m, md) => msg_typ m) (read "{""id"":""1"",""type"":""t"",""body"":{}}"%string)
    = Some (B "application/didcomm-plain+json")
  /\ err_part (read "{""id"":""1"",""typ"":""application/didcomm-signed+json"",""type"":""t"",""body"":{}}"%string) = Some Malformed.
Proof. vm_compute. auto. Qed.

(** C20.  No panic, when the resolvers do not panic and hand out no Ed25519 secret
    that is too short (see [calm]). *)
Theorem C20_unpack_total : forall C fuel text o tr x,
  exec (unpack C fuel text o) tr x -> Forall calm tr -> x <> Some Panic.
Proof. intros C fuel text o tr x H F. exact (safe_exec _ _ _ _ _ (loop_safe C fuel text o um_init) H F). Qed.
Print Assumptions C20_unpack_total.
Theorem C20_pack_signed_total : forall C m sign_by tr x,
  exec (pack_signed C m sign_by) tr x -> Forall calm tr -> x <> Panic.
Proof. intros C m s tr x H F. exact (safe_exec _ _ _ _ _ (pack_signed_safe C m s) H F). Qed.
Print Assumptions C20_pack_signed_total.
Theorem C20_pack_encrypted_total : forall C m to from sign_by o tr x,
  exec (pack_encrypted C m to from sign_by o) tr x -> Forall calm tr -> x <> Panic.
Proof. intros C m to f s o tr x H F. exact (safe_exec _ _ _ _ _ (pack_encrypted_safe C m to f s o) H F). Qed.
Print Assumptions C20_pack_encrypted_total.
Theorem C20_from_prior_total : forall C p kid tr x,
  exec (from_prior_pack C p kid) tr x -> Forall calm tr -> x <> Panic.
Proof. intros C p k tr x H F. exact (safe_exec _ _ _ _ _ (from_prior_pack_safe C p k) H F). Qed.
Print Assumptions C20_from_prior_total.
Theorem C20_from_prior_unpack_total : forall C jwt tr x,
  exec (from_prior_unpack C jwt) tr x -> Forall calm tr -> x <> Panic.
Proof. intros C jwt tr x H F. exact (safe_exec _ _ _ _ _ (prior_safe C jwt) H F). Qed.
Print Assumptions C20_from_prior_unpack_total.
(** The resolvers of the concrete cases are calm. *)
Example C20_case : Forall calm (trace (toy_env toy_docs sec_alice)
  (pack_encrypted toy toy_msg (B "did:ex:bob") (Some (B "did:ex:alice")) (Some (B "did:ex:alice")) default_pack_options)).
Proof.
  generalize (pack_encrypted toy toy_msg (B "did:ex:bob") (Some (B "did:ex:alice")) (Some (B "did:ex:alice")) default_pack_options).
  induction p as [a|o k IH]; constructor; [|apply IH].
  destruct o as [d|ids|i|u]; try exact I; try discriminate.
  split; [discriminate|]. intros s H. change (Ok (find_first (fun s => beq (sec_id s) i) sec_alice) = Ok (Some s)) in H.
  assert (H' : find_first (fun s => beq (sec_id s) i) sec_alice = Some s) by congruence. clear H.
  apply find_first_some in H' as [H _]. repeat (destruct H as [<-|H]; [exact I|]). destruct H.
Qed.
(** C54.  Without that condition it is false: a short Ed25519 secret makes signing panic. *)
Definition short_secret : list secret := [mkSecret (B "did:ex:alice#e") Ed25519VerificationKey2018 (MBase58 (B "2"))].
Theorem C54_short_secret_refuted : exists C m sign_by tr,
  exec (pack_signed C m sign_by) tr Panic /\ Forall (fun e => match e with Ev (OResolve _) r => r <> Panic | Ev (OGetSecret _) r => r <> Panic | _ => True end) tr.
Proof.
  exists toy, toy_msg, (B "did:ex:alice"), (trace (toy_env toy_docs short_secret) (pack_signed toy toy_msg (B "did:ex:alice"))).
  split; [|vm_compute; repeat (constructor; try exact I; try discriminate)].
  assert (P : run (toy_env toy_docs short_secret) (pack_signed toy toy_msg (B "did:ex:alice")) = Panic) by (vm_compute; reflexivity).
  rewrite <- P. apply run_exec.
Qed.
Print Assumptions C54_short_secret_refuted.

(** C21.  The public wrap_in_forward panics when given no routing keys, and only then
    (with calm resolvers). *)
Theorem C21_wrap_total_refuted : exists C msg headers to keys alg, exec (wrap_in_forward C msg headers to keys alg) [] Panic.
Proof. exists toy, (B "{}"), None, (B "did:ex:bob"), [], AnonXc20p. cbn. auto. Qed.
Print Assumptions C21_wrap_total_refuted.
Theorem C21_wrap_total_partial : forall C msg headers to keys alg tr x,
  keys <> [] -> exec (wrap_in_forward C msg headers to keys alg) tr x -> Forall calm tr -> x <> Panic.
Proof. intros C msg h to keys alg tr x N H F. exact (safe_exec _ _ _ _ _ (wrap_in_forward_safe C msg h to keys alg N) H F). Qed.
Print Assumptions C21_wrap_total_partial.
Example C21_case : match run (toy_env toy_docs []) (wrap_in_forward toy (toy_pack None None false false) None (B "did:ex:bob") [B "did:ex:med2#x"] AnonXc20p)
  with Ok t => jwe_from_str t | _ => Panic end <> Panic.
Proof. vm_compute. discriminate. Qed.

(** C23.  FromPrior::unpack accepts only a JWT signed by a published authentication
    key of the DID named by its kid (see [rotation_by]). *)
Theorem C23_rotation_sound : forall C jwt tr p kid,
  exec (from_prior_unpack C jwt) tr (Ok (p, kid)) -> rotation_by C tr jwt p kid.
Proof. exact from_prior_unpack_Ok. Qed.
Print Assumptions C23_rotation_sound.
(** C23.  Likewise when it arrives inside a message. *)
Theorem C23_rotation_in_message : forall C fuel text o tr m md p kid,
  ran C fuel text o tr m md -> um_from_prior md = Some p -> um_from_prior_issuer_kid md = Some kid ->
  exists jwt, msg_from_prior m = Some jwt /\ rotation_by C tr jwt p kid.
Proof.
  intros C fuel text o tr m md p kid H P K. apply unpack_inv in H as (rew & anon & auth & sign & prior & t1 & t2 & t3 & O & _ & _ & _ & _ & Pr & ->). cbn in P, K.
  destruct prior as [[p' k']|]; cbn in P, K; [|discriminate]. injection P as ->. injection K as ->. exact Pr.
Qed.
Print Assumptions C23_rotation_in_message.
Definition toy_jwt : bytes := text_of (run (toy_env toy_docs sec_bob) (from_prior_pack toy toy_prior None)).
Definition toy_rotated : message := mb_from_prior toy_jwt toy_msg.
Example C23_case : match run (toy_env toy_docs []) (from_prior_unpack toy toy_jwt) with Ok (p, kid) => Some (fp_iss p, fp_sub p, kid) | _ => None end
  = Some (B "did:ex:bob", B "did:ex:alice", B "did:ex:bob#k").
Proof. vm_compute. reflexivity. Qed.
Example C23_case_message : ok_part (fun '(m, md) => (option_map fp_iss (um_from_prior md), um_from_prior_issuer_kid md))
  (bob_reads (message_text toy_rotated) default_unpack_options) = Some (Some (B "did:ex:bob"), Some (B "did:ex:bob#k")).
Proof. vm_compute. reflexivity. Qed.

(** C24.  Unpack does not tie the rotation to the message or to the signing key: Alice's
    key signs a token in which Bob's DID becomes Carol's, and it is reported. *)
Definition forged_jwt : bytes :=
  match jws_sign_compact toy (print (from_prior_tree (fpb_new (B "did:ex:bob") (B "did:ex:carol")))) (B "did:ex:alice#e") KEd25519 (B "ae") (B "JWT") EdDSA with
  | Ok t => t | _ => [] end.
Theorem C24_rotation_bound_refuted : exists C fuel text o tr m md p kid,
  ran C fuel text o tr m md /\ um_from_prior md = Some p /\ um_from_prior_issuer_kid md = Some kid
  /\ ~ url_of (fp_iss p) kid /\ msg_from m <> Some (fp_sub p).
Proof.
  exists toy, 9, (message_text (mb_from_prior forged_jwt toy_msg)), default_unpack_options,
    (trace (toy_env toy_docs sec_bob) (unpack toy 9 (message_text (mb_from_prior forged_jwt toy_msg)) default_unpack_options)),
    (mb_from_prior forged_jwt toy_msg).
  assert (E : exists md, bob_reads (message_text (mb_from_prior forged_jwt toy_msg)) default_unpack_options = Some (Ok (mb_from_prior forged_jwt toy_msg, md))
    /\ um_from_prior md = Some (fpb_new (B "did:ex:bob") (B "did:ex:carol")) /\ um_from_prior_issuer_kid md = Some (B "did:ex:alice#e")) by (eexists; vm_compute; auto).
  destruct E as (md & E & P & K). exists md, (fpb_new (B "did:ex:bob") (B "did:ex:carol")), (B "did:ex:alice#e").
  split; [rewrite <- E; apply bob_exec|]. split; [exact P|]. split; [exact K|]. split; [|vm_compute; discriminate].
  intros (f & F & _). vm_compute in F. discriminate.
Qed.
Print Assumptions C24_rotation_bound_refuted.

(** C26.  Nor does it compare the authenticated sender with the [from] header: Alice
    signs a message from Bob. *)
Definition misaddressed : message := mb_from (B "did:ex:bob") toy_msg.
Theorem C26_sender_matches_refuted : exists C fuel text o tr m md kid did,
  ran C fuel text o tr m md /\ um_authenticated md = true /\ um_sign_from md = Some kid
  /\ um_encrypted_from_kid md = None /\ msg_from m = Some did /\ ~ url_of did kid.
Proof.
  pose (text := text_of (run (toy_env toy_docs sec_alice) (pack_signed toy misaddressed (B "did:ex:alice")))).
  exists toy, 9, text, default_unpack_options, (trace (toy_env toy_docs sec_bob) (unpack toy 9 text default_unpack_options)), misaddressed.
  assert (E : exists md, bob_reads text default_unpack_options = Some (Ok (misaddressed, md))
    /\ um_authenticated md = true /\ um_sign_from md = Some (B "did:ex:alice#e") /\ um_encrypted_from_kid md = None) by (eexists; vm_compute; auto).
  destruct E as (md & E & A & S & F). exists md, (B "did:ex:alice#e"), (B "did:ex:bob").
  split; [rewrite <- E; apply bob_exec|]. split; [exact A|]. split; [exact S|]. split; [exact F|]. split; [reflexivity|].
  intros (f & G & _). vm_compute in G. discriminate.
Qed.
Print Assumptions C26_sender_matches_refuted.

(** C30.  With unwrapping off nothing is unwrapped: at most one anoncrypt layer is
    removed and what follows is read as it is. *)
Theorem C30_unwrap_off : forall C fuel text o tr m md,
  ran C fuel text o tr m md -> uo_unwrap o = false -> um_re_wrapped md = false.
Proof. exact rewrapped_off. Qed.
Print Assumptions C30_unwrap_off.
Theorem C30_forward_returned : forall C fuel text o tr m md,
  ran C fuel text o tr m md -> uo_unwrap o = false -> um_anonymous_sender md = true ->
  um_authenticated md = false ->
  exists j alg pt, anon_opened C tr (uo_all_keys o) text j alg pt /\ message_from_str (fparse C) pt = Ok m.
Proof.
  intros C fuel text o tr m md H U S A. apply unpack_inv in H as (rew & anon & auth & sign & prior & t1 & t2 & t3 & O & Au & Si & M & _ & _ & ->). cbn in *.
  destruct auth; [discriminate|]. destruct sign; [discriminate|]. destruct Au as [-> _], Si as [-> _].
  inversion O; subst; try discriminate; [eauto|congruence].
Qed.
Print Assumptions C30_forward_returned.
(** C30.  With it on, forwards are opened exactly while the secrets resolver reports a
    secret for [next]: the definition of [outer] says so for each layer; here are its
    two consequences. *)
Theorem C30_unwrapped : forall C fuel text o tr m md,
  ran C fuel text o tr m md -> um_re_wrapped md = true ->
  uo_unwrap o = true /\ exists j alg pt next v kid found,
    anon_opened C tr (uo_all_keys o) text j alg pt /\ forward_to C pt next v /\ asked_next tr next (kid :: found).
Proof.
  intros C fuel text o tr m md H R. apply unpack_inv in H as (rew & anon & auth & sign & prior & t1 & t2 & t3 & O & _ & _ & _ & _ & _ & ->). cbn in *. subst rew.
  inversion O; subst. split; auto. do 7 eexists. eauto.
Qed.
Print Assumptions C30_unwrapped.
Theorem C30_kept : forall C fuel text o tr m md,
  ran C fuel text o tr m md -> uo_unwrap o = true -> um_re_wrapped md = false -> um_anonymous_sender md = true ->
  exists j alg pt, anon_opened C tr (uo_all_keys o) text j alg pt
    /\ ((forall next v, ~ forward_to C pt next v) \/ exists next v, forward_to C pt next v /\ asked_next tr next []).
Proof.
  intros C fuel text o tr m md H U R S. apply unpack_inv in H as (rew & anon & auth & sign & prior & t1 & t2 & t3 & O & _ & _ & _ & _ & _ & ->). cbn in *. subst rew.
  inversion O as [|t j alg pt AO N|]; subst; [discriminate|]. exists j, alg, t1. split; auto. destruct (N U) as [E|[(m' & E & F)|(next & v & F & Q)]].
  - left. intros next v (m' & b & att & rest & js & E' & _). congruence.
  - left. exact F.
  - right. eauto.
Qed.
Print Assumptions C30_kept.
(** Bob's encrypted message, forwarded to Bob himself. *)
Definition toy_rewrapped : bytes :=
  match run (toy_env toy_docs []) (wrap_in_forward toy (toy_pack (Some (B "did:ex:alice")) None false false) None (B "did:ex:bob") [B "did:ex:bob"] AnonA256gcm) with
  | Ok t => t | _ => [] end.
Example C30_case :
  ok_part (fun '(m, md) => (um_re_wrapped md, msg_id m)) (bob_reads toy_rewrapped (mkUO false true)) = Some (true, B "id-1")
  /\ ok_part (fun '(m, md) => (um_re_wrapped md, msg_type m)) (bob_reads toy_rewrapped (mkUO false false))
     = Some (false, B "https://didcomm.org/routing/2.0/forward").
Proof. vm_compute. auto. Qed.

(** C31.  With expect_decrypt_by_all_keys every reported key opened each envelope;
    without it only the first reported one is even fetched. *)
Theorem C31_all_keys : forall C fuel text o tr m md j h,
  ran C fuel text o tr m md -> uo_all_keys o = true -> envelope C text j h ->
  ph_alg h = EcdhEsA256kw \/ ph_alg h = Ecdh1puA256kw ->
  exists found, found <> [] /\ reported tr (recipient_kids j) found /\
    forall kid, In kid found -> exists sec ce ka k sender pt,
      held tr kid sec /\ sec_key_pair C sec = Ok (ka, k) /\ opened C ce ka j h sender kid k pt.
Proof.
  intros C fuel text o tr m md j h H U E A.
  assert (T : forall ce sender found (P : kalg -> Prop) pt, tried C tr true found (fun kid ka k pt => P ka /\ opened C (ce) ka j h sender kid k pt) pt ->
    found <> [] /\ forall kid, In kid found -> exists sec ce ka k sender pt, held tr kid sec /\ sec_key_pair C sec = Ok (ka, k) /\ opened C ce ka j h sender kid k pt).
  { intros ce sender found P pt (l & kid & -> & (sec & ka & k & Hd & Sk & _ & Op) & R). split; [destruct l; discriminate|].
    intros kid' [I|[<-|[]]]%in_app_or; [|exists sec, ce, ka, k, sender, pt; auto].
    destruct (R _ I) as (pt' & sec' & ka' & k' & Hd' & Sk' & _ & Op'). exists sec', ce, ka', k', sender, pt'. auto. }
  destruct A as [A|A].
  - destruct (es_accepted C _ _ _ _ _ _ _ _ H E A) as (alg & pt & h' & apv & fd & ce & E' & _ & _ & _ & _ & _ & _ & _ & Rp & Tr).
    destruct (envelope_fun C _ _ _ _ _ E E') as [_ <-]. rewrite U in Tr. apply T in Tr as [N G]. eauto.
  - destruct (pu_accepted C _ _ _ _ _ _ _ _ H E A) as (from & pt & (h' & apv & fd & did & doc & ka & fk & E' & _ & _ & _ & _ & _ & _ & _ & _ & _ & _ & _ & Rp & _ & Tr) & _).
    destruct (envelope_fun C _ _ _ _ _ E E') as [_ <-]. rewrite U in Tr.
    assert (Tr' : tried C tr true fd (fun kid ka' k pt => ka' = ka /\ opened C CA256CbcHs512 ka' j h (Some (from, fk)) kid k pt) pt).
    { destruct Tr as (l & kid & -> & (sec & ka' & k & Hd & Sk & -> & Op) & R). exists l, kid. split; auto. split; [exists sec, ka, k; auto|].
      intros kid' I. destruct (R _ I) as (pt' & sec' & ka'' & k' & Hd' & Sk' & -> & Op'). exists pt', sec', ka, k'. auto. }
    apply (T _ _ _ (fun ka' => ka' = ka)) in Tr' as [N G]. eauto.
Qed.
Print Assumptions C31_all_keys.
Theorem C31_first_key : forall C fuel text o tr x,
  exec (unpack C fuel text o) tr x -> uo_all_keys o = false ->
  forall t1 id r t2, tr = t1 ++ Ev (OGetSecret id) r :: t2 -> exists ids l, reported t1 ids (id :: l).
Proof.
  intros C fuel text o tr x H U t1 id r t2 E. destruct (unpack_calls C _ _ _ _ _ H _ _ _ _ E) as (ids & l & l' & R & L).
  rewrite (L U) in R. eauto.
Qed.
Print Assumptions C31_first_key.
Example C31_case :
  let text := toy_pack None None false false in
  let gets o := filter (fun e => match e with OGetSecret _ => true | _ => false end) (map call_of (trace (toy_env toy_docs sec_bob) (unpack toy 9 text o))) in
  gets (mkUO true true) = [OGetSecret (B "did:ex:bob#x1"); OGetSecret (B "did:ex:bob#x2")]
  /\ gets (mkUO false true) = [OGetSecret (B "did:ex:bob#x1")].
Proof. vm_compute. auto. Qed.

(** C32.  Different recipients may be given different content keys, and the plaintexts
    are not compared.  [loose] is the toy instance with an AEAD that opens any
    ciphertext under a second key. *)
Definition loose : crypto := {|
  key := key toy; from_jwk := from_jwk toy; to_jwk_public := to_jwk_public toy; x25519_from_secret := x25519_from_secret toy;
  x25519_public_bytes := x25519_public_bytes toy; x25519_secret_bytes := x25519_secret_bytes toy; key_gen := key_gen toy;
  key_sign := key_sign toy; key_verify := key_verify toy; ecdh_es := ecdh_es toy; ecdh_1pu := ecdh_1pu toy;
  kw_wrap := kw_wrap toy; kw_unwrap := kw_unwrap toy; cek_gen := cek_gen toy; cek_import := cek_import toy; nonce_gen := nonce_gen toy;
  aead_enc := aead_enc toy;
  aead_dec := fun e k iv aad x => if beq k (B "cek") then aead_dec toy e k iv aad x else Some (B "other");
  sha256 := sha256 toy; fparse := fparse toy |}.
(** Give the first recipient another content key. *)
Definition other_cek (text : bytes) : bytes :=
  match jwe_from_str text with
  | Ok j => match jwe_recipients j with
            | r :: rs => match b64dec (rc_key r) with
                         | Some w => print (jwe_tree (mkJwe (jwe_protected j) (mkRc (rc_kid r) (b64enc (w ++ B "2")) :: rs) (jwe_iv j) (jwe_ciphertext j) (jwe_tag j)))
                         | None => []
                         end
            | [] => []
            end
  | _ => []
  end.
Definition split_text : bytes := other_cek (toy_pack None None false false).
Definition opens_to (C : crypto) (j : jwe) (kid : bytes) (ka : kalg) (k : key C) : option bytes :=
  match jwe_parse C j with
  | Ok p => match anon_open C p kid ka k with Ok (pt, _) => Some pt | _ => None end
  | _ => None
  end.
Theorem C32_same_plaintext_refuted : exists C fuel text o tr m md j found kid1 kid2 pt1 pt2,
  ran C fuel text o tr m md /\ uo_all_keys o = true /\ jwe_from_str text = Ok j /\ reported tr (recipient_kids j) found
  /\ In kid1 found /\ In kid2 found
  /\ (exists sec ka k, held tr kid1 sec /\ sec_key_pair C sec = Ok (ka, k) /\ opens_to C j kid1 ka k = Some pt1)
  /\ (exists sec ka k, held tr kid2 sec /\ sec_key_pair C sec = Ok (ka, k) /\ opens_to C j kid2 ka k = Some pt2)
  /\ pt1 <> pt2.
Proof.
  pose (o := mkUO true true). pose (j := match jwe_from_str split_text with Ok j => j | _ => mkJwe [] [] [] [] [] end).
  assert (J : jwe_from_str split_text = Ok j) by (vm_compute; reflexivity).
  assert (E : exists r, run (toy_env toy_docs sec_bob) (unpack loose 9 split_text o) = Some (Ok r)) by (eexists; vm_compute; reflexivity).
  destruct E as ([m md] & E).
  exists loose, 9, split_text, o, (trace (toy_env toy_docs sec_bob) (unpack loose 9 split_text o)), m, md, j,
    [B "did:ex:bob#x1"; B "did:ex:bob#x2"], (B "did:ex:bob#x1"), (B "did:ex:bob#x2"), (B "other"), (message_text toy_msg).
  split; [rewrite <- E; apply run_exec|]. split; [reflexivity|]. split; [exact J|]. clear E J.
  split; [vm_compute; auto|]. split; [now left|]. split; [now right; left|].
  split; [exists (sec_jwk "did:ex:bob#x1" KX25519 "bx1"), KX25519, (B "bx1"); split; [vm_compute; auto|split; vm_compute; reflexivity]|].
  split; [exists (sec_jwk "did:ex:bob#x2" KX25519 "bx2"), KX25519, (B "bx2"); split; [vm_compute; auto|split; vm_compute; reflexivity]|].
  vm_compute. discriminate.
Qed.
Print Assumptions C32_same_plaintext_refuted.
(** C32.  With primitives under which one ciphertext opens to one plaintext only
    (a committing AEAD), all reported keys do see the same plaintext. *)
Theorem C32_same_plaintext_partial : forall C fuel text o tr m md j h,
  (forall ce k1 k2 iv aad x p1 p2, aead_dec C ce k1 iv aad x = Some p1 -> aead_dec C ce k2 iv aad x = Some p2 -> p1 = p2) ->
  ran C fuel text o tr m md -> uo_all_keys o = true -> envelope C text j h -> ph_alg h = EcdhEsA256kw ->
  exists found pt, found <> [] /\ reported tr (recipient_kids j) found /\
    forall kid, In kid found ->
      (exists sec ka k, held tr kid sec /\ sec_key_pair C sec = Ok (ka, k) /\ exists ce, opened C ce ka j h None kid k pt)
      /\ forall ce alg ka k pt', enc_of (ph_enc h) ce alg -> opened C ce ka j h None kid k pt' -> pt' = pt.
Proof.
  intros C fuel text o tr m md j h Com H U E A.
  destruct (es_accepted C _ _ _ _ _ _ _ _ H E A) as (alg & pt & h' & apv & fd & ce & E' & _ & En & _ & _ & _ & _ & _ & Rp & Tr).
  destruct (envelope_fun C _ _ _ _ _ E E') as [_ <-]. rewrite U in Tr. destruct Tr as (l & kid & -> & (sec & ka & k & Hd & Sk & _ & Op) & R).
  assert (Q : forall ka' k' kid' pt' ce' alg', enc_of (ph_enc h) ce' alg' -> opened C ce' ka' j h None kid' k' pt' -> pt' = pt).
  { intros ka' k' kid' pt' ce' alg' En' (cek' & iv' & ct' & tag' & _ & I' & Ct' & T' & D'). destruct Op as (cek & iv & ct & tag & _ & I & Ct & T & D).
    rewrite I in I'. injection I' as <-. rewrite Ct in Ct'. injection Ct' as <-. rewrite T in T'. injection T' as <-.
    assert (ce' = ce) as ->. { clear - En En'. unfold enc_of in *. destruct (ph_enc h); intuition congruence. }
    eapply Com; eassumption. }
  exists (l ++ [kid]), pt. split; [destruct l; discriminate|]. split; auto.
  intros kid' I. split; [|intros; eapply Q; eauto].
  apply in_app_or in I as [I|[<-|[]]].
  - destruct (R _ I) as (pt' & sec' & ka' & k' & Hd' & Sk' & _ & Op'). exists sec', ka', k'. split; auto. split; auto. exists ce. rewrite <- (Q _ _ _ _ _ _ En Op'). exact Op'.
  - exists sec, ka, k. eauto.
Qed.
Print Assumptions C32_same_plaintext_partial.

(** C38.  A text that is neither an envelope nor a message is rejected with one of two
    kinds and nobody is asked. *)
Theorem C38_garbage_rejected_partial : forall C fuel text o tr x,
  (forall j, jwe_from_str text <> Ok j) -> (forall j, jws_from_str text <> Ok j) ->
  (forall m, message_from_str (fparse C) text <> Ok m) ->
  exec (unpack C (S fuel) text o) tr x ->
  tr = [] /\ (x = Some (Err Malformed) \/ x = Some (Err InvalidState)).
Proof. exact garbage_rejected. Qed.
Print Assumptions C38_garbage_rejected_partial.
(** C38.  A text that is complete JSON is rejected with Malformed. *)
Theorem C38_json_rejected_partial : forall C fuel d v o tr x,
  json_value (fparse C) d v ->
  (forall j, jwe_from_str (print v) <> Ok j) -> (forall j, jws_from_str (print v) <> Ok j) ->
  (forall m, message_from_str (fparse C) (print v) <> Ok m) ->
  exec (unpack C (S fuel) (print v) o) tr x -> tr = [] /\ x = Some (Err Malformed).
Proof. exact json_rejected. Qed.
Print Assumptions C38_json_rejected_partial.
Example C38_case : err_part (bob_reads (B "{""id"":""1""}") default_unpack_options) = Some Malformed
  /\ err_part (bob_reads (B "hello") default_unpack_options) = Some Malformed.
Proof. vm_compute. auto. Qed.
(** C38.  A truncated message is reported as InvalidState, the kind of internal errors. *)
Theorem C38_rejected_malformed_refuted : exists C fuel text o,
  (forall j, jwe_from_str text <> Ok j) /\ (forall j, jws_from_str text <> Ok j)
  /\ (forall m, message_from_str (fparse C) text <> Ok m)
  /\ exec (unpack C (S fuel) text o) [] (Some (Err InvalidState)).
Proof.
  exists toy, 3, (firstn 100 toy_signed), default_unpack_options.
  split; [intros j H; vm_compute in H; discriminate|]. split; [intros j H; vm_compute in H; discriminate|].
  split; [intros j H; vm_compute in H; discriminate|].
  assert (T : trace (toy_env [] []) (unpack toy 4 (firstn 100 toy_signed) default_unpack_options) = []) by (vm_compute; reflexivity).
  assert (R : run (toy_env [] []) (unpack toy 4 (firstn 100 toy_signed) default_unpack_options) = Some (Err InvalidState)) by (vm_compute; reflexivity).
  rewrite <- T, <- R. apply run_exec.
Qed.
Print Assumptions C38_rejected_malformed_refuted.

(** C52.  The metadata of an unwrapped message describes the forward's envelope: Bob's
    message is not anonymous, but is reported so when it arrives in a forward. *)
Theorem C52_metadata_of_message_refuted : exists C fuel inner outer_ o tr tr' m md md',
  ran C fuel inner o tr m md /\ ran C fuel outer_ o tr' m md' /\ um_re_wrapped md' = true
  /\ um_anonymous_sender md = false /\ um_anonymous_sender md' = true
  /\ um_encrypted_to_kids md <> um_encrypted_to_kids md'.
Proof.
  pose (inner := text_of (run (toy_env toy_docs sec_alice) (pack_encrypted toy toy_msg (B "did:ex:bob") (Some (B "did:ex:alice#p")) None
    (mkPO false false None None AuthA256cbcHs512 AnonXc20p)))).
  pose (wrapped := match run (toy_env toy_docs []) (wrap_in_forward toy inner None (B "did:ex:bob") [B "did:ex:bob"] AnonA256gcm) with Ok t => t | _ => [] end).
  pose (secs := sec_jwk "did:ex:bob#p" KP256 "bp" :: sec_bob).
  assert (E : exists md, toy_unpack secs inner default_unpack_options = Some (Ok (toy_msg, md))
    /\ um_anonymous_sender md = false /\ um_encrypted_to_kids md = Some [B "did:ex:bob#p"]) by (eexists; vm_compute; auto).
  assert (E' : exists md, toy_unpack secs wrapped default_unpack_options = Some (Ok (toy_msg, md))
    /\ um_re_wrapped md = true /\ um_anonymous_sender md = true /\ um_encrypted_to_kids md = Some [B "did:ex:bob#x1"; B "did:ex:bob#x2"]) by (eexists; vm_compute; auto).
  destruct E as (md & E & A & K), E' as (md' & E' & R & A' & K').
  exists toy, 9, inner, wrapped, default_unpack_options, (trace (toy_env toy_docs secs) (unpack toy 9 inner default_unpack_options)),
    (trace (toy_env toy_docs secs) (unpack toy 9 wrapped default_unpack_options)), toy_msg, md, md'.
  split; [rewrite <- E; apply run_exec|]. split; [rewrite <- E'; apply run_exec|]. split; auto. split; auto. split; auto.
  rewrite K, K'. discriminate.
Qed.
Print Assumptions C52_metadata_of_message_refuted.
