(** Claims that are false in general, under a condition that makes them true. *)
From Verif.Model Require Import Prelude Utf8 Base64 Json Serde DidDoc Crypto Keys Effects Jws Jwe Message FromPrior Pack Routing Unpack.
From Verif.Spec Require Import Codec Small Events Panics Toy World Text Packing Signing Cond.
From Verif.Proofs Require Import Lib NoPanic UnpackInv RoundP ToyP PackP SigningP CondP DeliverP.
From Verif.Props Require Import RoundTrip Unpack Pack Signing.
From Coq Require Import Permutation.

(** C24.  A received rotation is bound to the signing key and to the message when the
    message is one that this library agreed to pack (missing: any other message). *)
Theorem C24_rotation_bound_partial : forall C fuel text o tr m md p kid tr',
  ran C fuel text o tr m md -> um_from_prior md = Some p -> um_from_prior_issuer_kid md = Some kid ->
  (exists t, exec (pack_plaintext C m) tr' (Ok t))
  \/ (exists by_ t k, exec (pack_signed C m by_) tr' (Ok (t, k)))
  \/ (exists to from sign_by po t pm, exec (pack_encrypted C m to from sign_by po) tr' (Ok (t, pm))) ->
  url_of (fp_iss p) kid /\ fp_iss p <> fp_sub p /\ forall f, msg_from m = Some f -> f = fp_sub p.
Proof.
  intros C fuel text o tr m md p kid tr' H P K S. apply (packed_rotation C fuel text o tr m md p kid tr'); auto.
  destruct (C25_rotation_checked C m tr') as (R1 & R2 & R3).
  destruct S as [(t & S)|[(b & t & k & S)|(to & from & s & po & t & pm & S)]]; eauto.
Qed.
Print Assumptions C24_rotation_bound_partial.
Example C24_case : exists md p tr', ran toy 9 (message_text toy_rotated) default_unpack_options
    (trace (toy_env toy_docs sec_bob) (unpack toy 9 (message_text toy_rotated) default_unpack_options)) toy_rotated md
  /\ um_from_prior md = Some p /\ um_from_prior_issuer_kid md = Some (B "did:ex:bob#k")
  /\ exec (pack_plaintext toy toy_rotated) tr' (Ok (message_text toy_rotated)) /\ fp_iss p = B "did:ex:bob" /\ fp_sub p = B "did:ex:alice".
Proof.
  assert (E : exists md p, bob_reads (message_text toy_rotated) default_unpack_options = Some (Ok (toy_rotated, md))
    /\ um_from_prior md = Some p /\ um_from_prior_issuer_kid md = Some (B "did:ex:bob#k") /\ fp_iss p = B "did:ex:bob" /\ fp_sub p = B "did:ex:alice")
    by (do 2 eexists; vm_compute; repeat split).
  destruct E as (md & p & E & P & K & I & S).
  exists md, p, (trace (toy_env toy_docs []) (pack_plaintext toy toy_rotated)). split; [rewrite <- E; apply bob_exec|]. repeat split; auto.
  assert (Q : run (toy_env toy_docs []) (pack_plaintext toy toy_rotated) = Ok (message_text toy_rotated)) by (vm_compute; reflexivity).
  rewrite <- Q. apply run_exec.
Qed.

(** C26.  The from header of a message is the DID of the reported sender key when this
    library encrypted it for a sender... *)
Theorem C26_sender_matches_partial : forall C pair dir own own' m to from sign_by po tr text pm fuel o tr' x,
  lawful C pair -> directory dir -> secrets_match C pair dir own -> secrets_match C pair dir own' -> message_fits C m ->
  exec (pack_encrypted C m to (Some from) sign_by po) tr (Ok (text, pm)) -> Forall (answers dir own) tr -> pm_service pm = None ->
  holds_one own' (pm_to_kids pm) ->
  exec (unpack C (S fuel) text o) tr' x -> Forall (answers dir own') tr' ->
  exists md fkid, x = Some (Ok (m, md)) /\ um_encrypted_from_kid md = Some fkid
    /\ forall did, msg_from m = Some did -> url_of did fkid.
Proof.
  intros C pair dir own own' m to from sign_by po tr text pm fuel o tr' x L D M M' F H A S O H' A'.
  destruct (C04_authcrypt_round _ _ _ _ _ _ _ _ _ _ _ _ _ _ _ _ _ L D M M' F H A S O H' A') as (prior & sign & fkid & _ & _ & K & _ & E).
  eexists _, fkid. split; [exact E|]. split; [reflexivity|]. intros did Fr. exact (sender_did C dir own m to from sign_by po tr text pm did fkid D H A Fr K).
Qed.
Print Assumptions C26_sender_matches_partial.
(** ... or when the signing key has only signed messages from its own DID (missing: any
    other message). *)
Theorem C26_signer_matches_partial : forall C fuel text o tr m md kid did (msgs : message -> Prop) (priors : from_prior -> Prop),
  (forall m', msgs m' -> message_fits C m' /\ forall f, msg_from m' = Some f -> url_of f kid) -> (forall p, priors p -> prior_fits p) ->
  ran C fuel text o tr m md -> um_sign_from md = Some kid -> only_signed C tr kid msgs priors ->
  msg_from m = Some did -> url_of did kid.
Proof.
  intros C fuel text o tr m md kid did msgs priors MF PF R S OS Fr.
  assert (Q : msgs m) by (eapply C09_messages_honest; eauto; intros m' Hm; apply MF; exact Hm).
  apply MF in Q as [_ Q]. exact (Q did Fr).
Qed.
Print Assumptions C26_signer_matches_partial.
(** Concrete cases: C04_case and C09_case, in which the message is from Alice. *)
Example C26_case : msg_from rich_msg = Some (B "did:ex:alice") /\ url_of (B "did:ex:alice") (B "did:ex:alice#x") /\ url_of (B "did:ex:alice") (B "did:ex:alice#e").
Proof.
  split; [reflexivity|]. split; eexists; (split; [reflexivity|]); intros I; cbn in I; intuition discriminate.
Qed.

(** C52.  When no forward was unwrapped, the metadata describes the text's own outermost
    envelope (missing: the unwrapped case, see C52_delivered_partial). *)
Theorem C52_metadata_of_message_partial : forall C fuel text o tr m md, ran C fuel text o tr m md -> um_re_wrapped md = false ->
  (um_anonymous_sender md = true <-> exists j h, envelope C text j h /\ ph_alg h = EcdhEsA256kw)
  /\ (forall j h, envelope C text j h -> ph_alg h = EcdhEsA256kw \/ ph_alg h = Ecdh1puA256kw ->
        um_encrypted md = true /\ um_encrypted_to_kids md = Some (recipient_kids j))
  /\ (um_encrypted md = true -> exists j h, envelope C text j h)
  /\ (forall j h, envelope C text j h -> ph_alg h = EcdhEsA256kw -> exists ce alg, enc_of (ph_enc h) ce alg /\ um_enc_alg_anon md = Some alg).
Proof. exact own_envelope. Qed.
Print Assumptions C52_metadata_of_message_partial.
Example C52_case : ok_part (fun '(m, md) => (um_re_wrapped md, um_anonymous_sender md, um_encrypted_to_kids md, um_enc_alg_anon md))
    (bob_reads (toy_pack None None false false) default_unpack_options)
  = Some (false, true, Some [B "did:ex:bob#x1"; B "did:ex:bob#x2"], Some AnonXc20p).
Proof. vm_compute. reflexivity. Qed.

(** When forwards were unwrapped, the metadata is the one of unpacking the delivered text
    by itself, but for the fields that tell of anonymous envelopes; and those too when the
    delivered text is an anonymous envelope (missing: the other delivered texts). *)
Theorem C52_delivered_partial : forall C fuel text o tr m md, ran C fuel text o tr m md ->
  exists t tr1 tr2 fuel' md0, tr = tr1 ++ tr2 /\ delivered C o tr1 text t
    /\ (if um_re_wrapped md
        then exists j alg pt next v, anon_opened C tr1 (uo_all_keys o) text j alg pt /\ forward_to C pt next v /\ delivered C o tr1 (print v) t
        else t = text)
    /\ ran C fuel' t o tr2 m md0 /\ um_re_wrapped md0 = false /\ same_inside md md0
    /\ forall j h, envelope C t j h -> ph_alg h = EcdhEsA256kw ->
         um_encrypted md = true /\ um_anonymous_sender md = true /\ um_encrypted_to_kids md = Some (recipient_kids j)
         /\ exists ce alg, enc_of (ph_enc h) ce alg /\ um_enc_alg_anon md = Some alg.
Proof.
  intros C fuel text o tr m md H. destruct (direct _ _ _ _ _ _ _ H) as (t & tr1 & tr2 & f & md0 & E & D & K & X & R & S).
  exists t, tr1, tr2, f, md0. repeat (split; [assumption|]). exact (inner_envelope C f t o tr2 m md md0 X R S).
Qed.
Print Assumptions C52_delivered_partial.
(** A message for two of Bob's keys in a forward for one of them. *)
Definition anon_in_forward : bytes :=
  Eval vm_compute in match run (toy_env toy_docs []) (wrap_in_forward toy (toy_pack None None false false) None (B "did:ex:bob") [B "did:ex:bob#x1"] AnonA256gcm) with Ok t => t | _ => [] end.
Example C52_case_delivered :
  ok_part (fun '(m, md) => (um_re_wrapped md, um_encrypted_to_kids md, um_enc_alg_anon md)) (bob_reads anon_in_forward default_unpack_options)
    = Some (true, Some [B "did:ex:bob#x1"; B "did:ex:bob#x2"], Some AnonXc20p)
  /\ ok_part (fun '(m, md) => (um_re_wrapped md, um_encrypted_to_kids md, um_enc_alg_anon md)) (bob_reads anon_in_forward (mkUO false false))
    = Some (false, Some [B "did:ex:bob#x1"], Some AnonA256gcm).
Proof. vm_compute. split; reflexivity. Qed.

(** C54.  Panics come from Ed25519 secrets that are too short and from nothing else, as
    long as the resolvers themselves do not panic (missing: those secrets). *)
Theorem C54_short_secret_partial : forall C m sign_by tr, exec (pack_signed C m sign_by) tr Panic -> Forall quiet tr ->
  exists kid s, held tr kid s /\ ~ long_enough s.
Proof.
  intros C m s tr H Q. apply not_calm; [exact Q|]. intros F. exact (C20_pack_signed_total C m s tr Panic H F eq_refl).
Qed.
Print Assumptions C54_short_secret_partial.
Example C54_case : let tr := trace (toy_env toy_docs short_secret) (pack_signed toy toy_msg (B "did:ex:alice")) in
  exec (pack_signed toy toy_msg (B "did:ex:alice")) tr Panic /\ Forall quiet tr.
Proof.
  cbv zeta. split; [|vm_compute; repeat (constructor; try exact I; try discriminate)].
  assert (P : run (toy_env toy_docs short_secret) (pack_signed toy toy_msg (B "did:ex:alice")) = Panic) by (vm_compute; reflexivity).
  rewrite <- P. apply run_exec.
Qed.

(** C55.  The digest is unambiguous for key ids that begin with did: and do not contain
    .did: (missing: other strings; C10_apv_binds is for key ids with a single #). *)
Theorem C55_apv_unambiguous_partial : forall C k1 k2 apv, k1 <> [] -> k2 <> [] -> Forall separable k1 -> Forall separable k2 ->
  apv_for C k1 apv -> apv_for C k2 apv -> Permutation k1 k2 \/ exists x y, x <> y /\ sha256 C x = sha256 C y.
Proof. exact apv_separable. Qed.
Print Assumptions C55_apv_unambiguous_partial.
Example C55_case : Forall separable [B "did:web:a.example#k.1"; B "did:web:a.example#k#2"] /\ ~ separable (B "did:ex:b#1.did:ex:b#2").
Proof.
  assert (D : forall k, (forall n, n <= List.length k -> firstn 5 (skipn n k) <> B ".did:") -> forall a b, k <> a ++ B ".did:" ++ b).
  { intros k H a b ->. apply (H (List.length a)); [rewrite app_length; lia|]. rewrite skipn_app, skipn_all, Nat.sub_diag. reflexivity. }
  split.
  - constructor; [|constructor; [|constructor]]; (split; [eexists; reflexivity|]); apply D; intros n L; cbn in L;
      repeat (destruct n as [|n]; [vm_compute; discriminate|]; apply le_S_n in L || inversion L).
  - intros [_ N]. apply (N (B "did:ex:b#1") (B "ex:b#2")). reflexivity.
Qed.
