(** C105: signatures inside attachments. *)
From Verif.Model Require Import Prelude Utf8 Base64 Json Serde DidDoc Crypto Keys Effects Jws Jwe Message FromPrior Pack Routing Unpack.
From Verif.Spec Require Import Codec Small Events Toy World Text Signing Attach.
From Verif.Proofs Require Import Lib RoundP ToyP AttachP.
From Verif.Props Require Import RoundTrip Signing.

(** C105.  A message with an attachment that claims to be signed is accepted although no
    key was looked up that could verify it. *)
Definition claimed_msg : message :=
  mb_attachment (ab_jws (B "eyJhbGciOiJFZERTQSJ9..Zm9yZ2Vk") (ab_base64 (B "qq"))) toy_msg.
Theorem C105_vouched_refuted : exists C text o tr m md l a,
  exec (unpack C 1 text o) tr (Some (Ok (m, md))) /\ msg_attachments m = Some l /\ In a l /\ own_jws a <> None /\ ~ checkable tr a.
Proof.
  assert (E : exists md, run (toy_env toy_docs sec_bob) (unpack toy 1 (message_text claimed_msg) default_unpack_options) = Some (Ok (claimed_msg, md)))
    by (eexists; vm_compute; reflexivity).
  assert (T : trace (toy_env toy_docs sec_bob) (unpack toy 1 (message_text claimed_msg) default_unpack_options) = []) by (vm_compute; reflexivity).
  destruct E as (md & E). exists toy, (message_text claimed_msg), default_unpack_options, [], claimed_msg, md.
  eexists _, _. split; [rewrite <- E, <- T; apply run_exec|]. split; [reflexivity|]. split; [now left|]. split; [discriminate|].
  intros H. destruct H as (did & doc & H); [discriminate|]. exact H.
Qed.
Print Assumptions C105_vouched_refuted.

(** C105.  Nothing in an attachment is ever checked: a message with other attachments is
    packed with the same events and the same outcome... *)
Theorem C105_packing_blind : forall C m l tr r, exec (pack_plaintext C m) tr r ->
  exists r', exec (pack_plaintext C (with_attachments l m)) tr r' /\ same_outcome r r'
    /\ forall t', r' = Ok t' -> t' = plain_text (with_attachments l m).
Proof. exact packing_blind. Qed.
Print Assumptions C105_packing_blind.
(** ... and is received with the same metadata. *)
Theorem C105_reading_blind : forall C dir own own' m l tr text text' fuel fuel' o o' tr1 tr2 x x',
  message_fits C m -> opt (Forall (attachment_fits C)) l ->
  exec (pack_plaintext C m) tr (Ok text) -> exec (pack_plaintext C (with_attachments l m)) tr (Ok text') -> Forall (answers dir own) tr ->
  exec (unpack C (S fuel) text o) tr1 x -> Forall (answers dir own') tr1 ->
  exec (unpack C (S fuel') text' o') tr2 x' -> Forall (answers dir own') tr2 ->
  exists md, x = Some (Ok (m, md)) /\ x' = Some (Ok (with_attachments l m, md)).
Proof. exact reading_blind. Qed.
Print Assumptions C105_reading_blind.
(** C105, for attachments of signed messages (missing: all others): whatever is said of
    the attachments of the messages that the key signed holds of those received. *)
Theorem C105_signed_partial : forall C fuel text o tr m md kid (good : option (list attachment) -> Prop) (priors : from_prior -> Prop),
  (forall p, priors p -> prior_fits p) ->
  exec (unpack C fuel text o) tr (Some (Ok (m, md))) -> um_sign_from md = Some kid ->
  only_signed C tr kid (fun m' => message_fits C m' /\ good (msg_attachments m')) priors -> good (msg_attachments m).
Proof.
  intros C fuel text o tr m md kid good priors PF R S OS.
  exact (proj2 (C09_messages_honest C fuel text o tr m md kid (fun m' => message_fits C m' /\ good (msg_attachments m')) priors (fun m' H => proj1 H) PF R S OS)).
Qed.
Print Assumptions C105_signed_partial.

Example C105_case : message_fits toy rich_msg /\ opt (Forall (attachment_fits toy)) (msg_attachments claimed_msg)
  /\ msg_attachments rich_msg <> msg_attachments claimed_msg
  /\ (exists tr text text', by_alice (pack_plaintext toy rich_msg) tr (Ok text)
      /\ by_alice (pack_plaintext toy (with_attachments (msg_attachments claimed_msg) rich_msg)) tr (Ok text') /\ text <> text')
  /\ (forall tr, only_signed careful tr (B "did:ex:alice#e") (fun m => m = rich_msg) (fun p => p = toy_prior))
  /\ exists md, run (toy_env toy_docs sec_bob) (unpack careful 9 rich_signed default_unpack_options) = Some (Ok (rich_msg, md))
      /\ um_sign_from md = Some (B "did:ex:alice#e").
Proof.
  split; [exact rich_fits|]. split; [intros l E; injection E as <-; repeat constructor; try reflexivity; some_none|]. split; [discriminate|].
  split.
  { exists [], (message_text rich_msg), (message_text (with_attachments (msg_attachments claimed_msg) rich_msg)).
    split; [split; [split; vm_compute; reflexivity|constructor]|]. split; [split; [split; vm_compute; reflexivity|constructor]|]. vm_compute. discriminate. }
  split; [intros tr; exact (proj1 (C09_case tr))|]. eexists. split; vm_compute; reflexivity.
Qed.
