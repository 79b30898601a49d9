(** Header names and key ids that survive packing, and those that do not. *)
From Verif.Model Require Import Prelude Utf8 Base64 Json Serde DidDoc Crypto Keys Effects Jws Jwe Message FromPrior Pack Routing Unpack.
From Verif.Spec Require Import Codec Small Events Toy World Packing Names.
From Verif.Proofs Require Import Lib RoundP ToyP NamesP.
From Verif.Props Require Import RoundTrip.

(** C36.  "A message that packs can be unpacked, whatever its header names": false. *)
Theorem C36_header_names_refuted : exists C m k v text tr tr' md,
  message_fits C m /\ json_value (fparse C) 126 v /\ text_ok k
  /\ exec (pack_plaintext C (mb_header k v m)) tr (Ok text)
  /\ exec (unpack C 1 (message_text m) default_unpack_options) tr' (Some (Ok (m, md)))
  /\ exec (unpack C 1 text default_unpack_options) tr' (Some (Err Malformed)).
Proof.
  exists toy, rich_msg, (B "id"), (VStr (B "2")), (message_text (mb_header (B "id") (VStr (B "2")) rich_msg)), [], [].
  eexists. split; [exact rich_fits|]. split; [constructor; reflexivity|]. split; [reflexivity|].
  split; [vm_compute; auto|]. split; [vm_compute; split; reflexivity|]. vm_compute; auto.
Qed.
Print Assumptions C36_header_names_refuted.
(** A header may also come back as something else: [from] was not set, the custom
    header of that name is read as the sender. *)
Theorem C36_header_becomes_sender_refuted : exists C m text tr tr' m' md,
  msg_from m = None /\ exec (pack_plaintext C m) tr (Ok text)
  /\ exec (unpack C 1 text default_unpack_options) tr' (Some (Ok (m', md)))
  /\ msg_from m' = Some (B "did:ex:mallory").
Proof.
  exists toy, (mb_header (B "from") (VStr (B "did:ex:mallory")) (mb_new (B "1") (B "t") (VObj []))),
    (message_text (mb_header (B "from") (VStr (B "did:ex:mallory")) (mb_new (B "1") (B "t") (VObj [])))), [], [].
  eexists _, _. split; [reflexivity|]. split; [vm_compute; auto|]. split; [vm_compute; split; reflexivity|reflexivity].
Qed.
Print Assumptions C36_header_becomes_sender_refuted.
(** Every name of a standard header that the message has makes the text unreadable. *)
Theorem C36_taken_name : forall C m k v tr text fuel o tr' x,
  message_fits C m -> json_value (fparse C) 126 v -> taken m k ->
  exec (pack_plaintext C (mb_header k v m)) tr (Ok text) -> exec (unpack C (S fuel) text o) tr' x ->
  tr' = [] /\ x = Some (Err Malformed).
Proof. exact taken_name. Qed.
Print Assumptions C36_taken_name.
(** Names that are neither standard nor parts of an envelope are fine.  Missing: names
    of envelope parts, as long as the message does not have all of them. *)
Theorem C36_free_name_partial : forall C dir own own' m k v tr text fuel o tr' x,
  message_fits C m -> json_value (fparse C) 126 v -> text_ok k -> ~ In k standard_headers -> ~ In k jwe_names -> ~ In k jws_names ->
  exec (pack_plaintext C (mb_header k v m)) tr (Ok text) -> Forall (answers dir own) tr ->
  exec (unpack C (S fuel) text o) tr' x -> Forall (answers dir own') tr' ->
  exists prior, x = Some (Ok (mb_header k v m, metadata None None None prior)).
Proof.
  intros C d own own' m k v tr text fuel o tr' x F V U N1 N2 N3 P A X A'.
  destruct (plaintext_round C d own own' (mb_header k v m) tr text fuel o tr' x) as (prior & _ & E); eauto using header_fits.
Qed.
Print Assumptions C36_free_name_partial.
Example C36_case : message_fits toy rich_msg /\ taken rich_msg (B "created_time") /\ ~ taken rich_msg (B "expires_time")
  /\ run (toy_env [] []) (unpack toy 1 (message_text (mb_header (B "created_time") (VStr []) rich_msg)) default_unpack_options) = Some (Err Malformed)
  /\ ok_part (fun x => msg_extra (fst x)) (run (toy_env [] []) (unpack toy 1 (message_text (mb_header (B "x") VNull rich_msg)) default_unpack_options))
     = Some [(B "lang", VStr (B "en")); (B "x", VNull)].
Proof.
  split; [exact rich_fits|]. split; [unfold taken; right; right; right; right; right; right; right; right; left; split; [reflexivity|discriminate]|].
  split. { unfold taken. intros H. repeat destruct H as [H|H]; try discriminate H; try (destruct H as [H N]; try discriminate H; now apply N). }
  split; vm_compute; reflexivity.
Qed.

(** C37.  "A message packed for any key id can be read by the holder of that key":
    false for ids that JSON writes with escapes. *)
Definition doc_quote : diddoc :=
  mkDoc (B "did:ex:q") [B "did:ex:q#a""b"] [] [vm_jwk "did:ex:q#a""b" KX25519 "q"] [].
Definition env_quote : handler := toy_env [doc_quote] [sec_jwk "did:ex:q#a""b" KX25519 "q"].
Definition quote_msg : message := mb_new (B "1") (B "t") (VObj []).
Definition quote_opts : pack_options := mkPO false false None None AuthA256cbcHs512 AnonXc20p.
Definition quote_pack : res (bytes * pack_metadata) := Eval vm_compute in
  run env_quote (pack_encrypted toy quote_msg (B "did:ex:q") None None quote_opts).
Definition quote_text : bytes := Eval vm_compute in text_of quote_pack.
Theorem C37_key_ids_refuted : exists C env m to po text pm kid sec,
  run env (pack_encrypted C m to None None po) = Ok (text, pm)
  /\ pm_to_kids pm = [kid] /\ pm_service pm = None /\ env (OGetSecret kid) = Ok (Some sec) /\ message_fits C m
  /\ run env (unpack C 1 text default_unpack_options) = Some (Err Malformed).
Proof.
  exists toy, env_quote, quote_msg, (B "did:ex:q"), quote_opts, quote_text, (mkPM None None None [B "did:ex:q#a""b"]), (B "did:ex:q#a""b"), (sec_jwk "did:ex:q#a""b" KX25519 "q").
  split; [vm_compute; reflexivity|]. split; [reflexivity|]. split; [reflexivity|]. split; [vm_compute; reflexivity|]. split; [|vm_compute; reflexivity].
  repeat split; try reflexivity; try some_none; try (cbn; tauto).
  - constructor; [constructor|intros ? ? []].
  - constructor.
  - destruct H.
  - destruct H.
  - intros I. exact (I (B "tag") ltac:(cbn; auto 10)).
  - intros I. exact (I (B "payload") ltac:(cbn; auto 10)).
Qed.
Print Assumptions C37_key_ids_refuted.
(** Such an id among the recipients makes the text unreadable for everybody, nobody
    being asked. *)
Theorem C37_escaped_recipient : forall C m to from sign_by po tr text pm kid fuel o tr' x,
  exec (pack_encrypted C m to from sign_by po) tr (Ok (text, pm)) -> pm_service pm = None ->
  Forall text_ok (pm_to_kids pm) -> In kid (pm_to_kids pm) -> escaped kid ->
  exec (unpack C (S fuel) text o) tr' x -> tr' = [] /\ x = Some (Err Malformed).
Proof. exact escaped_recipient. Qed.
Print Assumptions C37_escaped_recipient.
Theorem C37_escaped_sender : forall C pair m to from sign_by po tr text pm kid fuel o tr' x, lawful C pair ->
  exec (pack_encrypted C m to (Some from) sign_by po) tr (Ok (text, pm)) -> pm_service pm = None -> po_protect_sender po = false ->
  Forall text_ok (pm_to_kids pm) -> pm_from_kid pm = Some kid -> text_ok kid -> escaped kid ->
  exec (unpack C (S fuel) text o) tr' x -> tr' = [] /\ x = Some (Err Malformed).
Proof. exact escaped_sender. Qed.
Print Assumptions C37_escaped_sender.
Theorem C37_escaped_signer : forall C m by_ tr text kid fuel o tr' x,
  exec (pack_signed C m by_) tr (Ok (text, kid)) -> text_ok kid -> escaped kid ->
  exec (unpack C (S fuel) text o) tr' x -> tr' = [] /\ x = Some (Err Malformed).
Proof. exact escaped_signer. Qed.
Print Assumptions C37_escaped_signer.
(** With ids that need no escapes the holder of any recipient key reads the message,
    whatever else the documents list.  Missing: recipient keys of several DIDs, and
    sender and signing keys that the DID in their id does not list (see C94). *)
Theorem C37_plain_ids_partial : forall C pair dir own own' m to from sign_by po tr text pm fuel o tr' x,
  lawful C pair -> secrets_match C pair dir own -> secrets_match C pair dir own' -> message_fits C m ->
  exec (pack_encrypted C m to from sign_by po) tr (Ok (text, pm)) -> Forall (answers dir own) tr -> pm_service pm = None ->
  together (pm_to_kids pm) -> (forall k, pm_from_kid pm = Some k -> known dir doc_key_agreement k) ->
  (forall k, pm_sign_by_kid pm = Some k -> known dir doc_authentication k) ->
  holds_one own' (pm_to_kids pm) -> msg_type m <> B "https://didcomm.org/routing/2.0/forward" ->
  exec (unpack C (S fuel) text o) tr' x -> Forall (answers dir own') tr' ->
  exists md, x = Some (Ok (m, md)).
Proof.
  intros C pair d own own' m to from sign_by po tr text pm fuel o tr' x L S S' F P A NS TO KF KS H T X A'. destruct from as [f|].
  - destruct (auth_round_known C pair L d own own' m to f sign_by po tr text pm fuel o tr' x) as (? & ? & ? & _ & _ & _ & _ & E); eauto.
  - destruct (anon_round_known C pair L d own own' m to sign_by po tr text pm fuel o tr' x) as (? & ? & _ & _ & _ & _ & E); eauto.
    intros _ _ E. contradiction.
Qed.
Print Assumptions C37_plain_ids_partial.
Example C37_case : escaped (B "did:ex:q#a""b") /\ ~ escaped (B "did:ex:bob#x1")
  /\ (exists tr pm, exec (pack_encrypted toy quote_msg (B "did:ex:q") None None quote_opts) tr (Ok (quote_text, pm)) /\ In (B "did:ex:q#a""b") (pm_to_kids pm)).
Proof.
  split; [exists """"%char; cbn; tauto|]. split.
  - intros E. apply escaped_plain in E. discriminate E.
  - exists (Lib.trace env_quote (pack_encrypted toy quote_msg (B "did:ex:q") None None quote_opts)), (mkPM None None None [B "did:ex:q#a""b"]). split; [|left; reflexivity].
    assert (E : run env_quote (pack_encrypted toy quote_msg (B "did:ex:q") None None quote_opts) = Ok (quote_text, mkPM None None None [B "did:ex:q#a""b"])) by (vm_compute; reflexivity).
    rewrite <- E. apply Lib.run_exec.
Qed.
