(** C56: envelopes, rotation tokens and messages are read by the names of their members,
    in whatever order these stand. *)
From Verif.Model Require Import Prelude Utf8 Base64 Json Serde DidDoc Crypto Keys Effects Jws Jwe Message FromPrior Pack Routing Unpack.
From Verif.Spec Require Import Codec Small Events Toy Names World Wire.
From Verif.Proofs Require Import Lib JsonP JsonDec WireP ReadP ReadM WireU.

(** C56.  Which JSON is an encrypted envelope, and with which parts. *)
Theorem C56_encrypted_read : forall fp d v j, json_tree fp d v -> (jwe_from_str (print v) = Ok j <-> jwe_read v j).
Proof. intros fp d v j T. exact (read_as fp d de_jwe jwe_read v j (reads_jwe fp d) T). Qed.
Print Assumptions C56_encrypted_read.

(** C56.  Which JSON is a signed envelope. *)
Theorem C56_signed_read : forall fp d v j, json_tree fp d v -> (jws_from_str (print v) = Ok j <-> jws_read v j).
Proof. intros fp d v j T. exact (read_as fp d de_jws jws_read v j (reads_jws fp d) T). Qed.
Print Assumptions C56_signed_read.

(** C56.  The protected headers of envelopes, with the registered algorithm names. *)
Theorem C56_encrypted_header_read : forall C v h, json_tree (fparse C) 127 v ->
  (from_json (de_jwe_header C) (print v) = Ok h <-> jwe_header_read v h).
Proof. intros C v h T. apply (read_as (fparse C) 127); auto. apply reads_jwe_header; auto. Qed.
Print Assumptions C56_encrypted_header_read.
Theorem C56_signed_header_read : forall fp d v h, json_tree fp d v ->
  (from_json de_jws_header (print v) = Ok h <-> jws_header_read v h).
Proof. intros fp d v h T. apply (read_as fp d); auto. apply reads_jws_header. Qed.
Print Assumptions C56_signed_header_read.

(** C56.  The header and the claims of a rotation token. *)
Theorem C56_token_read : forall C d v, json_tree (fparse C) (S d) v ->
  (forall h, from_json de_compact_header (print v) = Ok h <-> token_header_read v h)
  /\ (forall p, from_json (de_from_prior C) (print v) = Ok p <-> prior_read v p).
Proof.
  intros C d v T. split; intros a; apply (read_as (fparse C) (S d)); auto; [apply reads_token_header|now apply reads_prior].
Qed.
Print Assumptions C56_token_read.

(** C56.  Which JSON is a message; the order of the custom headers in the hash map is
    left open. *)
Theorem C56_message_read : forall fp v m, json_tree fp 127 v ->
  (message_from_str fp (print v) = Ok m -> message_read v m)
  /\ (message_read v m -> exists m', message_from_str fp (print v) = Ok m' /\ same_message m m').
Proof.
  intros fp v m T. unfold message_from_str. rewrite from_json_print by (eapply wfv_printable, wf_of; eauto).
  split; [now apply message_sound|now apply message_complete].
Qed.
Print Assumptions C56_message_read.

(** C56.  Unpacking a message that is written in any such way gives that message. *)
Theorem C56_plaintext_spelling : forall C d v m fuel o tr x, json_tree (fparse C) d v -> d <= 127 -> message_read v m ->
  msg_typ m = B "application/didcomm-plain+json" -> msg_from_prior m = None ->
  (forall j, ~ jwe_read v j) -> (forall j, ~ jws_read v j) ->
  exec (unpack C (S fuel) (print v) o) tr x ->
  tr = [] /\ exists m', same_message m m' /\ x = Some (Ok (m', metadata None None None None)).
Proof. exact spelled_plain. Qed.
Print Assumptions C56_plaintext_spelling.

(** C56.  Encrypted envelopes that are read alike are unpacked alike: same requests to
    the resolvers, same result. *)
Theorem C56_encrypted_spelling : forall C d v v' j b h o fuel tr x,
  json_tree (fparse C) d v -> json_tree (fparse C) d v' -> jwe_read v j -> jwe_read v' j ->
  b64dec (jwe_protected j) = Some b -> from_json (de_jwe_header C) b = Ok h ->
  ph_alg h = EcdhEsA256kw \/ ph_alg h = Ecdh1puA256kw ->
  exec (unpack C fuel (print v) o) tr x <-> exec (unpack C fuel (print v') o) tr x.
Proof.
  intros C d v v' j b h o fuel tr x T T' J J' H1 H2 A.
  apply (C56_encrypted_read _ _ _ _ T) in J. apply (C56_encrypted_read _ _ _ _ T') in J'.
  split; intros H.
  - exact (same_jwe_unpack C _ _ j b h o J J' H1 H2 A _ _ _ H).
  - exact (same_jwe_unpack C _ _ j b h o J' J H1 H2 A _ _ _ H).
Qed.
Print Assumptions C56_encrypted_spelling.

(** C56.  JSON that is none of the three is Malformed. *)
Theorem C56_otherwise_malformed : forall C d v fuel o tr x, json_tree (fparse C) d v -> d <= 127 ->
  (forall j, ~ jwe_read v j) -> (forall j, ~ jws_read v j) -> (forall m, ~ message_read v m) ->
  exec (unpack C (S fuel) (print v) o) tr x -> tr = [] /\ x = Some (Err Malformed).
Proof. exact unread_rejected. Qed.
Print Assumptions C56_otherwise_malformed.

(** An envelope for Bob with its members turned round and one more member, and a message
    in a different order with a repeated custom header. *)
Definition auth_jwe : jwe := match jwe_from_str (toy_pack (Some (B "did:ex:alice")) None false false) with Ok j => j | _ => mkJwe [] [] [] [] [] end.
Definition turned (j : jwe) : value :=
  VObj [(B "tag", VStr (jwe_tag j)); (B "note", VArr [VNull; VNull]); (B "ciphertext", VStr (jwe_ciphertext j)); (B "iv", VStr (jwe_iv j));
        (B "recipients", VArr (map (fun r => VObj [(B "encrypted_key", VStr (rc_key r)); (B "header", VArr [VStr (rc_kid r)])]) (jwe_recipients j)));
        (B "protected", VStr (jwe_protected j))].
Definition turned_message : value :=
  VObj [(B "body", VObj [(B "b", VNum (PosInt 2)); (B "a", VNull); (B "b", VBool true)]); (B "x", VStr (B "old"));
        (B "type", VStr (B "t")); (B "x", VStr (B "new")); (B "id", VStr (B "1")); (B "thid", VNull)].
Example C56_case :
  json_tree (fparse toy) 127 (turned auth_jwe) /\ jwe_read (turned auth_jwe) auth_jwe
  /\ toy_unpack sec_bob (print (turned auth_jwe)) default_unpack_options
     = toy_unpack sec_bob (toy_pack (Some (B "did:ex:alice")) None false false) default_unpack_options
  /\ ok_part fst (toy_unpack sec_bob (print (turned auth_jwe)) default_unpack_options) = Some toy_msg
  /\ json_tree (fparse toy) 127 turned_message
  /\ message_read turned_message (mb_header (B "x") (VStr (B "new")) (mb_new (B "1") (B "t") (VObj [(B "a", VNull); (B "b", VBool true)])))
  /\ (forall j, ~ jwe_read turned_message j) /\ (forall j, ~ jws_read turned_message j).
Proof.
  assert (T1 : json_tree (fparse toy) 127 (turned auth_jwe)) by (apply treeb_ok; vm_compute; reflexivity).
  assert (T2 : json_tree (fparse toy) 127 turned_message) by (apply treeb_ok; vm_compute; reflexivity).
  split; [exact T1|]. split; [apply (C56_encrypted_read _ _ _ _ T1); vm_compute; reflexivity|].
  split; [vm_compute; reflexivity|]. split; [vm_compute; reflexivity|]. split; [exact T2|].
  split; [apply (C56_message_read _ _ _ T2); vm_compute; reflexivity|].
  split; intros j J; [apply (C56_encrypted_read _ _ _ _ T2) in J|apply (C56_signed_read _ _ _ _ T2) in J]; vm_compute in J; discriminate.
Qed.
