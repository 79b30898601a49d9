(** Documents, secrets and the JavaScript layer. *)
From Verif.Model Require Import Prelude Utf8 Base64 Json Serde DidDoc Crypto Keys Effects Jws Jwe Message FromPrior Pack Routing Unpack Bindings DocJson.
From Verif.Spec Require Import Codec Small Names Toy World Text Sane Wire Doc.
From Verif.Proofs Require Import Lib Errs SealP TextP SaneP WireP ReadP WireU DocP DocE.
From Verif.Props Require Import Sane Wire.

(** C62.  A DID document is read from its members by name, in any order; anything else
    is an error. *)
Theorem C62_document_read : forall fp v d, json_tree fp 127 v -> (doc_from_str fp (print v) = Ok d <-> doc_read v d).
Proof. intros fp v d. exact (read_as fp 127 (de_doc fp) doc_read v d (reads_doc fp)). Qed.
Print Assumptions C62_document_read.
(** So is a secret. *)
Theorem C62_secret_read : forall fp v s, json_tree fp 127 v -> (secret_from_str fp (print v) = Ok s <-> secret_read v s).
Proof. intros fp v s. exact (read_as fp 127 (de_secret fp) secret_read v s (reads_secret fp 126 ltac:(lia))). Qed.
Print Assumptions C62_secret_read.
(** The answer of a JavaScript DID resolver: null means that there is no such document,
    a document is taken as read above, and everything else is a DIDCommInvalidState. *)
Theorem C62_resolver_answer : forall fp v, json_tree fp 127 v ->
  (v = VNull /\ js_resolve fp (inr (print v)) = Ok None)
  \/ (exists d, doc_read v d /\ js_resolve fp (inr (print v)) = Ok (Some d))
  \/ (v <> VNull /\ (forall d, ~ doc_read v d) /\ js_resolve fp (inr (print v)) = Err InvalidState).
Proof. exact resolve_answer. Qed.
Print Assumptions C62_resolver_answer.
Theorem C62_secret_answer : forall fp v, json_tree fp 127 v ->
  (v = VNull /\ js_get_secret fp (inr (print v)) = Ok None)
  \/ (exists s, secret_read v s /\ js_get_secret fp (inr (print v)) = Ok (Some s))
  \/ (v <> VNull /\ (forall s, ~ secret_read v s) /\ js_get_secret fp (inr (print v)) = Err InvalidState).
Proof. exact secret_answer. Qed.
Print Assumptions C62_secret_answer.
(** The objects given to [new Message] and [new FromPrior]: what is read as a message or a
    rotation is taken, everything else, JSON or not, is a DIDCommMalformed. *)
Theorem C62_message_object : forall fp s,
  (exists m, js_message_new fp s = Ok m /\ forall v, json_tree fp 127 v -> s = print v -> message_read v m)
  \/ (js_message_new fp s = Err Malformed /\ forall v m, json_tree fp 127 v -> s = print v -> ~ message_read v m).
Proof.
  intros fp s. unfold js_message_new.
  assert (X : forall v m, json_tree fp 127 v -> s = print v ->
    (message_from_str fp s = Ok m -> message_read v m) /\ (message_read v m -> exists m', message_from_str fp s = Ok m')).
  { intros v m T ->. destruct (C56_message_read fp v m T) as [H1 H2]. split; auto. intros R. destruct (H2 R) as (m' & E & _). eauto. }
  destruct (message_from_str fp s) as [m|k|] eqn:E; cbn [kind].
  - left. exists m. split; auto. intros v T S. now apply (X v m T S).
  - right. split; auto. intros v m T S R. apply (X v m T S) in R as (m' & R). discriminate.
  - exfalso. pose proof (msg_str_errs fp s) as N. rewrite E in N. exact N.
Qed.
Print Assumptions C62_message_object.
Theorem C62_rotation_object : forall C s,
  (exists p, js_from_prior_new C s = Ok p /\ forall v, json_tree (fparse C) 127 v -> s = print v -> prior_read v p)
  \/ (js_from_prior_new C s = Err Malformed /\ forall v p, json_tree (fparse C) 127 v -> s = print v -> ~ prior_read v p).
Proof.
  intros C s. unfold js_from_prior_new.
  assert (X : forall v p, json_tree (fparse C) 127 v -> s = print v -> from_json (de_from_prior C) s = Ok p <-> prior_read v p).
  { intros v p T ->. apply (C56_token_read C 126 v T). }
  destruct (from_json (de_from_prior C) s) as [p|k|] eqn:E; cbn [kind].
  - left. exists p. split; auto. intros v T S. now apply (X v p T S).
  - right. split; auto. intros v p T S R. apply (X v p T S) in R. discriminate.
  - exfalso. pose proof (from_prior_errs C s) as N. rewrite E in N. exact N.
Qed.
Print Assumptions C62_rotation_object.
Example C62_object_case : (exists m, js_message_new (fparse toy) (message_text toy_msg) = Ok m) /\ js_message_new (fparse toy) (B "{}") = Err Malformed
  /\ js_message_new (fparse toy) (B "{") = Err Malformed
  /\ js_from_prior_new toy (B "{""iss"": ""did:ex:a"", ""sub"": ""did:ex:b""}") = Ok (fpb_new (B "did:ex:a") (B "did:ex:b"))
  /\ js_from_prior_new toy (B "[1]") = Err Malformed.
Proof. split; [eexists; vm_compute; reflexivity|]. repeat split; vm_compute; reflexivity. Qed.

(** A document with its members in another order, an unknown member, a null where it may
    be left out, and a key with two encodings, of which the JWK counts. *)
Definition odd_doc : value :=
  VObj [(B "service", VArr [VObj [(B "serviceEndpoint", VObj [(B "routingKeys", VArr [VStr (B "did:ex:med2#x")]); (B "accept", VNull); (B "uri", VStr (B "http://b"))]);
           (B "id", VStr (B "did:ex:bob#svc")); (B "type", VStr (B "DIDCommMessaging"))]]);
        (B "@context", VArr [VStr (B "https://www.w3.org/ns/did/v1")]);
        (B "verificationMethod", VArr [VObj [(B "publicKeyMultibase", VStr (B "z6LS")); (B "publicKeyJwk", VObj [(B "x", VStr (B "1")); (B "crv", VStr (B "X25519"))]);
           (B "controller", VStr (B "c")); (B "type", VStr (B "JsonWebKey2020")); (B "id", VStr (B "did:ex:bob#x1"))]]);
        (B "authentication", VArr []); (B "keyAgreement", VArr [VStr (B "did:ex:bob#x1")]); (B "id", VStr (B "did:ex:bob"))].
Definition odd_read : diddoc :=
  mkDoc (B "did:ex:bob") [B "did:ex:bob#x1"] []
    [mkVM (B "did:ex:bob#x1") JsonWebKey2020 (B "c") (MJwk (VObj [(B "crv", VStr (B "X25519")); (B "x", VStr (B "1"))]))]
    [mkService (B "did:ex:bob#svc") (DIDCommMessaging (mkMS (B "http://b") None [B "did:ex:med2#x"]))].
Example C62_case : json_tree (fparse toy) 127 odd_doc /\ doc_read odd_doc odd_read
  /\ js_resolve (fparse toy) (inr (print odd_doc)) = Ok (Some odd_read)
  /\ js_resolve (fparse toy) (inr (B "null")) = Ok None
  /\ js_resolve (fparse toy) (inr (B "{}")) = Err InvalidState
  /\ js_resolve (fparse toy) (inl (JsErr (B "DIDCommDIDNotResolved"))) = Err DIDNotResolved.
Proof.
  assert (T : json_tree (fparse toy) 127 odd_doc) by (apply treeb_ok; vm_compute; reflexivity).
  split; [exact T|]. split; [apply (C62_document_read _ _ _ T); vm_compute; reflexivity|]. repeat split; vm_compute; reflexivity.
Qed.

(** C63.  What is written is read back as it was: a document, *)
Theorem C63_document_roundtrip : forall fp d, doc_ok fp d -> exists t, doc_text d = Ok t /\ doc_from_str fp t = Ok d.
Proof. exact doc_reread. Qed.
Print Assumptions C63_document_roundtrip.
(** a secret, *)
Theorem C63_secret_roundtrip : forall fp s, secret_ok fp s -> secret_from_str fp (secret_text s) = Ok s.
Proof. exact secret_reread. Qed.
Print Assumptions C63_secret_roundtrip.
(** a message handed to JavaScript and back, *)
Theorem C63_message_value : forall C m, message_sane C m -> js_message_new (fparse C) (js_message_value m) = Ok m.
Proof. intros C m S. unfold js_message_new, js_message_value. rewrite message_written, (sane_reread C m S). reflexivity. Qed.
Print Assumptions C63_message_value.
(** and a rotation. *)
Theorem C63_prior_value : forall C p, prior_fits p -> js_from_prior_new C (js_from_prior_value p) = Ok p.
Proof. exact prior_reread. Qed.
Print Assumptions C63_prior_value.
Lemma strs_utf8 l : forallb utf8 l = true -> all_utf8 l.
Proof. rewrite forallb_forall. auto. Qed.
Example C63_case : doc_ok (fparse toy) odd_read /\ secret_ok (fparse toy) (sec_jwk "did:ex:bob#x1" KX25519 "bx1") /\ prior_fits toy_prior /\ message_sane toy toy_msg.
Proof.
  split; [|split; [|split]].
  - split; [reflexivity|]. split; [now apply strs_utf8|]. split; [now apply strs_utf8|]. split.
    + intros m [<-|[]]. split; [reflexivity|]. split; [reflexivity|]. split; [apply treeb_ok; vm_compute; reflexivity|]. apply value_read_norm. vm_compute. reflexivity.
    + intros s [<-|[]]. split; [reflexivity|]. split; [reflexivity|]. split; [discriminate|now apply strs_utf8].
  - split; [reflexivity|]. split; [apply treeb_ok; vm_compute; reflexivity|]. apply value_read_norm. vm_compute. reflexivity.
  - repeat split; try discriminate; now intros ? [=].
  - apply (C58_read toy (message_text toy_msg)); [exact (proj1 C58_case)|vm_compute; reflexivity].
Qed.

(** C64.  A service of a type that the library does not know, in an otherwise usable
    document, makes the whole document unusable (as does a key of an unknown type). *)
Definition with_service (s : value) : value :=
  match odd_doc with VObj l => VObj (map (fun kv => if beq (fst kv) (B "service") then (B "service", VArr [s]) else kv) l) | v => v end.
Definition with_key (k : value) : value :=
  match odd_doc with VObj l => VObj (map (fun kv => if beq (fst kv) (B "verificationMethod") then (B "verificationMethod", VArr [k]) else kv) l) | v => v end.
Definition linked_domains : value :=
  VObj [(B "id", VStr (B "did:ex:bob#ld")); (B "type", VStr (B "LinkedDomains")); (B "serviceEndpoint", VObj [(B "origins", VArr [VStr (B "https://bob.example")])])].
Definition bls_key : value :=
  VObj [(B "id", VStr (B "did:ex:bob#bls")); (B "type", VStr (B "Bls12381G2Key2020")); (B "controller", VStr (B "c")); (B "publicKeyBase58", VStr (B "25EE"))].
Theorem C64_unknown_types_refuted : exists fp v1 v2 v,
  js_resolve fp (inr (print v)) = Ok (Some odd_read)
  /\ v1 = with_service linked_domains /\ js_resolve fp (inr (print v1)) = Err InvalidState
  /\ v2 = with_key bls_key /\ js_resolve fp (inr (print v2)) = Err InvalidState.
Proof. exists (fparse toy), (with_service linked_domains), (with_key bls_key), odd_doc. repeat split; vm_compute; reflexivity. Qed.
Print Assumptions C64_unknown_types_refuted.
(** C64.  Missing: unknown types of keys and services.  Members with unknown names, with
    any value, change nothing. *)
Theorem C64_unknown_members_partial : forall fp l1 l2 k w,
  ~ In k (map B ["id"; "keyAgreement"; "authentication"; "verificationMethod"; "service"]%string) ->
  json_tree fp 127 (VObj (l1 ++ (k, w) :: l2)) -> json_tree fp 127 (VObj (l1 ++ l2)) ->
  js_resolve fp (inr (print (VObj (l1 ++ (k, w) :: l2)))) = js_resolve fp (inr (print (VObj (l1 ++ l2)))).
Proof. exact resolve_skip. Qed.
Print Assumptions C64_unknown_members_partial.
Theorem C64_unknown_secret_members_partial : forall fp l1 l2 k w,
  ~ In k (map B ["id"; "type"; "privateKeyJwk"; "privateKeyMultibase"; "privateKeyBase58"]%string) ->
  json_tree fp 127 (VObj (l1 ++ (k, w) :: l2)) -> json_tree fp 127 (VObj (l1 ++ l2)) ->
  js_get_secret fp (inr (print (VObj (l1 ++ (k, w) :: l2)))) = js_get_secret fp (inr (print (VObj (l1 ++ l2)))).
Proof. exact secret_answer_skip. Qed.
Print Assumptions C64_unknown_secret_members_partial.
Example C64_case : exists l1 l2, odd_doc = VObj (l1 ++ (B "@context", VArr [VStr (B "https://www.w3.org/ns/did/v1")]) :: l2)
  /\ json_tree (fparse toy) 127 (VObj (l1 ++ l2)) /\ js_resolve (fparse toy) (inr (print (VObj (l1 ++ l2)))) = Ok (Some odd_read).
Proof.
  match eval cbv [odd_doc] in odd_doc with VObj (?a :: _ :: ?l) => exists [a], l end.
  split; [reflexivity|]. split; [apply treeb_ok; vm_compute; reflexivity|vm_compute; reflexivity].
Qed.

(** C65.  The routing keys of a service under the name that the TypeScript declarations
    give them, routing_keys, are not seen: the document is accepted, the message is
    packed, and it is not wrapped for the mediator. *)
Definition ts_doc : value :=
  VObj [(B "id", VStr (B "did:ex:bob")); (B "keyAgreement", VArr [VStr (B "did:ex:bob#x1")]); (B "authentication", VArr []);
        (B "verificationMethod", VArr [vm_tree (vm_jwk "did:ex:bob#x1" KX25519 "bx1")]);
        (B "service", VArr [VObj [(B "id", VStr (B "did:ex:bob#svc")); (B "type", VStr (B "DIDCommMessaging"));
          (B "serviceEndpoint", VObj [(B "uri", VStr (B "http://m2")); (B "accept", VArr [VStr (B "didcomm/v2")]); (B "routing_keys", VArr [VStr (B "did:ex:med2#x")])])]])].
Definition camel_doc : value :=
  VObj [(B "id", VStr (B "did:ex:bob")); (B "keyAgreement", VArr [VStr (B "did:ex:bob#x1")]); (B "authentication", VArr []);
        (B "verificationMethod", VArr [vm_tree (vm_jwk "did:ex:bob#x1" KX25519 "bx1")]);
        (B "service", VArr [VObj [(B "id", VStr (B "did:ex:bob#svc")); (B "type", VStr (B "DIDCommMessaging"));
          (B "serviceEndpoint", VObj [(B "uri", VStr (B "http://m2")); (B "accept", VArr [VStr (B "didcomm/v2")]); (B "routingKeys", VArr [VStr (B "did:ex:med2#x")])])]])].
Definition pack_to (d : res (option diddoc)) : res (bytes * pack_metadata) :=
  match d with
  | Ok (Some d) => run (toy_env [d; doc_med2] []) (pack_encrypted toy toy_msg (B "did:ex:bob") None None default_pack_options)
  | _ => Err InvalidState
  end.
Theorem C65_declared_spelling_refuted : exists fp v w m text pm,
  v = ts_doc /\ js_resolve fp (inr (print v)) = Ok (Some w)
  /\ doc_service w = [mkService (B "did:ex:bob#svc") (DIDCommMessaging m)] /\ ms_uri m = B "http://m2" /\ ms_routing_keys m = []
  /\ run (toy_env [w; doc_med2] []) (pack_encrypted toy toy_msg (B "did:ex:bob") None None default_pack_options) = Ok (text, pm)
  /\ pm_service pm = None.
Proof.
  exists (fparse toy), ts_doc.
  destruct (js_resolve (fparse toy) (inr (print ts_doc))) as [[w|]| |] eqn:E; vm_compute in E; try discriminate.
  apply Ok_inj in E. injection E as E.
  destruct (pack_to (js_resolve (fparse toy) (inr (print ts_doc)))) as [[text pm]| |] eqn:P; [|vm_compute in P; discriminate..].
  exists w, (mkMS (B "http://m2") (Some [B "didcomm/v2"]) []), text, pm.
  split; [reflexivity|]. split; [reflexivity|]. rewrite <- E. split; [reflexivity|]. split; [reflexivity|]. split; [reflexivity|].
  split; [vm_compute; vm_compute in P; exact P|]. vm_compute in P. apply Ok_inj in P. injection P as _ <-. reflexivity.
Qed.
Print Assumptions C65_declared_spelling_refuted.
(** C65.  Missing: that spelling.  Keys given as routingKeys are seen. *)
Theorem C65_camel_spelling_partial : forall fp v d i w s e m ks, json_tree fp 127 v ->
  js_resolve fp (inr (print v)) = Ok (Some d) ->
  (exists l, present 5 v 4 "service" (VArr l) /\ nth_error l i = Some w) -> nth_error (doc_service d) i = Some s ->
  present 0 w 0 "serviceEndpoint" e -> present 0 e 0 "routingKeys" (VArr (map VStr ks)) ->
  svc_kind s = DIDCommMessaging m -> ms_routing_keys m = ks.
Proof.
  intros fp v d i w s e m ks T R (l & P & NL) ND P1 P2 K.
  assert (D : doc_read v d). { destruct (resolve_answer fp v T) as [[_ E]|[(d' & D & E)|(_ & _ & E)]]; rewrite R in E; try discriminate. apply Ok_inj in E. now injection E as <-. }
  destruct D as (_ & _ & _ & _ & x & P' & vs & -> & F).
  assert (E : VArr l = VArr vs).
  { destruct P as [(l1 & -> & O)|(l1 & -> & L & O)], P' as [(l2 & E & O')|(l2 & E & L' & O')]; try discriminate; injection E as <-; [eapply one_fun; eauto|congruence]. }
  injection E as <-. assert (X : service_read w s).
  { clear - F NL ND. revert i NL ND. induction F as [|a b l l' H F IH]; intros [|i] NL ND; try discriminate; cbn in *; [congruence|eauto]. }
  eapply routing_seen; eauto.
Qed.
Print Assumptions C65_camel_spelling_partial.
Example C65_case : json_tree (fparse toy) 127 camel_doc /\ exists d text pm, js_resolve (fparse toy) (inr (print camel_doc)) = Ok (Some d)
  /\ pack_to (Ok (Some d)) = Ok (text, pm) /\ pm_service pm = Some (mkSM (B "did:ex:bob#svc") (B "http://m2")).
Proof.
  split; [apply treeb_ok; vm_compute; reflexivity|].
  destruct (js_resolve (fparse toy) (inr (print camel_doc))) as [[w|]| |] eqn:E; try (vm_compute in E; discriminate).
  destruct (pack_to (js_resolve (fparse toy) (inr (print camel_doc)))) as [[text pm]| |] eqn:P; [|vm_compute in P; discriminate..].
  exists w, text, pm. split; [reflexivity|]. rewrite E in P. split; [exact P|]. rewrite <- E in P. vm_compute in P. apply Ok_inj in P. injection P as _ <-. reflexivity.
Qed.

(** C66.  A JavaScript caller of unpack gets the message that the library delivers and an
    object that shows all of its metadata; *)
Theorem C66_unpack_shown : forall C fuel text opts tr m js, exec (js_unpack C fuel text opts) tr (Some (Ok (m, js))) ->
  exists o md w, js_unpack_options opts = Ok o /\ exec (unpack C fuel text o) tr (Some (Ok (m, md))) /\ js = print w /\ metadata_shown w md.
Proof.
  intros C fuel text opts tr m js H. apply js_unpack_exec in H. destruct (js_unpack_options opts) as [o|k|]; [|destruct H; discriminate..].
  destruct H as ([[[m' md]|k|]|] & H & E); try discriminate. injection E as <- ->. exists o, md, (unpack_metadata_tree md). repeat split; auto using metadata_written;
  apply metadata_written.
Qed.
Print Assumptions C66_unpack_shown.
(** or the error that the library gives; with malformed options, DIDCommMalformed before
    anything is asked of a resolver. *)
Theorem C66_unpack_error : forall C fuel text opts tr k, exec (js_unpack C fuel text opts) tr (Some (Err k)) ->
  (exists o, js_unpack_options opts = Ok o /\ exec (unpack C fuel text o) tr (Some (Err k)))
  \/ (forall o, js_unpack_options opts <> Ok o) /\ tr = [] /\ k = Malformed.
Proof.
  intros C fuel text opts tr k H. apply js_unpack_exec in H. destruct (js_unpack_options opts) as [o|k'|] eqn:O.
  - left. exists o. split; auto. destruct H as ([[[m' md]|k'|]|] & H & E); try discriminate. now injection E as <-.
  - right. destruct H as [-> E]. injection E as <-. repeat split; try discriminate. unfold js_unpack_options in O. destruct (from_json de_unpack_options opts); cbn in O; try discriminate. now injection O.
  - destruct H as [_ E]. discriminate.
Qed.
Print Assumptions C66_unpack_error.
(** Likewise for pack_encrypted *)
Theorem C66_pack_shown : forall C m to from sign_by opts tr text js, exec (js_pack_encrypted C m to from sign_by opts) tr (Ok (text, js)) ->
  exists o pm w, js_pack_options (fparse C) opts = Ok o /\ exec (pack_encrypted C m to from sign_by o) tr (Ok (text, pm)) /\ js = print w /\ packing_shown w pm.
Proof.
  intros C m to from sign_by opts tr text js H. apply js_pack_exec in H. destruct (js_pack_options (fparse C) opts) as [o|k|]; [|destruct H; discriminate..].
  destruct H as ([[t md]|k|] & H & E); try discriminate. apply Ok_inj in E. injection E as <- ->. exists o, md, (pack_metadata_tree md).
  split; auto. split; auto. split; auto. apply packing_written.
Qed.
Print Assumptions C66_pack_shown.
Theorem C66_pack_error : forall C m to from sign_by opts tr k, exec (js_pack_encrypted C m to from sign_by opts) tr (Err k) ->
  (exists o, js_pack_options (fparse C) opts = Ok o /\ exec (pack_encrypted C m to from sign_by o) tr (Err k))
  \/ (forall o, js_pack_options (fparse C) opts <> Ok o) /\ tr = [] /\ k = Malformed.
Proof.
  intros C m to from sign_by opts tr k H. apply js_pack_exec in H. destruct (js_pack_options (fparse C) opts) as [o|k'|] eqn:O.
  - left. exists o. split; auto. destruct H as ([[t md]|k'|] & H & E); try discriminate. now injection E as <-.
  - right. destruct H as [-> E]. injection E as <-. repeat split; try discriminate. unfold js_pack_options in O. destruct (from_json (de_pack_options (fparse C)) opts); cbn in O; try discriminate. now injection O.
  - destruct H as [_ E]. discriminate.
Qed.
Print Assumptions C66_pack_error.
(** and pack_signed. *)
Theorem C66_signed_shown : forall C m by_ tr text js, exec (js_pack_signed C m by_) tr (Ok (text, js)) ->
  exists kid w, exec (pack_signed C m by_) tr (Ok (text, kid)) /\ js = print w /\ req str_read 0 w 0 "sign_by_kid" kid.
Proof.
  intros C m by_ tr text js H. apply js_sign_exec in H as ([[t kid]|k|] & H & E); try discriminate. apply Ok_inj in E. injection E as <- ->.
  exists kid, (VObj [(B "sign_by_kid", VStr kid)]). split; [exact H|]. split; [reflexivity|]. apply req_here; [intros []|reflexivity].
Qed.
Print Assumptions C66_signed_shown.
(** try_parse_forward gives null for anything but a forward, else its parts. *)
Theorem C66_forward_shown : forall m,
  match try_parse_forward m with
  | None => js_try_parse_forward m = B "null"
  | Some p => exists w t, js_try_parse_forward m = print w /\ req str_read 0 w 0 "next" (pf_next p)
      /\ req eq 0 w 0 "forwarded_msg" (pf_forwarded p) /\ req eq 0 w 0 "msg" t /\ print t = plain_text m
  end.
Proof.
  intros m. unfold js_try_parse_forward. destruct (try_parse_forward m) as [p|]; [|reflexivity]. cbn [opt_tree].
  exists (parsed_forward_tree m p), (message_tree m). split; [reflexivity|]. unfold parsed_forward_tree.
  assert (A : forall k l, forallb (fun kv => negb (beq (fst kv) (B k))) l = true -> none l (B k)).
  { intros k l F I. apply in_map_iff in I as (x & E & I). rewrite forallb_forall in F. apply F in I. rewrite E, beq_refl in I. discriminate. }
  split; [apply req_there; [discriminate|]; apply req_here; [now apply A|reflexivity]|].
  split; [apply req_there; [discriminate|]; apply req_there; [discriminate|]; apply req_here; [now apply A|reflexivity]|].
  split; [apply req_here; [now apply A|reflexivity]|]. exact (message_written m).
Qed.
Print Assumptions C66_forward_shown.
Definition toy_js_packed : res (bytes * bytes) :=
  run (toy_env toy_docs sec_alice) (js_pack_encrypted toy toy_msg (B "did:ex:bob") (Some (B "did:ex:alice")) None (B "{""forward"":false}")).
Example C66_case :
  match toy_js_packed with Ok (_, js) => js | _ => [] end
    = B "{""messaging_service"":null,""from_kid"":""did:ex:alice#x"",""sign_by_kid"":null,""to_kids"":[""did:ex:bob#x1"",""did:ex:bob#x2""]}"
  /\ ok_part fst (run (toy_env toy_docs sec_bob) (js_unpack toy 9 (text_of toy_js_packed) (B "{}"))) = Some toy_msg
  /\ err_part (run (toy_env toy_docs sec_bob) (js_unpack toy 9 (text_of toy_js_packed) (B "{""expect_decrypt_by_all_keys"":1}"))) = Some Malformed.
Proof. repeat split; vm_compute; reflexivity. Qed.
