(** Whole exchanges between JavaScript programs. *)
From Verif.Model Require Import Prelude Utf8 Json Serde DidDoc Crypto Keys Effects Jws Jwe Message FromPrior Pack Routing Unpack Bindings DocJson.
From Verif.Spec Require Import Codec Small Events Names Toy World Text Sane Wire Doc Js.
From Verif.Proofs Require Import Lib CodecP ToyP WireP WireU DocP DocE JsP.
From Verif.Props Require Import RoundTrip Sane Unpack Doc.

(** C83.  Two JavaScript programs whose resolvers answer from the same documents: the
    message object that one of them makes from JSON and encrypts is the one that the
    other receives, and the metadata objects on both sides agree... *)
Theorem C83_js_encrypted : forall C pair, lawful C pair -> floats_stable (fparse C) ->
  forall docs dir, describes (fparse C) doc_read docs dir -> directory dir ->
  forall secs secs' own own', describes (fparse C) secret_read secs own -> describes (fparse C) secret_read secs' own' ->
  secrets_match C pair dir own -> secrets_match C pair dir own' ->
  forall s m to from sign_by popts tr text shown uopts o fuel tr' x,
  js_message_new (fparse C) s = Ok m -> msg_typ m = B "application/didcomm-plain+json" -> no_imitation m ->
  exec (js_pack_encrypted C m to from sign_by popts) tr (Ok (text, shown)) -> Forall (js_says (fparse C) docs secs) tr ->
  (forall w pm, shown = print w -> packing_shown w pm -> pm_service pm = None /\ holds_one own' (pm_to_kids pm)) ->
  js_unpack_options uopts = Ok o -> (from = None -> sign_by = None -> kept dir own' o m) ->
  exec (js_unpack C (S fuel) text uopts) tr' x -> Forall (js_says (fparse C) docs secs') tr' ->
  exists w pm w' md, shown = print w /\ packing_shown w pm /\ x = Some (Ok (m, print w')) /\ metadata_shown w' md
    /\ um_encrypted md = true /\ um_encrypted_to_kids md = Some (pm_to_kids pm) /\ um_re_wrapped md = false
    /\ um_encrypted_from_kid md = pm_from_kid pm /\ um_sign_from md = pm_sign_by_kid pm
    /\ (from = None <-> pm_from_kid pm = None) /\ (sign_by = None <-> pm_sign_by_kid pm = None).
Proof. exact js_round. Qed.
Print Assumptions C83_js_encrypted.
(** ... likewise for a signed message, *)
Theorem C83_js_signed : forall C pair, lawful C pair -> floats_stable (fparse C) ->
  forall docs dir, describes (fparse C) doc_read docs dir -> directory dir ->
  forall secs secs' own own', describes (fparse C) secret_read secs own -> describes (fparse C) secret_read secs' own' ->
  secrets_match C pair dir own ->
  forall s m by_ tr text shown uopts o fuel tr' x,
  js_message_new (fparse C) s = Ok m -> msg_typ m = B "application/didcomm-plain+json" -> no_imitation m ->
  exec (js_pack_signed C m by_) tr (Ok (text, shown)) -> Forall (js_says (fparse C) docs secs) tr ->
  js_unpack_options uopts = Ok o ->
  exec (js_unpack C (S fuel) text uopts) tr' x -> Forall (js_says (fparse C) docs secs') tr' ->
  exists w kid w' md, shown = print w /\ req str_read 0 w 0 "sign_by_kid" kid /\ x = Some (Ok (m, print w')) /\ metadata_shown w' md
    /\ um_sign_from md = Some kid /\ um_non_repudiation md = true /\ um_encrypted md = false.
Proof. exact js_signed_round. Qed.
Print Assumptions C83_js_signed.
(** a plaintext message, *)
Theorem C83_js_plaintext : forall C, floats_stable (fparse C) ->
  forall docs dir, describes (fparse C) doc_read docs dir ->
  forall secs secs' own own', describes (fparse C) secret_read secs own -> describes (fparse C) secret_read secs' own' ->
  forall s m tr text uopts o fuel tr' x,
  js_message_new (fparse C) s = Ok m -> msg_typ m = B "application/didcomm-plain+json" -> no_imitation m ->
  exec (js_pack_plaintext C m) tr (Ok text) -> Forall (js_says (fparse C) docs secs) tr ->
  js_unpack_options uopts = Ok o ->
  exec (js_unpack C (S fuel) text uopts) tr' x -> Forall (js_says (fparse C) docs secs') tr' ->
  exists w' md, x = Some (Ok (m, print w')) /\ metadata_shown w' md /\ um_encrypted md = false /\ um_authenticated md = false.
Proof. exact js_plain_round. Qed.
Print Assumptions C83_js_plaintext.
(** and a rotation. *)
Theorem C83_js_rotation : forall C pair, lawful C pair -> floats_stable (fparse C) ->
  forall docs dir, describes (fparse C) doc_read docs dir -> directory dir ->
  forall secs secs' own own', describes (fparse C) secret_read secs own -> describes (fparse C) secret_read secs' own' ->
  secrets_match C pair dir own ->
  forall s p ik tr jwt kid tr' x,
  js_from_prior_new C s = Ok p ->
  exec (js_from_prior_pack C p ik) tr (Ok (jwt, kid)) -> Forall (js_says (fparse C) docs secs) tr ->
  exec (js_from_prior_unpack C jwt) tr' x -> Forall (js_says (fparse C) docs secs') tr' -> x = Ok (p, kid).
Proof. exact js_rotation_round. Qed.
Print Assumptions C83_js_rotation.

(** *** A JavaScript world *)
Definition js_docs (did : bytes) : value :=
  match dir did with Some d => match doc_tree d with Ok t => t | _ => VNull end | None => VNull end.
Definition js_secs (secs : list secret) (id : bytes) : value :=
  match own_of secs id with Some s => secret_tree s | None => VNull end.
Definition js_env (secs : list secret) : handler := fun o =>
  match o with
  | OResolve did => js_resolve (fparse toy) (inr (print (js_docs did)))
  | OFindSecrets ids => js_find_secrets ids (inr (Some (map (fun s => Some (sec_id s)) (rev secs) ++ [None])))
  | OGetSecret i => js_get_secret (fparse toy) (inr (print (js_secs secs i)))
  | ORandom u => toy_rand u
  end.
Ltac toy_material := split; [apply treeb_ok; vm_compute; reflexivity|apply value_read_norm; vm_compute; reflexivity].
Ltac each_in := let x := fresh in let H := fresh in intros x H; repeat (destruct H as [<-|H]; [|]); [..|destruct H].
Lemma toy_docs_ok d : In d toy_docs -> doc_ok (fparse toy) d.
Proof.
  intros H. repeat (destruct H as [<-|H]; [|]); [..|destruct H].
  all: split; [reflexivity|split; [now apply strs_utf8|split; [now apply strs_utf8|split]]].
  all: each_in; first [split; [reflexivity|split; [reflexivity|first [toy_material|split; [|now apply strs_utf8]]]]].
  - intros l E. injection E as <-. now apply strs_utf8.
  - discriminate.
Qed.
Lemma toy_secs_ok s : In s (sec_alice ++ sec_bob) -> secret_ok (fparse toy) s.
Proof. intros H. repeat (destruct H as [<-|H]; [|]); [..|destruct H]. all: split; [reflexivity|toy_material]. Qed.
Lemma docs_describe : describes (fparse toy) doc_read js_docs dir.
Proof.
  intros i. unfold js_docs. destruct (dir i) as [d|] eqn:E; [|split; [constructor|reflexivity]].
  assert (I : In d toy_docs) by (apply (dir_of_In toy_docs i d); exact E).
  destruct (doc_written (fparse toy) d (toy_docs_ok d I)) as (t & -> & J & R). now split.
Qed.
Lemma secs_describe l : (forall s, In s l -> In s (sec_alice ++ sec_bob)) -> describes (fparse toy) secret_read (js_secs l) (own_of l).
Proof.
  intros SUB i. unfold js_secs. destruct (own_of l i) as [s|] eqn:E; [|split; [constructor|reflexivity]].
  assert (I : In s l) by (unfold own_of in E; apply find_first_some in E; tauto).
  exact (secret_written (fparse toy) s (toy_secs_ok s (SUB s I))).
Qed.

Lemma js_env_says secs o : js_says (fparse toy) js_docs (js_secs secs) (Ev o (js_env secs o)).
Proof.
  destruct o as [did|ids|i|u]; try reflexivity; [|destruct u; reflexivity].
  eexists. split; [reflexivity|]. intros i _. rewrite in_app_iff. unfold js_secs. split.
  - intros [H|[H|[]]]; [|discriminate]. apply in_map_iff in H as (s & E & I). injection E as <-. apply in_rev in I.
    destruct (own_of secs (sec_id s)) as [s'|] eqn:O; [destruct s' as [? ? []]; discriminate|].
    unfold own_of in O. apply find_first_none with (x := s) in O; auto. rewrite beq_refl in O. discriminate.
  - intros H. left. destruct (own_of secs i) as [s|] eqn:O; [|tauto]. unfold own_of in O. apply find_first_some in O as [I E].
    apply beq_eq in E. apply in_map_iff. exists s. split; [now f_equal|]. now apply in_rev in I.
Qed.
Lemma js_env_trace secs {A} (p : prog A) : Forall (js_says (fparse toy) js_docs (js_secs secs)) (Toy.trace (js_env secs) p).
Proof. induction p as [a|o k IH]; cbn [Toy.trace]; constructor; auto using js_env_says. Qed.
Definition js_packed : res (bytes * bytes) := Eval vm_compute in
  run (js_env sec_alice) (js_pack_encrypted toy rich_msg (B "did:ex:bob") (Some (B "did:ex:alice")) (Some (B "did:ex:alice")) (B "{""forward"":false,""protect_sender"":true}")).
Definition js_unpacked := Eval vm_compute in run (js_env sec_bob) (js_unpack toy 9 (text_of js_packed) (B "{}")).
Example C83_case :
  describes (fparse toy) doc_read js_docs dir
  /\ describes (fparse toy) secret_read (js_secs sec_alice) alice /\ describes (fparse toy) secret_read (js_secs sec_bob) bob
  /\ (exists s, js_message_new (fparse toy) s = Ok rich_msg) /\ no_imitation rich_msg
  /\ (forall A (p : prog A), Forall (js_says (fparse toy) js_docs (js_secs sec_alice)) (Toy.trace (js_env sec_alice) p))
  /\ match js_packed with Ok (_, js) => js | _ => [] end
     = B "{""messaging_service"":null,""from_kid"":""did:ex:alice#x"",""sign_by_kid"":""did:ex:alice#e"",""to_kids"":[""did:ex:bob#x1"",""did:ex:bob#x2""]}"
  /\ ok_part fst js_unpacked = Some rich_msg.
Proof.
  split; [exact docs_describe|]. split; [apply secs_describe; intros s I; apply in_app_iff; now left|].
  split; [apply secs_describe; intros s I; apply in_app_iff; now right|].
  split; [exists (message_text rich_msg); vm_compute; reflexivity|].
  split; [apply rich_fits|]. split; [intros; apply js_env_trace|]. split; reflexivity.
Qed.

(** C84.  In uniffi a JSON value crosses the border as text of its own.  The body, the
    custom headers and the JSON attachments of every message that unpack returns cross
    unchanged, there and back... *)
Theorem C84_received_cross : forall C fuel text o tr m md v, floats_stable (fparse C) ->
  exec (unpack C fuel text o) tr (Some (Ok (m, md))) -> json_in m v ->
  ffi_json_in (fparse C) (ffi_json_out v) = Ok v.
Proof.
  intros C fuel text o tr m md v F X I. apply ffi_json_round. apply (sane_json C m); auto.
  exact (proj1 (C58_received C fuel text o tr m md F X)).
Qed.
Print Assumptions C84_received_cross.
(** ... and a value accepted once is accepted again, as the same value, ever after. *)
Theorem C84_accepted_again : forall fp s v, floats_stable fp -> ffi_json_in fp s = Ok v -> ffi_json_in fp (ffi_json_out v) = Ok v.
Proof. intros fp s v. exact (json_lossless_text fp s v). Qed.
Print Assumptions C84_accepted_again.
(** C84.  That a message with an accepted value for body can be read once it is packed
    is false: the border takes one level more than unpack does. *)
Fixpoint towers (n : nat) : value := match n with O => VNull | S n' => VArr [towers n'] end.
Theorem C84_accepted_readable_refuted : exists s v m text,
  ffi_json_in (fparse toy) s = Ok v /\ with_body v toy_msg m
  /\ run (toy_env toy_docs sec_alice) (pack_plaintext toy m) = Ok text
  /\ err_part (run (toy_env toy_docs sec_bob) (unpack toy 9 text default_unpack_options)) = Some Malformed.
Proof.
  exists (print (towers 127)), (towers 127).
  exists (mkMsg (msg_id toy_msg) (msg_typ toy_msg) (msg_type toy_msg) (towers 127) (msg_from toy_msg) (msg_to toy_msg) (msg_thid toy_msg)
    (msg_pthid toy_msg) (msg_extra toy_msg) (msg_created toy_msg) (msg_expires toy_msg) (msg_from_prior toy_msg) (msg_attachments toy_msg)).
  eexists. split; [vm_compute; reflexivity|]. split; [repeat split|]. split; [vm_compute; reflexivity|vm_compute; reflexivity].
Qed.
Print Assumptions C84_accepted_readable_refuted.
(** C84.  Missing: the values nested 127 deep.  With every other accepted value for body,
    a message that is packed is read back. *)
Theorem C84_accepted_readable_partial : forall C dir own own' s v m m' tr text fuel o tr' x,
  floats_stable (fparse C) -> ffi_json_in (fparse C) s = Ok v -> ~ deep 127 v -> message_fits C m -> with_body v m m' ->
  exec (pack_plaintext C m') tr (Ok text) -> Forall (answers dir own) tr ->
  exec (unpack C (S fuel) text o) tr' x -> Forall (answers dir own') tr' -> exists md, x = Some (Ok (m', md)).
Proof.
  intros C dir own own' s v m m' tr text fuel o tr' x F I D MF W P A X A'.
  assert (V : json_value (fparse C) 126 v) by (apply value_shallow; auto; eapply read_value; eauto).
  destruct (C01_plaintext_round C dir own own' m' tr text fuel o tr' x (body_fits C m m' v MF W V) P A X A') as (prior & _ & E). eauto.
Qed.
Print Assumptions C84_accepted_readable_partial.
Example C84_case : ~ deep 127 (towers 126) /\ exists s, ffi_json_in (fparse toy) s = Ok (towers 126) /\ message_fits toy rich_msg.
Proof.
  split.
  - assert (H : forall n v, deep n v -> forall k, v = towers k -> n <= k).
    { induction 1; intros k' E; try (apply Nat.le_0_l); destruct k' as [|k']; try discriminate.
      - cbn [towers] in E. injection E as ->. destruct H as [<-|[]]. specialize (IHdeep k' eq_refl). lia.
      - lia. }
    intros X. specialize (H _ _ X 126 eq_refl). lia.
  - exists (print (towers 126)). split; [vm_compute; reflexivity|exact rich_fits].
Qed.
