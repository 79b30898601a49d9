(** JSON texts as the RFCs define them, and any spelling of a document. *)
From Verif.Model Require Import Prelude Utf8 Base64 Json Serde DidDoc Crypto Keys Effects Jws Jwe Message FromPrior Pack Routing Unpack Bindings DocJson.
From Verif.Spec Require Import Codec Small Events World Toy Text Wire Doc Options Grammar Spell.
From Verif.Proofs Require Import Lib WireP ReadP WireU GarbageP GrammarP SpellP SpellU ToyP.
From Verif.Props Require Import Wire Doc Options Sane.

(** C96.  The byte sequences taken for text are the UTF-8 encodings of scalar values. *)
Theorem C96_utf8 : forall s, utf8 s = true <-> utf8_text s.
Proof. exact utf8_iff. Qed.
Print Assumptions C96_utf8.
(** C96.  A text is read as a JSON value if and only if it is JSON as in RFC 8259 with no
    more than 127 nested containers and no lone surrogates, and the value is the one it
    denotes. *)
Theorem C96_value : forall fp t w, ffi_json_in fp t = Ok w <-> exists v, json_denotes fp t v /\ value_read v w.
Proof.
  intros fp t w. unfold ffi_json_in. rewrite from_json_iff. split.
  - intros (l & S & H). unfold to_value in H. destruct (to_content fp max_depth (raw_lex l)) as [v| |] eqn:E; try discriminate. injection H as H.
    exists v. split; [|now apply value_read_norm]. apply denotes_iff, from_json_iff. eauto.
  - intros (v & D & R). apply denotes_iff, from_json_iff in D as (l & S & E). exists l. split; auto. unfold to_value. rewrite E. cbn.
    apply value_read_norm in R. now subst.
Qed.
Print Assumptions C96_value.
(** C96.  Whatever is read, is JSON. *)
Theorem C96_only_json : forall fp C t,
  (exists j, jwe_from_str t = Ok j) \/ (exists j, jws_from_str t = Ok j) \/ (exists m, message_from_str fp t = Ok m)
  \/ (exists d, doc_from_str fp t = Ok d) \/ (exists s, secret_from_str fp t = Ok s) \/ (exists p, from_json (de_from_prior C) t = Ok p)
  \/ (exists o, js_unpack_options t = Ok o) \/ (exists o, js_pack_options fp t = Ok o) ->
  json_syntax t.
Proof.
  assert (X : forall A (dec : raw -> res A) t a, from_json dec t = Ok a -> json_syntax t).
  { intros A dec t a H. apply from_json_iff in H as (l & S & _). now exists l. }
  assert (Y : forall A (dec : raw -> res A) t a, kind Malformed (from_json dec t) = Ok a -> json_syntax t).
  { intros A dec t a H. destruct (from_json dec t) eqn:E; try discriminate. eapply X; eauto. }
  intros fp C t [[? H]|[[? H]|[[? H]|[[? H]|[[? H]|[[? H]|[[? H]|[? H]]]]]]]]; first [eapply X; exact H|eapply Y; exact H].
Qed.
Print Assumptions C96_only_json.
(** C96.  Any other text is refused by unpack, and nobody is asked anything. *)
Theorem C96_not_json : forall C fuel t o tr x, ~ json_syntax t -> exec (unpack C (S fuel) t o) tr x ->
  tr = [] /\ (x = Some (Err Malformed) \/ x = Some (Err InvalidState)).
Proof.
  intros C fuel t o tr x N. apply (garbage_rejected C fuel t o tr x); intros a H; apply N; apply (C96_only_json (fparse C) C); eauto.
Qed.
Print Assumptions C96_not_json.
(** C96.  White space between the tokens changes nothing. *)
Theorem C96_white_space : forall C l t t' fuel o tr x, spells l t -> spells l t' -> exec (unpack C fuel t o) tr x ->
  exists x', exec (unpack C fuel t' o) tr x' /\ same_result t t' x x'.
Proof. exact tokens_alike. Qed.
Print Assumptions C96_white_space.

(** C97.  Every text that denotes a given JSON value is the same message, DID document,
    secret, rotation or set of options. *)
Theorem C97_message : forall fp t v m, floats_stable fp -> json_denotes fp t v ->
  (message_from_str fp t = Ok m -> message_read v m)
  /\ (message_read v m -> exists m', message_from_str fp t = Ok m' /\ same_message m m').
Proof.
  intros fp t v m F D. unfold message_from_str. rewrite (respelled fp F _ t v (blind_message fp false) D).
  exact (C56_message_read fp v m (denotes_tree fp F t v D)).
Qed.
Print Assumptions C97_message.
Theorem C97_document : forall fp t v d, floats_stable fp -> json_denotes fp t v -> (doc_from_str fp t = Ok d <-> doc_read v d).
Proof.
  intros fp t v d F D. unfold doc_from_str. rewrite (respelled fp F _ t v (blind_doc fp false) D).
  exact (C62_document_read fp v d (denotes_tree fp F t v D)).
Qed.
Print Assumptions C97_document.
Theorem C97_secret : forall fp t v s, floats_stable fp -> json_denotes fp t v -> (secret_from_str fp t = Ok s <-> secret_read v s).
Proof.
  intros fp t v s F D. unfold secret_from_str. rewrite (respelled fp F _ t v (blind_secret fp false) D).
  exact (C62_secret_read fp v s (denotes_tree fp F t v D)).
Qed.
Print Assumptions C97_secret.
Theorem C97_rotation : forall C t v p, floats_stable (fparse C) -> json_denotes (fparse C) t v ->
  (from_json (de_from_prior C) t = Ok p <-> prior_read v p).
Proof.
  intros C t v p F D. rewrite (respelled (fparse C) F _ t v (blind_prior C false) D).
  apply (C56_token_read C 126 v (denotes_tree _ F t v D)).
Qed.
Print Assumptions C97_rotation.
Theorem C97_options : forall fp t l, floats_stable fp -> json_denotes fp t (VObj l) ->
  (forall o, js_unpack_options t = Ok o <-> unpack_options_read (VObj l) o)
  /\ (forall o, js_pack_options fp t = Ok o -> pack_options_read (VObj l) o)
  /\ (forall o, pack_options_read (VObj l) o -> exists o', js_pack_options fp t = Ok o' /\ same_pack_options o o').
Proof.
  intros fp t l F D. pose proof (denotes_tree fp F t _ D) as T. unfold js_unpack_options, js_pack_options.
  rewrite (respelled fp F _ t _ (blind_unpack_options fp false) D), (respelled fp F _ t _ (blind_pack_options fp false) D).
  split; [intros o; exact (C67_unpack_options fp l o T)|].
  split; intros o; [exact (C67_pack_options_sound fp l o T)|exact (C67_pack_options_complete fp l o T)].
Qed.
Print Assumptions C97_options.
(** C97.  For envelopes and their headers this holds as long as no string is written with
    an escape it does not need.  Missing: the spellings with such escapes, which are
    refused (below). *)
Theorem C97_encrypted_partial : forall fp t v j, floats_stable fp -> denotes_plainly fp t v -> (jwe_from_str t = Ok j <-> jwe_read v j).
Proof.
  intros fp t v j F D. unfold jwe_from_str. rewrite (respelled_plainly fp F _ t v (blind_jwe fp) D).
  exact (C56_encrypted_read fp 127 v j (denotes_tree fp F t v (plainly_denotes _ _ _ D))).
Qed.
Print Assumptions C97_encrypted_partial.
Theorem C97_signed_partial : forall fp t v j, floats_stable fp -> denotes_plainly fp t v -> (jws_from_str t = Ok j <-> jws_read v j).
Proof.
  intros fp t v j F D. unfold jws_from_str. rewrite (respelled_plainly fp F _ t v (blind_jws fp) D).
  exact (C56_signed_read fp 127 v j (denotes_tree fp F t v (plainly_denotes _ _ _ D))).
Qed.
Print Assumptions C97_signed_partial.
Theorem C97_headers_partial : forall C t v, floats_stable (fparse C) -> denotes_plainly (fparse C) t v ->
  (forall h, from_json (de_jwe_header C) t = Ok h <-> jwe_header_read v h)
  /\ (forall h, from_json de_jws_header t = Ok h <-> jws_header_read v h)
  /\ (forall h, from_json de_compact_header t = Ok h <-> token_header_read v h).
Proof.
  intros C t v F D. pose proof (denotes_tree _ F t v (plainly_denotes _ _ _ D)) as T.
  rewrite (respelled_plainly _ F _ t v (blind_jwe_header C) D), (respelled_plainly _ F _ t v (blind_jws_header (fparse C) true) D),
    (respelled_plainly _ F _ t v (blind_compact_header (fparse C)) D).
  split; [intros h; exact (C56_encrypted_header_read C v h T)|].
  split; intros h; [exact (C56_signed_header_read _ _ v h T)|exact (proj1 (C56_token_read C 126 v T) h)].
Qed.
Print Assumptions C97_headers_partial.
(** C97.  Two such spellings of one document are unpacked alike: the same requests to the
    resolvers, the same result. *)
Theorem C97_unpacked_alike_partial : forall C t t' v fuel o tr x, floats_stable (fparse C) ->
  denotes_plainly (fparse C) t v -> denotes_plainly (fparse C) t' v -> exec (unpack C fuel t o) tr x ->
  exists x', exec (unpack C fuel t' o) tr x' /\ same_result t t' x x'.
Proof. exact plainly_alike. Qed.
Print Assumptions C97_unpacked_alike_partial.
(** C97.  In particular every spelling of a plaintext message is unpacked to it. *)
Theorem C97_plaintext_partial : forall C t v m fuel o tr x, floats_stable (fparse C) -> denotes_plainly (fparse C) t v -> message_read v m ->
  msg_typ m = B "application/didcomm-plain+json" -> msg_from_prior m = None ->
  (forall j, ~ jwe_read v j) -> (forall j, ~ jws_read v j) ->
  exec (unpack C (S fuel) t o) tr x ->
  tr = [] /\ exists m', same_message m m' /\ x = Some (Ok (m', metadata None None None None)).
Proof.
  intros C t v m fuel o tr x F D R T P N1 N2 X.
  assert (E : exists x', exec (unpack C (S fuel) (print v) o) tr x' /\ same_result t (print v) x x').
  { revert X. apply unpack_spell; apply (respelled_plainly _ F _ t v); auto; [apply blind_jwe|apply blind_jws|apply blind_message]. }
  destruct E as (x' & X' & S).
  destruct (C56_plaintext_spelling C 127 v m fuel o tr x' (denotes_tree _ F t v (plainly_denotes _ _ _ D)) (le_n _) R T P N1 N2 X') as (-> & m' & SM & ->).
  split; auto. exists m'. split; auto. destruct S as [->|(m1 & md & -> & G & E)]; auto.
  apply (f_equal (fun r => match r with Some (Ok (_, d)) => um_signed_message d | _ => None end)) in E. discriminate E.
Qed.
Print Assumptions C97_plaintext_partial.

(** One message in two spellings: white space, escapes, an emoji as such and as a pair of
    surrogates. *)
Definition spelling1 : bytes :=
  B "{""id"":""1"",""type"":""t/x"",""body"":{""n"":[1,-2,1.5],""s"":""" ++ map ascii_of_nat [240; 159; 152; 128] ++ B """}}".
Definition spelling2 : bytes :=
  B " { ""id"" : ""1"" , " ++ map ascii_of_nat [9; 10; 13] ++ B " ""type"":""t\/x"", ""body"":{""n"" : [ 1 , -2,1.5 ],""s"":""\ud83d\ude00"" } } ".
Definition spelled : value :=
  VObj [(B "id", VStr (B "1")); (B "type", VStr (B "t/x"));
        (B "body", VObj [(B "n", VArr [VNum (PosInt 1); VNum (NegInt 2); VNum (Float (B "1.5"))]); (B "s", VStr (map ascii_of_nat [240; 159; 152; 128]))])].
Example C96_case : json_denotes (fparse toy) spelling1 spelled /\ json_denotes (fparse toy) spelling2 spelled
  /\ ffi_json_in (fparse toy) spelling2 <> Err Malformed
  /\ ~ json_syntax (B "{""id"":""1"",}") /\ ~ json_syntax (B "[01]") /\ ~ utf8_text (map ascii_of_nat [192; 128]).
Proof.
  assert (S : forall t, from_json (fun _ => Ok tt) t <> Ok tt -> ~ json_syntax t).
  { intros t N (l & W). apply N. rewrite (from_json_lex _ l t W). reflexivity. }
  split; [apply denotes_iff; vm_compute; reflexivity|]. split; [apply denotes_iff; vm_compute; reflexivity|]. split; [vm_compute; discriminate|].
  split; [apply S; vm_compute; discriminate|]. split; [apply S; vm_compute; discriminate|].
  intros H. apply utf8_iff in H. vm_compute in H. discriminate.
Qed.
(** The message is read from both; an envelope with white space in it is unpacked like the
    one that was sent. *)
Definition spaced (t : bytes) : bytes :=
  B " " ++ flat_map (fun c => if Ascii.eqb c ","%char then B ", " ++ map ascii_of_nat [10] else [c]) t ++ B " ".
Definition sent_text : bytes := Eval vm_compute in toy_pack (Some (B "did:ex:alice")) None false false.
Definition sent_value : value := Eval vm_compute in match from_json (to_content (fparse toy) max_depth) sent_text with Ok v => v | _ => VNull end.
Example C97_case : floats_stable (fparse toy)
  /\ (exists m, message_from_str (fparse toy) spelling1 = Ok m /\ message_from_str (fparse toy) spelling2 = Ok m)
  /\ denotes_plainly (fparse toy) sent_text sent_value /\ denotes_plainly (fparse toy) (spaced sent_text) sent_value
  /\ spaced sent_text <> sent_text
  /\ ok_part fst (toy_unpack sec_bob (spaced sent_text) default_unpack_options) = Some toy_msg.
Proof.
  assert (X : forall t, json_denotes (fparse toy) t sent_value -> existsb (Ascii.eqb "\"%char) t = false -> denotes_plainly (fparse toy) t sent_value).
  { intros t D N. apply no_backslash; auto. intros I. assert (Y : existsb (Ascii.eqb "\"%char) t = true); [|congruence].
    apply existsb_exists. exists "\"%char. split; [exact I|apply Ascii.eqb_refl]. }
  split; [exact toy_floats|]. split; [eexists; split; vm_compute; reflexivity|].
  split; [apply X; [apply denotes_iff; vm_compute; reflexivity|vm_compute; reflexivity]|].
  split; [apply X; [apply denotes_iff; vm_compute; reflexivity|vm_compute; reflexivity]|].
  split; [vm_compute; discriminate|vm_compute; reflexivity].
Qed.
(** With a needless escape in it, the same envelope is refused. *)
Fixpoint colons (t : bytes) : bytes :=
  match t with
  | ("d" :: "i" :: "d" :: ":" :: r)%char => B "did\u003a" ++ colons r
  | c :: r => c :: colons r
  | [] => []
  end.
Theorem C97_needless_escape_refuted : exists C t v j o tr x, floats_stable (fparse C) /\ json_denotes (fparse C) t v
  /\ jwe_read v j /\ exec (unpack C 1 (print v) o) tr x /\ (exists m md, x = Some (Ok (m, md)))
  /\ exec (unpack C 1 t o) [] (Some (Err Malformed)).
Proof.
  exists toy, (colons sent_text), sent_value.
  assert (D : json_denotes (fparse toy) (colons sent_text) sent_value) by (apply denotes_iff; vm_compute; reflexivity).
  assert (J : exists j, jwe_from_str (print sent_value) = Ok j) by (eexists; vm_compute; reflexivity). destruct J as [j J]. exists j.
  exists default_unpack_options, (trace (toy_env toy_docs sec_bob) (unpack toy 1 (print sent_value) default_unpack_options)),
    (run (toy_env toy_docs sec_bob) (unpack toy 1 (print sent_value) default_unpack_options)).
  split; [exact toy_floats|]. split; [exact D|].
  split; [apply (C56_encrypted_read (fparse toy) 127); auto; exact (denotes_tree _ toy_floats _ _ D)|].
  split; [apply run_exec|]. split; [do 2 eexists; vm_compute; reflexivity|].
  assert (E : unpack toy 1 (colons sent_text) default_unpack_options = Ret (Some (Err Malformed))).
  { unfold unpack. cbn [unpack_loop]. unfold try_anoncrypt, unpack_rest, try_authcrypt, try_sign, try_plaintext.
    replace (soft (jwe_from_str (colons sent_text))) with (Ok None : res (option jwe)) by (vm_compute; reflexivity).
    replace (soft (jws_from_str (colons sent_text))) with (Ok None : res (option jws)) by (vm_compute; reflexivity).
    replace (soft (message_from_str (fparse toy) (colons sent_text))) with (Ok None : res (option message)) by (vm_compute; reflexivity).
    reflexivity. }
  rewrite E. split; reflexivity.
Qed.
Print Assumptions C97_needless_escape_refuted.
