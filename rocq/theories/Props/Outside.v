(** Valid messages, described without the library's own readers, are accepted. *)
From Verif.Model Require Import Prelude Utf8 Base64 Json Serde DidDoc Crypto Keys Effects Jws Jwe Message FromPrior Pack Routing Unpack.
From Verif.Spec Require Import Codec Small Events Toy World Text Grammar Wire Accept Outside.
From Verif.Proofs Require Import Lib SmallP Base64P JsonP JsonDec SerdeP CodecP NoPanic NamesP WireP ReadP ReadM WireU GrammarP SpellP SpellU RoundP ToyP UnpackInv AcceptP OutsideP.
From Verif.Props Require Import RoundTrip Sane Accept.

(** C60, in the words of the RFCs.  A text that conveys the message [m] to the owner of
    [own] ([conveys]: JSON, base64url and member names as specified, in any spelling without
    needless escapes, with any further members) is unpacked to [m] in every execution. *)
Theorem C60_conveyed_accepted : forall C dir own o n text m md fuel tr x, floats_stable (fparse C) ->
  conveys C dir own o n text m md -> n < fuel ->
  exec (unpack C fuel text o) tr x -> Forall (answers dir own) tr ->
  exists m', same_message m m' /\ x = Some (Ok (m', md)).
Proof.
  intros C dir own o n text m md fuel tr x FS V LT H A. destruct (conveys_valid C dir own FS o n text m md V) as (m' & S & V').
  exists m'. split; [exact S|]. exact (safe_exec _ _ _ _ _ (valid_accepted C dir own o n text m' md fuel V' LT) H A).
Qed.
Print Assumptions C60_conveyed_accepted.
(** Likewise a rotation token by itself. *)
Theorem C60_token_conveyed : forall C dir own jwt p kid tr x, floats_stable (fparse C) ->
  token_text C dir jwt p kid -> exec (from_prior_unpack C jwt) tr x -> Forall (answers dir own) tr -> x = Ok (p, kid).
Proof.
  intros C dir own jwt p kid tr x FS V H A.
  exact (safe_exec _ _ _ _ _ (rotation_accept C dir own jwt p kid (token_text_valid C dir FS jwt p kid V)) H A).
Qed.
Print Assumptions C60_token_conveyed.

(** The envelope of C60_case, which this library would not write, and its token. *)
Lemma said {A} (dec : raw -> res A) read t v a : reads (fparse toy) 127 dec read -> blind (fparse toy) true dec ->
  from_json (to_content (fparse toy) max_depth) t = Ok v -> existsb (Ascii.eqb "\"%char) t = false -> from_json dec t = Ok a -> says toy read t a.
Proof.
  intros R K D N E. exists v. assert (P : denotes_plainly (fparse toy) t v).
  { apply no_backslash; [now apply denotes_iff|]. intros I. assert (Y : existsb (Ascii.eqb "\"%char) t = true); [|congruence].
    apply existsb_exists. exists "\"%char. split; [exact I|apply Ascii.eqb_refl]. }
  split; [exact P|]. apply (read_as (fparse toy) 127 dec read v a R); [exact (denotes_tree _ toy_floats t v (plainly_denotes _ _ _ P))|].
  now rewrite <- (respelled_plainly _ toy_floats dec t v K P).
Qed.
Lemma is64 s t : existsb (Ascii.eqb "="%char) t = false -> b64dec t = Some s -> is_base64url s t.
Proof.
  intros N E. apply b64dec_spec; [|exact E]. intros I. assert (Y : existsb (Ascii.eqb "="%char) t = true); [|congruence].
  apply existsb_exists. exists "="%char. split; [exact I|apply Ascii.eqb_refl].
Qed.
Lemma muted {A} (dec : raw -> res A) read t v : reads (fparse toy) 127 dec read -> blind (fparse toy) true dec ->
  from_json (to_content (fparse toy) max_depth) t = Ok v -> existsb (Ascii.eqb "\"%char) t = false -> (forall a, from_json dec t <> Ok a) -> mute toy read t.
Proof.
  intros R K D N E. exists v. assert (P : denotes_plainly (fparse toy) t v).
  { apply no_backslash; [now apply denotes_iff|]. intros I. assert (Y : existsb (Ascii.eqb "\"%char) t = true); [|congruence].
    apply existsb_exists. exists "\"%char. split; [exact I|apply Ascii.eqb_refl]. }
  split; [exact P|]. intros a H. apply (E a). rewrite (respelled_plainly _ toy_floats dec t v K P).
  apply (read_as (fparse toy) 127 dec read v a R); [exact (denotes_tree _ toy_floats t v (plainly_denotes _ _ _ P))|exact H].
Qed.
Lemma text1_jwe : jwe_text toy text1 j1 h1.
Proof.
  split; [eapply (said de_jwe); [apply reads_jwe|apply blind_jwe|vm_compute; reflexivity..]|].
  exists hdr1. split; [apply is64; vm_compute; reflexivity|].
  eapply (said (de_jwe_header toy)); [apply (reads_jwe_header (fparse toy) toy 126 eq_refl); lia|apply (blind_jwe_header toy)|vm_compute; reflexivity..].
Qed.
Lemma said_message t m v : from_json (to_content (fparse toy) max_depth) t = Ok v -> existsb (Ascii.eqb "\"%char) t = false ->
  message_from_str (fparse toy) t = Ok m -> says toy message_read t m.
Proof.
  intros D N E. exists v. assert (P : denotes_plainly (fparse toy) t v).
  { apply no_backslash; [now apply denotes_iff|]. intros I. assert (Y : existsb (Ascii.eqb "\"%char) t = true); [|congruence].
    apply existsb_exists. exists "\"%char. split; [exact I|apply Ascii.eqb_refl]. }
  split; [exact P|]. apply (message_sound (fparse toy) v m (denotes_tree _ toy_floats t v (plainly_denotes _ _ _ P))).
  unfold message_from_str in E. rewrite (respelled_plainly _ toy_floats _ t v (blind_message (fparse toy) true) P) in E.
  rewrite from_json_print in E; [exact E|]. eapply wfv_printable, wf_of. exact (denotes_tree _ toy_floats t v (plainly_denotes _ _ _ P)).
Qed.
Example C60_conveyed_case : conveys toy dir bob default_unpack_options 0 text1 m1 md1.
Proof.
  exists false, None, (Some ([B "did:ex:bob#x1"], B "did:ex:alice#x")), None, None, text1, msg1, msg1.
  split. { constructor. right. exists j1, h1, (B "did:ex:bob#x1"), (Some (B "did:ex:alice#x")).
    split; [exact text1_jwe|]. split; [discriminate|]. split; apply is64; vm_compute; reflexivity. }
  split.
  { exists j1. split; [|reflexivity].
    exists h1, (B "did:ex:alice"), doc_alice, KX25519, (B "ax").
    split; [exact text1_jwe|]. split; [reflexivity|]. split; [reflexivity|]. split; [apply is64; vm_compute; reflexivity|].
    split; [now apply utf8_iff|]. split; [left; reflexivity|].
    split. { split. { split; [discriminate|]. exists (B "did:ex:bob"). constructor; [|constructor]. exists (B "x1"). split; [reflexivity|]. cbn. intuition discriminate. }
      exists (B "did:ex:bob#x1"). split; [apply is64; vm_compute; reflexivity|]. apply apv_for_spec. reflexivity. }
    split; [now apply utf8_iff|].
    split. { exists (B "x"). split; [reflexivity|]. cbn. intuition discriminate. }
    split; [reflexivity|].
    split. { split; [left; reflexivity|]. exists (vm_jwk "did:ex:alice#x" KX25519 "ax"). split; [|vm_compute; reflexivity].
      exists [], (tl (doc_verification_method doc_alice)). split; [reflexivity|]. split; [reflexivity|]. intros y []. }
    split; [left; reflexivity|].
    split. { exists (B "did:ex:bob#x1"), (sec_jwk "did:ex:bob#x1" KX25519 "bx1"). split; [left; reflexivity|vm_compute; reflexivity]. }
    intros kid sec [<-|[]] O. vm_compute in O. injection O as <-. exists KX25519, (B "bx1"). split; [vm_compute; reflexivity|]. split; [reflexivity|].
    exists (mkRc (B "did:ex:bob#x1") (b64enc (kw1 ++ B "cek"))), (kw1 ++ B "cek"), (B "e"), (B "did:ex:bob#x1"), tag1, kw1, (B "cek"), (B "cek"), (B "iv"), (rev msg1).
    split. { exists [], []. split; [reflexivity|]. split; [reflexivity|]. intros y []. }
    split; [apply is64; vm_compute; reflexivity|]. split; [vm_compute; reflexivity|]. split; [apply is64; vm_compute; reflexivity|].
    split; [apply is64; vm_compute; reflexivity|]. split; [vm_compute; reflexivity|]. split; [vm_compute; reflexivity|]. split; [vm_compute; reflexivity|].
    split; [apply is64; vm_compute; reflexivity|]. split; [apply is64; vm_compute; reflexivity|vm_compute; reflexivity]. }
  split. { split; [reflexivity|]. eapply (muted de_jws); [apply reads_jws|apply blind_jws|vm_compute; reflexivity|vm_compute; reflexivity|].
    intros a. vm_compute. discriminate. }
  split; [eapply said_message; vm_compute; reflexivity|]. split; [reflexivity|]. split; reflexivity.
Qed.
