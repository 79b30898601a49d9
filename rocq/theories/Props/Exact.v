(** Which texts are accepted, exactly. *)
From Verif.Model Require Import Prelude Utf8 Base64 Json Serde DidDoc Crypto Keys Effects Jws Jwe Message FromPrior Pack Routing Unpack.
From Verif.Spec Require Import Codec Small Events Toy Text Sane World Accept.
From Verif.Proofs Require Import Lib SmallP NoPanic RoundP ToyP AcceptP ExactP.
From Verif.Props Require Import RoundTrip Sane Accept Sealed Devices.

(** C95.  The owner of [own] can come to read [m] with the metadata [md] in [text] if and
    only if the text is acceptable: made of valid layers that a held secret opens. *)
Theorem C95_accepted_iff : forall C dir own o text m md fuel,
  (exists tr, exec (unpack C fuel text o) tr (Some (Ok (m, md))) /\ Forall (answers dir own) tr)
  <-> exists n, n < fuel /\ acceptable C dir own o n text m md.
Proof. exact accepted_iff. Qed.
Print Assumptions C95_accepted_iff.
(** C95.  So no execution accepts any other text. *)
Theorem C95_others_rejected : forall C dir own o text fuel tr m md,
  (forall n, ~ acceptable C dir own o n text m md) ->
  Forall (answers dir own) tr -> ~ exec (unpack C fuel text o) tr (Some (Ok (m, md))).
Proof. intros C dir own o text fuel tr m md N A X. destruct (acceptable_sound C dir own fuel text o tr m md X A) as (n & _ & H). exact (N n H). Qed.
Print Assumptions C95_others_rejected.
(** C95.  With a single secret there is nothing to choose: every execution ends with the
    message the text carries or, if it carries none, otherwise. *)
Theorem C95_one_key : forall C dir own o text m md fuel tr x,
  (forall i j s t, own i = Some s -> own j = Some t -> i = j) ->
  exec (unpack C fuel text o) tr x -> Forall (answers dir own) tr ->
  (x = Some (Ok (m, md)) <-> exists n, n < fuel /\ valid C dir own o n text m md).
Proof. exact one_key_iff. Qed.
Print Assumptions C95_one_key.
(** C95.  With several, what is valid for each of them is acceptable. *)
Theorem C95_valid_acceptable : forall C dir own o n text m md,
  valid C dir own o n text m md -> acceptable C dir own o n text m md.
Proof. exact valid_acceptable. Qed.
Print Assumptions C95_valid_acceptable.

(** C36, for all messages.  Packed in plaintext, a message comes back as a plaintext
    message if and only if it is one that can be read at all ([message_sane]: among other
    things no custom header has a standard name), has the plaintext typ, and its text is
    no envelope. *)
Theorem C36_comes_back_iff : forall C dir own own' m tr text fuel o tr' x, floats_stable (fparse C) ->
  exec (pack_plaintext C m) tr (Ok text) -> Forall (answers dir own) tr ->
  exec (unpack C (S fuel) text o) tr' x -> Forall (answers dir own') tr' ->
  ((exists prior, x = Some (Ok (m, metadata None None None prior)))
   <-> message_sane C m /\ msg_typ m = B "application/didcomm-plain+json" /\ only_plain C text).
Proof. exact comes_back_iff. Qed.
Print Assumptions C36_comes_back_iff.
(** C59, for all received messages. *)
Theorem C59_passed_on_iff : forall C dir own own' fuel text o tr m md tr1 text' fuel' o' tr2 x, floats_stable (fparse C) ->
  exec (unpack C fuel text o) tr (Some (Ok (m, md))) ->
  exec (pack_plaintext C m) tr1 (Ok text') -> Forall (answers dir own) tr1 ->
  exec (unpack C (S fuel') text' o') tr2 x -> Forall (answers dir own') tr2 ->
  ((exists prior, x = Some (Ok (m, metadata None None None prior))) <-> only_plain C text').
Proof.
  intros C dir own own' fuel text o tr m md tr1 text' fuel' o' tr2 x F U P A X A'.
  destruct (C58_received C fuel text o tr m md F U) as (S & T & _).
  rewrite (C36_comes_back_iff C dir own own' m tr1 text' fuel' o' tr2 x F P A X A'). tauto.
Qed.
Print Assumptions C59_passed_on_iff.

(** A text whose two recipient keys open it to different messages (C93): it is acceptable
    as either and valid as neither. *)
Example C95_case : exists md1 md2,
  acceptable twofold dir bob (mkUO false false) 0 twofold_text second_msg md1
  /\ acceptable twofold dir bob (mkUO true false) 0 twofold_text toy_msg md2
  /\ ~ valid twofold dir bob (mkUO true false) 0 twofold_text second_msg md1
  /\ valid toy dir bob default_unpack_options 0 text1 m1 Accept.md1.
Proof.
  assert (E : exists md1 md2, run (toy_env toy_docs sec_bob) (unpack twofold 1 twofold_text (mkUO true false)) = Some (Ok (toy_msg, md1))
    /\ run (toy_env toy_docs sec_bob) (unpack twofold 1 twofold_text (mkUO false false)) = Some (Ok (second_msg, md2))) by (do 2 eexists; vm_compute; auto).
  destruct E as (m2 & m1 & E2 & E1). exists m1, m2.
  assert (A : forall o m md, run (toy_env toy_docs sec_bob) (unpack twofold 1 twofold_text o) = Some (Ok (m, md)) -> acceptable twofold dir bob o 0 twofold_text m md).
  { intros o m md E. destruct (proj1 (C95_accepted_iff twofold dir bob o twofold_text m md 1)) as (n & LT & H).
    - exists (trace (toy_env toy_docs sec_bob) (unpack twofold 1 twofold_text o)). split; [rewrite <- E; apply run_exec|apply toy_env_trace].
    - destruct n; [exact H|lia]. }
  split; [now apply A|]. split; [now apply A|]. split; [|exact (proj1 C60_case)].
  intros V. assert (X : Some (Ok (toy_msg, m2)) = Some (Ok (second_msg, m1))).
  { eapply C60_valid_accepted; [exact V|apply Nat.lt_0_succ|rewrite <- E2; apply run_exec|apply toy_env_trace]. }
  apply (f_equal (fun r => match r with Some (Ok (m, _)) => msg_id m | _ => [] end)) in X. discriminate X.
Qed.

(** Custom headers that imitate an encrypted envelope do no harm as long as its algorithm
    is none of this library's; with one of them the text is taken for an envelope. *)
Definition fake (alg : string) : message :=
  mb_header (B "protected") (VStr (b64enc (B "{""alg"":""" ++ B alg ++ B """,""enc"":""A256GCM"",""apv"":"""",""epk"":{}}")))
  (mb_header (B "recipients") (VArr []) (mb_header (B "iv") (VStr []) (mb_header (B "ciphertext") (VStr []) (mb_header (B "tag") (VStr [])
    (mb_new (B "1") (B "t") (VObj [])))))).
Example C36_iff_case : only_plain toy (plain_text (fake "other")) /\ ~ only_plain toy (plain_text (fake "ECDH-ES+A256KW"))
  /\ toy_unpack sec_bob (plain_text (fake "other")) default_unpack_options = Some (Ok (fake "other", metadata None None None None))
  /\ toy_unpack sec_bob (plain_text (fake "ECDH-ES+A256KW")) default_unpack_options = Some (Err Malformed).
Proof.
  assert (G : forall s m md, toy_unpack sec_bob (plain_text s) default_unpack_options = Some (Ok (m, metadata None None None md)) -> only_plain toy (plain_text s)).
  { intros s m md E. unfold toy_unpack in E. refine (proj1 (plain_valid_inv toy dir bob _ _ _ _ m md (eq_ind _ (fun r => exec _ _ r) (run_exec (toy_env toy_docs sec_bob) _) _ E) _)). apply toy_env_trace. }
  assert (E1 : toy_unpack sec_bob (plain_text (fake "other")) default_unpack_options = Some (Ok (fake "other", metadata None None None None))) by (vm_compute; reflexivity).
  split; [exact (G _ _ _ E1)|]. split; [|split; [exact E1|vm_compute; reflexivity]].
  intros ([E|(j & h & apv & apu & (J & hb & HB & HH) & A & _)] & _).
  - vm_compute in E. discriminate E.
  - apply A. vm_compute in J. injection J as <-. vm_compute in HB. injection HB as <-. vm_compute in HH. injection HH as <-. reflexivity.
Qed.
