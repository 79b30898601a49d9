(** C58, C59: what has been received. *)
From Verif.Model Require Import Prelude Utf8 Base64 Json Serde DidDoc Crypto Keys Effects Jws Jwe Message FromPrior Pack Routing Unpack.
From Verif.Spec Require Import Codec Small Events Toy World Text Sane.
From Verif.Proofs Require Import Lib RoundP SaneP ToyP.
From Verif.Props Require Import RoundTrip.

(** C58.  Whatever text [Message::from_str] accepts, the message is a proper one. *)
Theorem C58_read : forall C text m, floats_stable (fparse C) ->
  message_from_str (fparse C) text = Ok m -> message_sane C m.
Proof. intros C text m F. exact (read_sane C F text m). Qed.
Print Assumptions C58_read.

(** C58.  So is every message that unpack returns, whoever sent it, and so are the
    rotation claims returned with it. *)
Theorem C58_received : forall C fuel text o tr m md, floats_stable (fparse C) ->
  exec (unpack C fuel text o) tr (Some (Ok (m, md))) ->
  message_sane C m /\ msg_typ m = B "application/didcomm-plain+json" /\ opt prior_fits (um_from_prior md).
Proof. intros C fuel text o tr m md F. exact (received_sane C F fuel text o tr m md). Qed.
Print Assumptions C58_received.

(** C58.  Writing such a message and reading it again changes nothing. *)
Theorem C58_reread : forall C text m, floats_stable (fparse C) ->
  message_from_str (fparse C) text = Ok m -> message_from_str (fparse C) (plain_text m) = Ok m.
Proof. intros C text m F H. apply (sane_reread C). exact (read_sane C F text m H). Qed.
Print Assumptions C58_reread.

Lemma toy_floats : floats_stable (fparse toy).
Proof.
  intros t l H. change (fparse toy) with (fun t => if beq t (B "1.5") then Some t else None) in H. cbv beta in H. destruct (beq t (B "1.5")) eqn:E; [|discriminate]. injection H as <-. apply beq_eq in E. subst t.
  split; [|reflexivity]. exists [], (B "1"), (B ".5"), []. split; [reflexivity|]. split; auto. split.
  { right. exists "1"%char, []. split; auto. split; [now left|constructor]. }
  assert (D : digits1 (B "5")) by (unfold digits1, digit09; split; [easy|constructor; [cbn; auto 10|constructor]]).
  split; [right; exists (B "5"); auto|]. split; [now left|]. left. easy.
Qed.

(** A text with white space, escapes, a pair of surrogates, members in another order, a
    repeated custom header and an attachment in array form. *)
Definition odd_text : bytes :=
  B "{ ""z"": 1, ""type"":""\u0074A"", ""z"":{""b"":-7,""a"":[1.5]}, ""body"": {""k"":""\ud83d\ude00""}, ""attachments"":[[{""json"":[0]},null,null,null,null,null,7,null]], ""id"":""i"" }".
Example C58_case : floats_stable (fparse toy) /\ exists m, message_from_str (fparse toy) odd_text = Ok m /\ map fst (msg_extra m) = [B "z"] /\ msg_type m = B "tA"
  /\ message_from_str (fparse toy) (plain_text m) = Ok m /\ plain_text m <> odd_text.
Proof. split; [exact toy_floats|]. eexists. split; [vm_compute; reflexivity|]. split; [|split; [|split]]; vm_compute; try reflexivity. discriminate. Qed.

(** C59.  A received message, packed again without a change, is not always received
    again: a custom header given twice hides that the message imitates a signed
    envelope, and writing the message leaves only the second one. *)
Definition imitation : bytes :=
  B "{""id"":""i"",""type"":""t"",""body"":{},""payload"":1,""payload"":""x"",""signatures"":[]}".
Theorem C59_passed_on_refuted : exists C dir own fuel text o tr m md tr1 text' tr2 k, floats_stable (fparse C)
  /\ exec (unpack C fuel text o) tr (Some (Ok (m, md))) /\ Forall (answers dir own) tr
  /\ exec (pack_plaintext C m) tr1 (Ok text') /\ Forall (answers dir own) tr1
  /\ exec (unpack C fuel text' o) tr2 (Some (Err k)) /\ Forall (answers dir own) tr2.
Proof.
  set (run_ := fun A (p : prog A) => run (toy_env toy_docs sec_alice) p).
  assert (E : exists m md, run_ _ (unpack toy 9 imitation default_unpack_options) = Some (Ok (m, md))
    /\ run_ _ (pack_plaintext toy m) = Ok (plain_text m)
    /\ run_ _ (unpack toy 9 (plain_text m) default_unpack_options) = Some (Err Malformed)).
  { eexists _, _. split; [vm_compute; reflexivity|]. split; vm_compute; reflexivity. }
  destruct E as (m & md & E1 & E2 & E3). unfold run_ in *. clear run_.
  exists toy, dir, alice, 9, imitation, default_unpack_options, (trace (toy_env toy_docs sec_alice) (unpack toy 9 imitation default_unpack_options)), m, md,
    (trace (toy_env toy_docs sec_alice) (pack_plaintext toy m)), (plain_text m),
    (trace (toy_env toy_docs sec_alice) (unpack toy 9 (plain_text m) default_unpack_options)), Malformed.
  split; [exact toy_floats|].
  split; [rewrite <- E1; apply run_exec|]. split; [apply toy_env_trace|].
  split; [rewrite <- E2; apply run_exec|]. split; [apply toy_env_trace|].
  split; [rewrite <- E3; apply run_exec|]. apply toy_env_trace.
Qed.
Print Assumptions C59_passed_on_refuted.
(** C59, for messages whose custom headers do not include all the members of an
    envelope: the message meets the conditions of C01 to C05, so it can be packed in any
    form and is received unchanged. *)
Theorem C59_fits_partial : forall C fuel text o tr m md, floats_stable (fparse C) ->
  exec (unpack C fuel text o) tr (Some (Ok (m, md))) -> no_imitation m -> message_fits C m.
Proof. intros C fuel text o tr m md F H. apply (received_sane C F) in H as (S & T & _). exact (sane_fits C m S T). Qed.
Print Assumptions C59_fits_partial.
(** C59.  In particular in plaintext. *)
Theorem C59_passed_on_partial : forall C dir own own' fuel text o tr m md tr1 text' fuel' o' tr2 x, floats_stable (fparse C) ->
  exec (unpack C fuel text o) tr (Some (Ok (m, md))) -> no_imitation m ->
  exec (pack_plaintext C m) tr1 (Ok text') -> Forall (answers dir own) tr1 ->
  exec (unpack C (S fuel') text' o') tr2 x -> Forall (answers dir own') tr2 ->
  exists prior, rotation_of C tr1 m prior /\ x = Some (Ok (m, metadata None None None prior)).
Proof.
  intros C dir own own' fuel text o tr m md tr1 text' fuel' o' tr2 x F H N.
  apply plaintext_round. exact (C59_fits_partial C fuel text o tr m md F H N).
Qed.
Print Assumptions C59_passed_on_partial.
Example C59_case : exists m md, toy_unpack sec_alice odd_text default_unpack_options = Some (Ok (m, md)) /\ no_imitation m
  /\ toy_unpack sec_bob (plain_text m) default_unpack_options = Some (Ok (m, md)).
Proof.
  eexists _, _. split; [vm_compute; reflexivity|]. split; [|vm_compute; reflexivity].
  split; intros I; [destruct (I (B "tag")) as [E|[]]|destruct (I (B "payload")) as [E|[]]]; try (vm_compute; auto 10; fail); discriminate E.
Qed.
