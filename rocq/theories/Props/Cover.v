(** The anonymous envelope that protects a sender can be put on and taken off by others. *)
From Verif.Model Require Import Prelude Utf8 Base64 Json Serde DidDoc Crypto Keys Effects Jws Jwe Message FromPrior Pack Routing Unpack.
From Verif.Spec Require Import Codec Small Events Toy World Cover.
From Verif.Proofs Require Import Lib RoundP ToyP CoverP.
From Verif.Props Require Import RoundTrip.

(** C89.  Whatever we unpack without an anonymous envelope, anybody ([own'], perhaps
    without a single secret) can put into one: we get the same message with the same
    metadata but for what they say about the outer envelope.  With unwrapping of forwards
    the text must not pass for a message itself. *)
Theorem C89_put_on : forall C pair dir own own' h fuel fuel' inner text to alg kids o tr m md,
  lawful C pair -> directory dir -> secrets_match C pair dir own -> answers_from dir own h -> utf8 inner = true ->
  run h (unpack C fuel inner o) = Some (Ok (m, md)) -> um_anonymous_sender md = false ->
  (uo_unwrap o = true -> message_from_str (fparse C) inner = Err Malformed) ->
  exec (anoncrypt C to inner alg) tr (Ok (text, kids)) -> Forall (answers dir own') tr -> holds_one own kids ->
  run h (unpack C (S fuel') text o) = Some (Ok (m, covered kids alg md)).
Proof. intros C pair dir own own' h fuel fuel' inner text to alg kids o tr m md L D. exact (cover C pair L dir D own own' h fuel fuel' inner text to alg kids o tr m md). Qed.
Print Assumptions C89_put_on.
(** C89.  Of an anonymous and authenticated text, however made, the inner text unpacks by
    itself to the same message, and the metadata differ only in the same way. *)
Theorem C89_taken_off : forall C h fuel fuel' text o m md',
  run h (unpack C fuel text o) = Some (Ok (m, md')) ->
  um_anonymous_sender md' = true -> um_enc_alg_auth md' <> None -> um_re_wrapped md' = false ->
  exists tr j alg inner md, (forall o r, In (Ev o r) tr -> r = h o)
    /\ anon_opened C tr (uo_all_keys o) text j alg inner
    /\ run h (unpack C (S fuel') inner o) = Some (Ok (m, md))
    /\ um_anonymous_sender md = false /\ md' = covered (recipient_kids j) alg md.
Proof. exact uncovered. Qed.
Print Assumptions C89_taken_off.

Definition open_opts : pack_options := mkPO false false None None AuthA256cbcHs512 AnonXc20p.
Definition alice_open : prog (res (bytes * pack_metadata)) := pack_encrypted toy toy_msg (B "did:ex:bob") (Some (B "did:ex:alice")) None open_opts.
Definition open_text : bytes := Eval vm_compute in text_of (run (toy_env toy_docs sec_alice) alice_open).
Definition covering : prog (res (bytes * list bytes)) := anoncrypt toy (B "did:ex:bob") open_text AnonA256gcm.
Definition covered_text : bytes := Eval vm_compute in text_of (run (toy_env toy_docs []) covering).
Definition bob_env : handler := toy_env toy_docs sec_bob.
Definition shown (text : bytes) : option (bool * bool * option bytes * option anon_alg) :=
  ok_part (fun '(m, md) => (um_anonymous_sender md, um_authenticated md, um_encrypted_from_kid md, um_enc_alg_anon md))
    (run bob_env (unpack toy 3 text default_unpack_options)).
Lemma bob_answers : answers_from dir bob bob_env.
Proof.
  intros o. pose proof (toy_env_trace toy_docs sec_bob (Do o (fun r => Ret r))) as T. inversion T as [|? ? E _]; subst. exact E.
Qed.
Example C89_case : answers_from dir bob bob_env /\ utf8 open_text = true
  /\ shown open_text = Some (false, true, Some (B "did:ex:alice#x"), None)
  /\ message_from_str (fparse toy) open_text = Err Malformed
  /\ (exists tr text kids, exec covering tr (Ok (text, kids)) /\ Forall (answers dir (own_of [])) tr /\ holds_one bob kids)
  /\ shown covered_text = Some (true, true, Some (B "did:ex:alice#x"), Some AnonA256gcm).
Proof.
  split; [exact bob_answers|]. split; [vm_compute; reflexivity|]. split; [vm_compute; reflexivity|]. split; [vm_compute; reflexivity|].
  split; [|vm_compute; reflexivity].
  assert (E : exists text, run (toy_env toy_docs []) covering = Ok (text, [B "did:ex:bob#x1"; B "did:ex:bob#x2"])) by (eexists; vm_compute; reflexivity).
  destruct E as (text & E). exists (trace (toy_env toy_docs []) covering), text, [B "did:ex:bob#x1"; B "did:ex:bob#x2"].
  split; [rewrite <- E; apply run_exec|]. split; [apply (toy_env_trace toy_docs [])|].
  exists (B "did:ex:bob#x2"), (sec_jwk "did:ex:bob#x2" KX25519 "bx2"). split; [cbn; auto|vm_compute; reflexivity].
Qed.

(** C89.  So anonymous_sender does not show whether the sender asked for protect_sender:
    Alice did not, somebody without secrets added the envelope, and Bob is told so. *)
Theorem C89_not_senders_choice : exists po tr text pm tr' text' kids md,
  po_protect_sender po = false
  /\ by_alice (pack_encrypted toy toy_msg (B "did:ex:bob") (Some (B "did:ex:alice")) None po) tr (Ok (text, pm))
  /\ exec (anoncrypt toy (B "did:ex:bob") text AnonA256gcm) tr' (Ok (text', kids)) /\ Forall (answers dir (own_of [])) tr'
  /\ run bob_env (unpack toy 3 text' default_unpack_options) = Some (Ok (toy_msg, md))
  /\ um_anonymous_sender md = true /\ um_encrypted_from_kid md = Some (B "did:ex:alice#x").
Proof.
  assert (E : exists pm, run (toy_env toy_docs sec_alice) alice_open = Ok (open_text, pm)) by (eexists; vm_compute; reflexivity).
  assert (E' : exists kids, run (toy_env toy_docs []) covering = Ok (covered_text, kids)) by (eexists; vm_compute; reflexivity).
  assert (E2 : exists md, run bob_env (unpack toy 3 covered_text default_unpack_options) = Some (Ok (toy_msg, md))
    /\ um_anonymous_sender md = true /\ um_encrypted_from_kid md = Some (B "did:ex:alice#x")) by (eexists; vm_compute; auto).
  destruct E as (pm & E), E' as (kids & E'), E2 as (md & E2 & E3 & E4).
  exists open_opts, (trace (toy_env toy_docs sec_alice) alice_open), open_text, pm, (trace (toy_env toy_docs []) covering), covered_text, kids, md.
  split; [reflexivity|]. split; [rewrite <- E; apply alice_runs|]. split; [rewrite <- E'; apply (run_exec _ covering)|].
  split; [apply (toy_env_trace toy_docs [])|]. auto.
Qed.
Print Assumptions C89_not_senders_choice.
