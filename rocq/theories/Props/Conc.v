(** Calls running side by side, and resolvers that fail. *)
From Verif.Model Require Import Prelude Utf8 Base64 Json Serde DidDoc Crypto Keys Effects Jws Jwe Message FromPrior Pack Routing Unpack.
From Verif.Spec Require Import Small Events Toy World Conc.
From Verif.Proofs Require Import Lib ToyP ConcP.
From Verif.Props Require Import RoundTrip Pack.

(** C42.  Whatever the interleaving, a finished call saw an execution of its own: the
    answers given to it, in the order it asked. *)
Theorem C42_interleaving : forall X p acts p' i m a, steps X p acts p' -> p i = Live m -> p' i = Live (Ret a) ->
  exec m (events_of i acts) a.
Proof. exact steps_exec. Qed.
Print Assumptions C42_interleaving.

(** When the answers it got depend only on the question, its result is that of the call
    run alone with the same random draws. *)
Theorem C42_same_as_alone : forall X p acts p' i m a h, steps X p acts p' -> p i = Live m -> p' i = Live (Ret a) ->
  Forall (told h) (events_of i acts) -> alone h (drawn (events_of i acts)) m = Some a.
Proof. intros X p acts p' i m a h S L R. apply exec_alone. now apply (steps_exec X p acts p'). Qed.
Print Assumptions C42_same_as_alone.

(** Taking away some calls, or only what happened to them after some point (they were
    dropped), the others do exactly as before. *)
Theorem C42_dropping : forall X (keep : nat -> bool) p acts p', steps X p acts p' ->
  exists q, steps X p (filter (fun a => keep (of_task a)) acts) q
    /\ (forall i, keep i = true -> q i = p' i) /\ forall i, keep i = false -> q i = p i.
Proof. intros X keep p acts p' S. apply (steps_filter X keep p acts p' p S). auto. Qed.
Print Assumptions C42_dropping.
Theorem C42_dropped_midway : forall X p acts1 q acts2 p' (keep : nat -> bool),
  steps X p acts1 q -> steps X q acts2 p' ->
  exists q' r, steps X q (filter (fun a => keep (of_task a)) acts2) r /\ steps X p acts1 q'
    /\ (forall i, q' i = q i) /\ forall i, keep i = true -> r i = p' i.
Proof.
  intros X p acts1 q acts2 p' keep S1 S2. destruct (steps_filter X keep q acts2 p' q S2) as (r & S & K & _); auto.
  exists q, r. auto.
Qed.
Print Assumptions C42_dropped_midway.

(** No call waits for another one: as soon as its own request is answered it goes on. *)
Theorem C42_never_blocked : forall X (p : pool X) i o k r, p i = Live (Do o k) ->
  exists q, steps X p [Answer i o r] q /\ q i = Live (k r) /\ forall j, j <> i -> q j = p j.
Proof.
  intros X p i o k r L. exists (set X p i (Live (k r))). split; [|split].
  - eapply steps_answer; [exact L|apply set_same|apply set_other|]. constructor. auto.
  - apply set_same.
  - apply set_other.
Qed.
Print Assumptions C42_never_blocked.

(** Play a schedule with answers given by [h]. *)
Fixpoint play (X : nat -> Type) (h : handler) (sch : list nat) (p : pool X) : list action * pool X :=
  match sch with
  | [] => ([], p)
  | i :: sch' =>
      match p i with
      | Live (Do o k) => let (acts, q) := play X h sch' (set X p i (Live (k (h o)))) in (Answer i o (h o) :: acts, q)
      | _ => play X h sch' p
      end
  end.
Lemma play_steps X h sch : forall p, steps X p (fst (play X h sch p)) (snd (play X h sch p)).
Proof.
  induction sch as [|i sch IH]; intros p; cbn [play]; [constructor; auto|]. destruct (p i) as [[a|o k]|] eqn:E; auto.
  specialize (IH (set X p i (Live (k (h o))))). destruct (play X h sch _) as [acts q]. cbn [fst snd] in *.
  eapply steps_answer; [exact E|apply set_same|apply set_other|exact IH].
Qed.
Definition who (acts : list action) : list nat := map of_task acts.
Definition case_pool : pool (fun i => match i with 0 => res (bytes * bytes) | _ => res (bytes * pack_metadata) end) :=
  fun i => match i with
           | 0 => Live (pack_signed toy rich_msg (B "did:ex:alice"))
           | _ => Live (pack_encrypted toy rich_msg (B "did:ex:bob") None None anon_opts)
           end.
Definition done_ok {A} (t : task (res A)) : bool := match t with Live (Ret (Ok _)) => true | _ => false end.
(** Signing and encrypting, taking turns; a third call is dropped. *)
Example C42_case : exists acts p', steps _ case_pool acts p' /\ done_ok (p' 0) = true /\ done_ok (p' 1) = true
  /\ who acts = [0; 1; 2; 0; 1; 0; 1; 1].
Proof.
  set (r := play _ (toy_env toy_docs sec_alice) [0; 1; 2; 0; 1; 0; 1; 1; 1; 1] case_pool).
  exists (fst r), (snd r). split; [apply play_steps|]. vm_compute. repeat split.
Qed.

(** C49.  Packing: the failure of a resolver call ends the operation with that kind. *)
Theorem C49_pack_encrypted : forall C m to from sign_by o tr x e k,
  exec (pack_encrypted C m to from sign_by o) tr x -> In e tr -> failed e k -> x = Err k /\ exists t, tr = t ++ [e].
Proof. intros C m to from sign_by o tr x e k. apply loyal_last. apply (loyal_pack_encrypted (@own_kind) own_err). reflexivity. Qed.
Print Assumptions C49_pack_encrypted.
Theorem C49_pack_signed : forall C m sign_by tr x e k,
  exec (pack_signed C m sign_by) tr x -> In e tr -> failed e k -> x = Err k /\ exists t, tr = t ++ [e].
Proof. intros C m sign_by tr x e k. apply loyal_last. apply (loyal_signed (@own_kind) own_err). reflexivity. Qed.
Print Assumptions C49_pack_signed.
Theorem C49_pack_plaintext : forall C m tr x e k,
  exec (pack_plaintext C m) tr x -> In e tr -> failed e k -> x = Err k /\ exists t, tr = t ++ [e].
Proof. intros C m tr x e k. apply loyal_last. apply (loyal_plaintext (@own_kind) own_err). reflexivity. Qed.
Print Assumptions C49_pack_plaintext.
Theorem C49_from_prior_pack : forall C p kid tr x e k,
  exec (from_prior_pack C p kid) tr x -> In e tr -> failed e k -> x = Err k /\ exists t, tr = t ++ [e].
Proof. intros C p kid tr x e k. apply loyal_last. apply (loyal_prior_pack (@own_kind) own_err). reflexivity. Qed.
Print Assumptions C49_from_prior_pack.
Theorem C49_from_prior_unpack : forall C jwt tr x e k,
  exec (from_prior_unpack C jwt) tr x -> In e tr -> failed e k -> x = Err k /\ exists t, tr = t ++ [e].
Proof. intros C jwt tr x e k. apply loyal_last. apply (loyal_prior_unpack (@own_kind) own_err). reflexivity. Qed.
Print Assumptions C49_from_prior_unpack.

(** Unpacking: a failure to resolve the sender of an authcrypt envelope is reported as
    InvalidState. *)
Definition deaf (k : errkind) : handler := fun o =>
  match o return resp o with
  | OResolve _ => Err k
  | OFindSecrets ids => Err k
  | OGetSecret _ => Err k
  | ORandom u => toy_rand u
  end.
Definition anon_text : bytes := Eval vm_compute in toy_pack None None false false.
Definition auth_text : bytes := Eval vm_compute in toy_pack (Some alice_did) None false false.
Theorem C49_unpack_refuted : exists C fuel text o tr x e k,
  exec (unpack C fuel text o) tr x /\ In e tr /\ failed e k /\ x <> Some (Err k).
Proof.
  assert (T : Lib.trace (deaf IoError) (unpack toy 1 auth_text default_unpack_options) = [Ev (OResolve alice_did) (Err IoError)]) by (vm_compute; reflexivity).
  assert (E : run (deaf IoError) (unpack toy 1 auth_text default_unpack_options) = Some (Err InvalidState)) by (vm_compute; reflexivity).
  exists toy, 1, auth_text, default_unpack_options, [Ev (OResolve alice_did) (Err IoError)], (Some (Err InvalidState)),
    (Ev (OResolve alice_did) (Err IoError)), IoError.
  split; [rewrite <- T, <- E; apply run_exec|]. clear. split; [left; reflexivity|]. split; [reflexivity|discriminate].
Qed.
Print Assumptions C49_unpack_refuted.
(** Otherwise the kind is kept: always for the secrets resolver; a failure of the DID
    resolver is reported with its kind or as InvalidState.  Missing: the kind of a
    failure to resolve the sender. *)
Theorem C49_unpack_partial : forall C fuel text o tr x e k,
  exec (unpack C fuel text o) tr x -> In e tr -> failed e k ->
  (x = Some (Err k) \/ did_call e /\ x = Some (Err InvalidState)) /\ exists t, tr = t ++ [e].
Proof. exact unpack_failure. Qed.
Print Assumptions C49_unpack_partial.
Example C49_case :
  (exists tr e, exec (pack_encrypted toy rich_msg bob_did None None anon_opts) tr (Err IoError) /\ In e tr /\ failed e IoError)
  /\ (exists tr e, exec (unpack toy 1 anon_text default_unpack_options) tr (Some (Err IoError)) /\ In e tr /\ failed e IoError).
Proof.
  split.
  - assert (T : Lib.trace (deaf IoError) (pack_encrypted toy rich_msg bob_did None None anon_opts) = [Ev (OResolve bob_did) (Err IoError)]) by (vm_compute; reflexivity).
    assert (E : run (deaf IoError) (pack_encrypted toy rich_msg bob_did None None anon_opts) = Err IoError) by (vm_compute; reflexivity).
    eexists _, _. split; [rewrite <- E; apply run_exec|]. rewrite T. clear. split; [left; reflexivity|reflexivity].
  - assert (T : exists ids, Lib.trace (deaf IoError) (unpack toy 1 anon_text default_unpack_options) = [Ev (OFindSecrets ids) (Err IoError)])
      by (eexists; vm_compute; reflexivity).
    assert (E : run (deaf IoError) (unpack toy 1 anon_text default_unpack_options) = Some (Err IoError)) by (vm_compute; reflexivity).
    destruct T as (l & T). eexists _, _. split; [rewrite <- E; apply run_exec|]. rewrite T. clear. split; [left; reflexivity|reflexivity].
Qed.
