(** Calls through uniffi. *)
From Verif.Model Require Import Prelude Json DidDoc Crypto Effects Message FromPrior Pack Routing Unpack Bindings Ffi.
From Verif.Spec Require Import Small Packing Ffi Toy.
From Verif.Proofs Require Import Lib FfiP.

(** C75.  However calls, resolver callbacks and the executor interleave: what is reported for a call
    is what the library function returns when its requests are answered by the answers that were
    taken for this call; and there is only one report. *)
Theorem C75_reports_are_results : forall C l i rep, let ob := snd (acts C l []) in
  In rep (reports_of i ob) ->
  exists c tr, started_as i ob = [c] /\ reports_of i ob = [rep] /\ answered ob i 0 tr /\ returns C c tr rep.
Proof. intros C l i rep ob. exact (ffi_sound C l i rep). Qed.
Print Assumptions C75_reports_are_results.
(** Each request is made once and takes at most one answer. *)
Theorem C75_answers_once : forall C l i n, let ob := snd (acts C l []) in
  List.length (reports_of i ob) <= 1 /\ List.length (asked_at i n ob) <= 1
  /\ List.length (taken_at i n ob) <= List.length (asked_at i n ob).
Proof. intros C l i n ob. exact (ffi_once C l i n). Qed.
Print Assumptions C75_answers_once.
(** What happens to other calls makes no difference to what is observed of a call. *)
Theorem C75_calls_apart : forall C l i,
  filter (about i) (snd (acts C l [])) = filter (about i) (snd (acts C (filter (concerns_call i) l) [])).
Proof. intros C l i. exact (ffi_apart C i l [] [] eq_refl eq_refl). Qed.
Print Assumptions C75_calls_apart.

(** Two calls at the same time: the first reads a signed message, the second asks for a DID and is
    given up by the resolver.  A second answer to the first request is refused. *)
Definition two_calls : list action :=
  [ACall (FUnpack toy_signed default_unpack_options); ACall (FPackSigned toy_msg (B "did:ex:alice")); APoll 0 []; APoll 1 []; ARelease 1 0;
   AReply 0 0 (SaidDoc (Success (Some doc_alice))); AReply 0 0 (SaidDoc (Failure IoError)); APoll 1 []; APoll 1 []; APoll 0 []; APoll 0 []].
Definition kinds_of (l : list obs) : list (nat * bytes) :=
  flat_map (fun x => match x with
    | Started i _ => [(i, B "started")] | Asked i _ (OResolve d) => [(i, B "asked " ++ d)] | Asked i _ _ => [(i, B "asked")]
    | Taken i _ _ => [(i, B "taken")] | Refused i _ _ => [(i, B "refused")] | Released i _ => [(i, B "released")]
    | Reported i (Success (GotMessage m _)) => [(i, msg_id m)] | Reported i (Success _) => [(i, B "success")]
    | Reported i (Failure k) => [(i, js_name k)] end) l.
Example C75_case : kinds_of (snd (acts toy two_calls [])) =
  [(0, B "started"); (1, B "started"); (0, B "asked did:ex:alice"); (1, B "asked did:ex:alice"); (1, B "released");
   (0, B "taken"); (0, B "refused"); (1, B "DIDCommInvalidState"); (0, B "id-1")].
Proof. vm_compute. reflexivity. Qed.

(** C76.  Every call gets its report once its requests are answered or given up.  That is false:
    wrap_in_forward without routing keys panics, and its callback is never called. *)
Theorem C76_always_reports_refuted : exists C c, forall l i, let ob := snd (acts C l []) in
  started_as i ob = [c] -> reports_of i ob = [] /\ forall n, asked_at i n ob = [].
Proof.
  exists toy, (FWrapInForward (B "{}") [] (B "did:ex:bob") [] AnonXc20p). intros l i ob S.
  split.
  - destruct (reports_of i ob) as [|rep r] eqn:E; auto. exfalso. destruct (ffi_sound toy l i rep) as (c & tr & Sc & _ & _ & R); [fold ob; rewrite E; now left|].
    fold ob in Sc. rewrite S in Sc. injection Sc as <-. destruct R as (x & X & Y). cbn in X. destruct X as [_ ->]. exact Y.
  - intros n. destruct (sys_reached toy l) as [S1 S2]. fold ob in S1, S2. destruct (nth_error (fst (acts toy l [])) i) as [t|] eqn:N.
    + destruct (S1 i t N) as (c & Sc & tr & q & L & An & As & _ & Ph). rewrite S in Sc. injection Sc as <-. cbn in L.
      destruct tr as [|[o r] tr]; [|destruct L as (k & L & _); discriminate L]. cbn in L. subst q. cbn in As.
      destruct (tk_phase t) as [p|o cb k|]; [| |]; rewrite <- As in Ph.
      * destruct Ph as (_ & U & _). apply U. lia.
      * destruct Ph as (E & _). discriminate E.
      * destruct Ph as (U & _). apply U. lia.
    + apply nth_error_None in N. destruct (other_unseen i ob) as (O1 & _ & _). { intros x I. eauto. } apply O1.
Qed.
Print Assumptions C76_always_reports_refuted.
(** Missing below: calls that panic. *)
Theorem C76_always_reports_partial : forall C l i c rs, started_as i (snd (acts C l [])) = [c] ->
  exists n, let ob := snd (acts C (l ++ polls i rs n) []) in
    reports_of i ob <> [] \/ outstanding ob i \/ exists tr, answered ob i 0 tr /\ crashes C c tr.
Proof. exact ffi_progress. Qed.
Print Assumptions C76_always_reports_partial.
Example C76_case :
  started_as 0 (snd (acts toy two_calls [])) = [FUnpack toy_signed default_unpack_options]
  /\ List.length (reports_of 0 (snd (acts toy two_calls []))) = 1
  /\ reports_of 0 (snd (acts toy [ACall (FWrapInForward (B "{}") [] (B "did:ex:bob") [] AnonXc20p); APoll 0 []; APoll 0 []] [])) = []
  /\ kinds_of (snd (acts toy [ACall (FWrapInForward (B "{}") [] (B "did:ex:bob") [B "did:ex:med1#x"] AnonXc20p); APoll 0 []; APoll 0 []] []))
     = [(0, B "started"); (0, B "asked did:ex:med1")].
Proof. vm_compute. auto. Qed.
