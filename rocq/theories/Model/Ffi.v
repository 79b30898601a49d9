(** The functions that other languages call through uniffi, the callbacks by which
    their resolvers answer, and the tasks in between. *)
From Verif.Model Require Import Prelude Json DidDoc Crypto Effects Message FromPrior Pack Routing Unpack Bindings.

(** The methods of DIDComm with their arguments (uniffi/src/didcomm/pack_plaintext.rs:14-28,
    pack_signed.rs:15-38, pack_encrypted.rs:15-48, unpack.rs:14-35, from_prior.rs:20-60,
    protocols/routing/mod.rs:17-51).  The callback argument is represented by the number of
    the call. *)
Inductive ffi_call :=
| FPackPlaintext (m : message)
| FPackSigned (m : message) (sign_by : bytes)
| FPackEncrypted (m : message) (to : bytes) (from sign_by : option bytes) (o : pack_options)
| FUnpack (msg : bytes) (o : unpack_options)
| FPackPrior (p : from_prior) (issuer_kid : option bytes)
| FUnpackPrior (jwt : bytes)
| FWrapInForward (msg : bytes) (headers : list (bytes * value)) (to : bytes) (routing_keys : list bytes) (alg : anon_alg).

(** The arguments of the [success] methods: OnPackPlaintextResult and
    OnWrapInForwardResult; OnPackSignedResult and OnFromPriorPackResult; OnPackEncryptedResult;
    OnUnpackResult; OnFromPriorUnpackResult (the files above, lines 8-17). *)
Inductive outcome :=
| GotText (t : bytes)
| GotKeyed (t kid : bytes)
| GotPacked (t : bytes) (md : pack_metadata)
| GotMessage (m : message) (md : unpack_metadata)
| GotPrior (p : from_prior) (kid : bytes).

Section Calls.
Context (C : crypto).
(** The arguments of [success] for a result (e.g. uniffi/src/didcomm/unpack.rs:27-32). *)
Definition got {A} (f : A -> outcome) (m : prog (res A)) : prog (option (res outcome)) :=
  bind m (fun r => Ret (Some (match r with Ok a => Ok (f a) | Err k => Err k | Panic => Panic end))).
(** The future built by each method (uniffi/src/didcomm/pack_plaintext.rs:18,
    pack_signed.rs:25-28, pack_encrypted.rs:29-39, unpack.rs:25-26, from_prior.rs:30-33, 51,
    protocols/routing/mod.rs:31-41).  The loop of unpack is given as many rounds as the text
    has bytes, and one more; [None] is the case that they do not suffice. *)
Definition ffi_prog (c : ffi_call) : prog (option (res outcome)) :=
  match c with
  | FPackPlaintext m => got GotText (pack_plaintext C m)
  | FPackSigned m s => got (fun x => GotKeyed (fst x) (snd x)) (pack_signed C m s)
  | FPackEncrypted m to from s o => got (fun x => GotPacked (fst x) (snd x)) (pack_encrypted C m to from s o)
  | FUnpack t o =>
      bind (unpack C (S (List.length t)) t o)
        (fun x => match x with Some r => got (fun x => GotMessage (fst x) (snd x)) (Ret r) | None => Ret None end)
  | FPackPrior p k => got (fun x => GotKeyed (fst x) (snd x)) (from_prior_pack C p k)
  | FUnpackPrior t => got (fun x => GotPrior (fst x) (snd x)) (from_prior_unpack C t)
  | FWrapInForward t h to ks a => got GotText (wrap_in_forward C t (Some h) to ks a)
  end.
End Calls.

(** What a resolver callback receives: OnDIDResolverResult (uniffi/src/did/did_resolver.rs:21),
    OnFindSecretsResult and OnGetSecretResult (uniffi/src/secrets/secrets_resolver.rs:34-35). *)
Definition payload (o : op) : Type :=
  match o with
  | OResolve _ => option diddoc
  | OFindSecrets _ => list bytes
  | OGetSecret _ => option secret
  | ORandom _ => unit
  end.
(** The answer that the library sees (uniffi/src/did/did_resolver_adapter.rs:24-34,
    uniffi/src/secrets/secrets_resolver_adapter.rs:23-52). *)
Definition adapt (o : op) : res (payload o) -> resp o :=
  match o with
  | OResolve _ => fun v => ffi_resolve v
  | OFindSecrets ids => fun v => ffi_find_secrets ids v
  | OGetSecret _ => fun v => ffi_get_secret v
  | ORandom _ => fun _ => []
  end.

(** A call of [success] or [error] on a resolver callback (uniffi/src/common.rs:60-88). *)
Inductive answer :=
| SaidDoc (r : report (option diddoc))
| SaidIds (r : report (list bytes))
| SaidSecret (r : report (option secret)).
(** What is sent through the channel (uniffi/src/common.rs:66-70, 80-84). *)
Definition sent {A} (r : report A) : res A := match r with Success a => Ok a | Failure k => Err k end.
(** The types of uniffi/src/didcomm.udl make the other cases impossible. *)
Definition fitting (o : op) (a : answer) : option (res (payload o)) :=
  match o, a with
  | OResolve _, SaidDoc r => Some (sent r)
  | OFindSecrets _, SaidIds r => Some (sent r)
  | OGetSecret _, SaidSecret r => Some (sent r)
  | _, _ => None
  end.

(** A spawned task (e.g. uniffi/src/didcomm/unpack.rs:25-32): it can go on, it awaits the
    result of a callback, or it has ended. *)
Inductive phase :=
| Ready (p : prog (option (res outcome)))
| Waiting (o : op) (cb : cb_state (payload o)) (k : resp o -> prog (option (res outcome)))
| Ended.
(** A callback object whose result is no longer awaited (uniffi/src/common.rs:51-58). *)
Inductive spent := Spent (o : op) (cb : cb_state (payload o)).
(** A task and the callback objects it has handed out before, in order (uniffi/src/common.rs:51-58). *)
Record task := mkTask { tk_phase : phase; tk_spent : list spent }.

(** What can happen: a method is called; the executor lets a task go on (with the random bytes
    for the case that it wants some); the other side answers, or lets go of, the n-th callback it
    got from a task (uniffi/src/common.rs:17-23, 60-88). *)
Inductive action :=
| ACall (c : ffi_call)
| APoll (i : nat) (r : bytes)
| AReply (i n : nat) (a : answer)
| ARelease (i n : nat).
(** What can be seen from the other side: a method returned ErrorCode::Success; a resolver was
    called, with its n-th callback; an answer was taken (the method returned Ok) or refused; the
    result of a call was reported (uniffi/src/didcomm/unpack.rs:27-34, uniffi/src/common.rs:60-88). *)
Inductive obs :=
| Started (i : nat) (c : ffi_call)
| Asked (i n : nat) (o : op)
| Taken (i n : nat) (a : answer)
| Refused (i n : nat) (a : answer)
| Released (i n : nat)
| Reported (i : nat) (r : report outcome).

(** A task goes on by one step (the futures of uniffi/src/didcomm/*.rs, the adapters, and
    uniffi/src/common.rs:43-49).  A real poll makes several of these steps; the return code of the
    foreign resolver is ignored, as in the code. *)
Definition poll (i : nat) (r : bytes) (t : task) : task * list obs :=
  match tk_phase t with
  | Ready (Ret x) =>
      (mkTask Ended (tk_spent t), match x with Some x => map (Reported i) (reports x) | None => [] end)
  | Ready (Do (ORandom u) k) => (mkTask (Ready (k r)) (tk_spent t), [])
  | Ready (Do o k) => (mkTask (Waiting o cb_new k) (tk_spent t), [Asked i (List.length (tk_spent t)) o])
  | Waiting o cb k =>
      match cb_get cb with
      | Some v => (mkTask (Ready (k (adapt o v))) (tk_spent t ++ [Spent o (cb_cancel cb)]), [])
      | None => (t, [])
      end
  | Ended => (t, [])
  end.

(** uniffi/src/common.rs:60-88 on one callback. *)
Definition say {o} (a : answer) (cb : cb_state (payload o)) : option (res unit * cb_state (payload o)) :=
  match fitting o a with Some v => Some (cb_call v cb) | None => None end.
(** Replace the n-th element (bookkeeping of the model; no counterpart in uniffi/src). *)
Fixpoint put {A} (n : nat) (x : A) (l : list A) : list A :=
  match l, n with
  | [], _ => []
  | _ :: l, O => x :: l
  | y :: l, S n => y :: put n x l
  end.
(** Was the call taken (uniffi/src/common.rs:60-88)? *)
Definition told (i n : nat) (a : answer) (r : res unit) : list obs :=
  [match r with Ok _ => Taken i n a | _ => Refused i n a end].
(** uniffi/src/common.rs:60-88 on the n-th callback of a task. *)
Definition reply (i n : nat) (a : answer) (t : task) : task * list obs :=
  match nth_error (tk_spent t) n with
  | Some (Spent o cb) =>
      match say a cb with
      | Some (r, cb) => (mkTask (tk_phase t) (put n (Spent o cb) (tk_spent t)), told i n a r)
      | None => (t, [])
      end
  | None =>
      if n =? List.length (tk_spent t) then
        match tk_phase t with
        | Waiting o cb k =>
            match say a cb with
            | Some (r, cb) => (mkTask (Waiting o cb k) (tk_spent t), told i n a r)
            | None => (t, [])
            end
        | _ => (t, [])
        end
      else (t, [])
  end.
(** The other side drops its last reference to the n-th callback (the Arc of
    uniffi/src/common.rs:51-58). *)
Definition release (i n : nat) (t : task) : task * list obs :=
  match nth_error (tk_spent t) n with
  | Some (Spent o cb) => (mkTask (tk_phase t) (put n (Spent o (cb_drop cb)) (tk_spent t)), [Released i n])
  | None =>
      if n =? List.length (tk_spent t) then
        match tk_phase t with
        | Waiting o cb k => (mkTask (Waiting o (cb_drop cb) k) (tk_spent t), [Released i n])
        | _ => (t, [])
        end
      else (t, [])
  end.

Section System.
Context (C : crypto).
(** One action on the tasks, numbered by the calls (EXECUTOR, uniffi/src/common.rs:17-23). *)
Definition on_task (i : nat) (f : task -> task * list obs) (l : list task) : list task * list obs :=
  match nth_error l i with
  | Some t => let (t, ob) := f t in (put i t l, ob)
  | None => (l, [])
  end.
(** One action (EXECUTOR.spawn_ok and the rest of uniffi/src/didcomm/*.rs). *)
Definition act (a : action) (l : list task) : list task * list obs :=
  match a with
  | ACall c => (l ++ [mkTask (Ready (ffi_prog C c)) []], [Started (List.length l) c])
  | APoll i r => on_task i (poll i r) l
  | AReply i n a => on_task i (reply i n a) l
  | ARelease i n => on_task i (release i n) l
  end.
(** All observations of a sequence of actions (uniffi/src/common.rs, uniffi/src/didcomm/*.rs). *)
Fixpoint acts (l : list action) (s : list task) : list task * list obs :=
  match l with
  | [] => (s, [])
  | a :: l => let (s, o1) := act a s in let (s, o2) := acts l s in (s, o1 ++ o2)
  end.
End System.
