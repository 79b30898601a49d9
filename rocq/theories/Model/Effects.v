(** The calls a pack/unpack operation makes to the outside world.

    An [async fn] of the crate becomes a value of [prog]: either it has returned,
    or it is waiting for the answer to a request and knows how to continue for
    every possible answer.  Requests are the calls of the [DIDResolver] trait
    (src/did/did_resolver.rs), of the [SecretsResolver] trait (src/secrets/mod.rs:11-67)
    and draws from the random generator (src/jwe/encrypt.rs:37-78,
    src/protocols/routing/mod.rs, uuid). *)
From Verif.Model Require Import Prelude Json DidDoc Crypto.

(** What randomness is drawn for: content key, ephemeral key, nonce (src/jwe/encrypt.rs:37-38, 46,
    78), message id (src/protocols/routing/mod.rs:132-134). *)
Inductive rand_use := RCek (e : cenc) | REpk (a : kalg) | RNonce (e : cenc) | RUuid.

(** The requests: src/did/did_resolver.rs:22, src/secrets/mod.rs:27, 37, and the random generator
    (src/jwe/encrypt.rs:37). *)
Inductive op :=
| OResolve (did : bytes)
| OFindSecrets (ids : list bytes)
| OGetSecret (id : bytes)
| ORandom (u : rand_use).

(** Answers are arbitrary: a resolver may fail, panic, or return anything of the
    right type.  The answer to [ORandom] is entropy (for [RUuid], the text of the
    identifier).
    (src/did/did_resolver.rs:22, src/secrets/mod.rs:27, 37.) *)
Definition resp (o : op) : Type :=
  match o with
  | OResolve _ => res (option diddoc)
  | OFindSecrets _ => res (list bytes)
  | OGetSecret _ => res (option secret)
  | ORandom _ => bytes
  end.

(** An [async fn] (e.g. src/message/unpack/mod.rs: Message::unpack) as the tree of its interactions. *)
Inductive prog (A : Type) : Type :=
| Ret (a : A)
| Do (o : op) (k : resp o -> prog A).
Arguments Ret {A} a.
Arguments Do {A} o k.

(** Sequencing of [async] code ([.await], e.g. src/protocols/routing/mod.rs:28-31). *)
Fixpoint bind {A B} (m : prog A) (f : A -> prog B) : prog B :=
  match m with
  | Ret a => f a
  | Do o k => Do o (fun r => bind (k r) f)
  end.

(** [.await?]
    (e.g. src/protocols/routing/mod.rs:28-32.) *)
Definition pbind {A B} (m : prog (res A)) (f : A -> prog (res B)) : prog (res B) :=
  bind m (fun r => match r with Ok a => f a | Err k => Ret (Err k) | Panic => Ret Panic end).
Notation "'let!' x ':=' m 'in' k" := (pbind m (fun x => k))
  (at level 200, x pattern, m at level 100, k at level 200).

(** DIDResolver::resolve, src/did/did_resolver.rs:22. *)
Definition resolve (did : bytes) : prog (res (option diddoc)) := Do (OResolve did) Ret.
(** SecretsResolver::find_secrets, src/secrets/mod.rs:37. *)
Definition find_secrets (ids : list bytes) : prog (res (list bytes)) := Do (OFindSecrets ids) Ret.
(** SecretsResolver::get_secret, src/secrets/mod.rs:27. *)
Definition get_secret (id : bytes) : prog (res (option secret)) := Do (OGetSecret id) Ret.
(** A draw from the random generator (src/jwe/encrypt.rs:37, 78,
    src/protocols/routing/mod.rs:132-134). *)
Definition random (u : rand_use) : prog (res bytes) := Do (ORandom u) (fun r => Ret (Ok r)).

(** [.await.kind(k, msg)]
    (src/error.rs:77-90.) *)
Definition pkind {A} (k : errkind) (m : prog (res A)) : prog (res A) :=
  bind m (fun r => Ret (kind k r)).

(** ** Executions *)

(** A request together with its answer.
    (src/did/did_resolver.rs:22, src/secrets/mod.rs:27, 37.) *)
Inductive event := Ev (o : op) (r : resp o).

(** [exec m tr a]: [m] can run, asking and being answered as recorded in [tr], and
    return [a].
    The executor of the [async fn]s of src/ is not modelled otherwise. *)
Fixpoint exec {A} (m : prog A) (tr : list event) (a : A) : Prop :=
  match m with
  | Ret x => tr = [] /\ a = x
  | Do o k => exists r tr', tr = Ev o r :: tr' /\ exec (k r) tr' a
  end.

(** Running against resolvers that answer as functions of the request.
    (Implementations of src/did/did_resolver.rs:22 and src/secrets/mod.rs:27, 37 without
    state.) *)
Definition handler := forall o : op, resp o.
(** [exec] for such resolvers, as a function (src/did/did_resolver.rs:22, src/secrets/mod.rs:27, 37). *)
Fixpoint run (h : handler) {A} (m : prog A) : A :=
  match m with
  | Ret a => a
  | Do o k => run h (k (h o))
  end.
