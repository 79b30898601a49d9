(** Calls running side by side, and resolvers that fail. *)
From Verif.Model Require Import Prelude DidDoc Crypto Effects.

(** ** Several calls at once *)
Section Conc.
(** The result type of the i-th call; there may be any number of them. *)
Context (X : nat -> Type).

Inductive task (T : Type) := Live (m : prog T) | Gone.
Arguments Live {T}. Arguments Gone {T}.
Definition pool := forall i : nat, task (X i).

(** One thing that happens: the request [o] of the i-th call is answered with [r], or
    the i-th call is dropped. *)
Inductive action := Answer (i : nat) (o : op) (r : resp o) | Drop (i : nat).
Definition of_task (a : action) : nat := match a with Answer i _ _ => i | Drop i => i end.

Inductive steps : pool -> list action -> pool -> Prop :=
| steps_done p p' : (forall i, p' i = p i) -> steps p [] p'
| steps_answer p i o k r q acts p' : p i = Live (Do o k) -> q i = Live (k r) -> (forall j, j <> i -> q j = p j) ->
    steps q acts p' -> steps p (Answer i o r :: acts) p'
| steps_drop p i q acts p' : q i = Gone -> (forall j, j <> i -> q j = p j) ->
    steps q acts p' -> steps p (Drop i :: acts) p'.

(** The answers given to the i-th call, in order. *)
Definition events_of (i : nat) (acts : list action) : list event :=
  flat_map (fun a => match a with Answer j o r => if Nat.eqb j i then [Ev o r] else [] | Drop _ => [] end) acts.
End Conc.
Arguments Live {T}. Arguments Gone {T}.

(** A call run alone: the resolvers answer as [h], the random generator gives [draws]. *)
Fixpoint alone {A} (h : handler) (draws : list bytes) (m : prog A) : option A :=
  match m with
  | Ret a => Some a
  | Do o k =>
      match o return (resp o -> prog A) -> (forall r : resp o, list bytes -> option A) -> option A with
      | ORandom u => fun k rec => match draws with d :: ds => rec d ds | [] => None end
      | o => fun k rec => rec (h o) draws
      end k (fun r ds => alone h ds (k r))
  end.
(** The event is an answer of [h], or a random draw. *)
Definition told (h : handler) (e : event) : Prop :=
  match e with Ev (ORandom _) _ => True | Ev o r => r = h o end.
Definition drawn (tr : list event) : list bytes :=
  flat_map (fun e => match e with Ev (ORandom _) r => [r] | _ => [] end) tr.

(** ** Failures *)
(** The resolver call failed with this kind. *)
Definition failed (e : event) (k : errkind) : Prop :=
  match e with
  | Ev (OResolve _) r => r = Err k
  | Ev (OFindSecrets _) r => r = Err k
  | Ev (OGetSecret _) r => r = Err k
  | Ev (ORandom _) _ => False
  end.
Definition did_call (e : event) : Prop := match e with Ev (OResolve _) _ => True | _ => False end.
