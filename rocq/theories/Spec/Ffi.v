(** What callers of the uniffi functions can rely on, in terms of what they observe. *)
From Verif.Model Require Import Prelude Json DidDoc Crypto Effects Message FromPrior Pack Routing Unpack Bindings Ffi.
From Verif.Spec Require Import Small Packing.

(** ** Reading a list of observations *)
Definition asked_at (i n : nat) (l : list obs) : list op :=
  flat_map (fun x => match x with Asked j m o => if (j =? i) && (m =? n) then [o] else [] | _ => [] end) l.
Definition taken_at (i n : nat) (l : list obs) : list answer :=
  flat_map (fun x => match x with Taken j m a => if (j =? i) && (m =? n) then [a] else [] | _ => [] end) l.
Definition released_at (i n : nat) (l : list obs) : list unit :=
  flat_map (fun x => match x with Released j m => if (j =? i) && (m =? n) then [tt] else [] | _ => [] end) l.
Definition reports_of (i : nat) (l : list obs) : list (report outcome) :=
  flat_map (fun x => match x with Reported j r => if j =? i then [r] else [] | _ => [] end) l.
Definition started_as (i : nat) (l : list obs) : list ffi_call :=
  flat_map (fun x => match x with Started j c => if j =? i then [c] else [] | _ => [] end) l.

(** ** What the library gets to see *)
(** The answer [a] of the other side reaches the library as [r]: only the requested ids, and no
    error kind but InvalidState. *)
Definition delivers (o : op) (a : answer) : resp o -> Prop :=
  match o, a with
  | OResolve _, SaidDoc (Success d) => fun r => r = Ok d
  | OResolve _, SaidDoc (Failure _) => fun r => r = Err InvalidState
  | OFindSecrets ids, SaidIds (Success l) => fun r => exists l', r = Ok l' /\ picked (fun x => In x l) ids l'
  | OFindSecrets _, SaidIds (Failure _) => fun r => r = Err InvalidState
  | OGetSecret _, SaidSecret (Success s) => fun r => r = Ok s
  | OGetSecret _, SaidSecret (Failure _) => fun r => r = Err InvalidState
  | _, _ => fun _ => False
  end.
(** A request that will never be answered reaches the library as InvalidState. *)
Definition lost (o : op) : resp o -> Prop :=
  match o with
  | OResolve _ => fun r => r = Err InvalidState
  | OFindSecrets _ => fun r => r = Err InvalidState
  | OGetSecret _ => fun r => r = Err InvalidState
  | ORandom _ => fun _ => False
  end.
(** [tr] is what the library asked for call [i] from its [n]-th request on, with the answers that
    were taken from the other side. *)
Inductive answered (l : list obs) (i : nat) : nat -> list event -> Prop :=
| an_nil n : answered l i n []
| an_random n u r tr : answered l i n tr -> answered l i n (Ev (ORandom u) r :: tr)
| an_taken n o a r tr :
    asked_at i n l = [o] -> taken_at i n l = [a] -> delivers o a r -> answered l i (S n) tr -> answered l i n (Ev o r :: tr)
| an_lost n o r tr :
    asked_at i n l = [o] -> taken_at i n l = [] -> released_at i n l <> [] -> lost o r -> answered l i (S n) tr ->
    answered l i n (Ev o r :: tr).

(** ** What the library returns *)
Definition says {A} (f : A -> outcome) (r : res A) (rep : report outcome) : Prop :=
  match r, rep with
  | Ok a, Success x => x = f a
  | Err k, Failure k' => k' = k
  | _, _ => False
  end.
Section Returns.
Context (C : crypto).
(** The library function behind the call returns what is reported. *)
Definition returns (c : ffi_call) (tr : list event) (rep : report outcome) : Prop :=
  match c with
  | FPackPlaintext m => exists r, exec (pack_plaintext C m) tr r /\ says GotText r rep
  | FPackSigned m s => exists r, exec (pack_signed C m s) tr r /\ says (fun x => GotKeyed (fst x) (snd x)) r rep
  | FPackEncrypted m to from s o =>
      exists r, exec (pack_encrypted C m to from s o) tr r /\ says (fun x => GotPacked (fst x) (snd x)) r rep
  | FUnpack t o =>
      exists r, exec (unpack C (S (List.length t)) t o) tr (Some r) /\ says (fun x => GotMessage (fst x) (snd x)) r rep
  | FPackPrior p k => exists r, exec (from_prior_pack C p k) tr r /\ says (fun x => GotKeyed (fst x) (snd x)) r rep
  | FUnpackPrior t => exists r, exec (from_prior_unpack C t) tr r /\ says (fun x => GotPrior (fst x) (snd x)) r rep
  | FWrapInForward t h to ks a => exists r, exec (wrap_in_forward C t (Some h) to ks a) tr r /\ says GotText r rep
  end.
(** It panics (or, for unpack, needs more rounds than the text has bytes). *)
Definition crashes (c : ffi_call) (tr : list event) : Prop :=
  match c with
  | FPackPlaintext m => exec (pack_plaintext C m) tr Panic
  | FPackSigned m s => exec (pack_signed C m s) tr Panic
  | FPackEncrypted m to from s o => exec (pack_encrypted C m to from s o) tr Panic
  | FUnpack t o => exec (unpack C (S (List.length t)) t o) tr (Some Panic) \/ exec (unpack C (S (List.length t)) t o) tr None
  | FPackPrior p k => exec (from_prior_pack C p k) tr Panic
  | FUnpackPrior t => exec (from_prior_unpack C t) tr Panic
  | FWrapInForward t h to ks a => exec (wrap_in_forward C t (Some h) to ks a) tr Panic
  end.
End Returns.

(** A request of call [i] is neither answered nor given up. *)
Definition outstanding (l : list obs) (i : nat) : Prop :=
  exists n o, asked_at i n l = [o] /\ taken_at i n l = [] /\ released_at i n l = [].

(** ** Which actions matter to a call *)
Definition about (i : nat) (x : obs) : bool :=
  match x with
  | Started j _ | Asked j _ _ | Taken j _ _ | Refused j _ _ | Released j _ | Reported j _ => j =? i
  end.
Definition concerns_call (i : nat) (a : action) : bool :=
  match a with ACall _ => true | APoll j _ | AReply j _ _ | ARelease j _ => j =? i end.

(** The executor lets call [i] go on [n] times; [rs] is the randomness. *)
Fixpoint polls (i : nat) (rs : nat -> bytes) (n : nat) : list action :=
  match n with O => [] | S n => APoll i (rs O) :: polls i (fun k => rs (S k)) n end.
