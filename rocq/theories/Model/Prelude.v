(** Byte strings, results and list utilities used by every model file. *)
From Coq Require Export List Ascii String NArith ZArith Bool Lia Arith.
Export ListNotations.
Open Scope list_scope.
Open Scope bool_scope.

(** Rust [&str], [String], [Vec<u8>] and [&[u8]]: a list of bytes.  A Rust
    string is additionally valid UTF-8; that invariant is [utf8] in Utf8.v.
    (Every string of src/.) *)
Definition bytes := list ascii.

(** Byte-string literals of the source code.
    (e.g. src/protocols/routing/mod.rs:19.) *)
Definition B (s : string) : bytes := list_ascii_of_string s.
Arguments B s%string.

(** src/error.rs:6-34: [ErrorKind]. *)
Inductive errkind :=
| DIDNotResolved | DIDUrlNotFound | SecretNotFound | Malformed | IoError
| InvalidState | NoCompatibleCrypto | Unsupported | IllegalArgument.

(** src/error.rs:36-69: [Result<T, Error>].  Only the kind of an error is
    modelled, its message is not.  [Panic] is a Rust panic (slice out of range,
    [Vec::remove] on an empty vector, [unwrap] on [None]...). *)
Inductive res (A : Type) :=
| Ok (a : A)
| Err (k : errkind)
| Panic.
Arguments Ok {A} a.
Arguments Err {A} k.
Arguments Panic {A}.

(** The [?] operator.
    (On the Result of src/error.rs:69.) *)
Definition rbind {A B} (r : res A) (f : A -> res B) : res B :=
  match r with Ok a => f a | Err k => Err k | Panic => Panic end.
Notation "'let?' x ':=' r 'in' k" := (rbind r (fun x => k))
  (at level 200, x pattern, r at level 100, k at level 200).

(** src/error.rs:71-111, [ResultExt::kind] / [.kind(k, msg)] and [kind_no_context]: replaces the kind. *)
Definition kind {A} (k : errkind) (r : res A) : res A :=
  match r with Ok a => Ok a | Err _ => Err k | Panic => Panic end.

(** src/error.rs:119-133: [.context(msg)] keeps the kind and is the identity here.

    [Option::ok_or_else] / [err_msg] on the result of an external library call. *)
Definition ok_or {A} (k : errkind) (o : option A) : res A :=
  match o with Some a => Ok a | None => Err k end.

(** [Result::is_ok], on the Result of src/error.rs:69. *)
Definition is_ok {A} (r : res A) : bool := match r with Ok _ => true | _ => false end.
(** [Option::is_some], e.g. src/message/pack_encrypted/mod.rs. *)
Definition is_some {A} (o : option A) : bool := match o with Some _ => true | None => false end.

(** Byte equality: [==] on [&str] and [&[u8]].
    (e.g. src/utils/did.rs:20.) *)
Fixpoint beq (a b : bytes) : bool :=
  match a, b with
  | [], [] => true
  | x :: a', y :: b' => Ascii.eqb x y && beq a' b'
  | _, _ => false
  end.

(** [==] on [Option<&str>] and [Option<&[u8]>], src/jwe/decrypt.rs. *)
Definition beq_opt (a b : option bytes) : bool :=
  match a, b with
  | None, None => true
  | Some x, Some y => beq x y
  | _, _ => false
  end.

(** [Ord] on [&str]: lexicographic comparison of bytes.
    (src/jwe/encrypt.rs:42.) *)
Fixpoint bcmp (a b : bytes) : comparison :=
  match a, b with
  | [], [] => Eq
  | [], _ :: _ => Lt
  | _ :: _, [] => Gt
  | x :: a', y :: b' =>
      match N.compare (N_of_ascii x) (N_of_ascii y) with
      | Eq => bcmp a' b'
      | c => c
      end
  end.

(** [<=] on [&str] (src/jwe/encrypt.rs:42). *)
Definition ble (a b : bytes) : bool := match bcmp a b with Gt => false | _ => true end.
(** [<] on [&str] (order of a BTreeMap<String, Value>, serde_json). *)
Definition blt (a b : bytes) : bool := match bcmp a b with Lt => true | _ => false end.

(** [Vec::sort] on [&str] (stable sort; modelled by insertion sort).
    (src/jwe/encrypt.rs:42, src/jwe/parse.rs.) *)
Fixpoint insert_sorted (x : bytes) (l : list bytes) : list bytes :=
  match l with
  | [] => [x]
  | y :: l' => if ble x y then x :: l else y :: insert_sorted x l'
  end.
(** [Vec::sort] (src/jwe/encrypt.rs:42, src/jwe/parse.rs). *)
Fixpoint sort (l : list bytes) : list bytes :=
  match l with [] => [] | x :: l' => insert_sorted x (sort l') end.

(** [[&str]::join(sep)].
    (src/jwe/encrypt.rs:43.) *)
Fixpoint join (sep : bytes) (l : list bytes) : bytes :=
  match l with
  | [] => []
  | [x] => x
  | x :: l' => x ++ sep ++ join sep l'
  end.

(** [str::split(c)] for an ASCII character [c]: always at least one piece.
    (src/utils/did.rs:19, src/jws/parse.rs:65.) *)
Fixpoint split (c : ascii) (s : bytes) : list bytes :=
  match s with
  | [] => [[]]
  | x :: s' =>
      if Ascii.eqb x c then [] :: split c s'
      else match split c s' with
           | p :: ps => (x :: p) :: ps
           | [] => [[x]]
           end
  end.

(** [str::split_once(c)].
    (src/utils/did.rs:26.) *)
Fixpoint split_once (c : ascii) (s : bytes) : option (bytes * bytes) :=
  match s with
  | [] => None
  | x :: s' =>
      if Ascii.eqb x c then Some ([], s')
      else match split_once c s' with
           | Some (a, b) => Some (x :: a, b)
           | None => None
           end
  end.

(** [Iterator::find].
    (e.g. src/message/pack_encrypted/anoncrypt.rs:61.) *)
Fixpoint find_first {A} (f : A -> bool) (l : list A) : option A :=
  match l with
  | [] => None
  | x :: l' => if f x then Some x else find_first f l'
  end.

(** [HashMap::insert] and [HashMap::get] on association lists; the list order
    stands for the (unspecified) iteration order of the map.
    (extra_headers of src/message/message.rs:8-75, 172-175.) *)
Fixpoint amap_insert {V} (k : bytes) (v : V) (m : list (bytes * V)) : list (bytes * V) :=
  match m with
  | [] => [(k, v)]
  | (k', v') :: m' => if beq k k' then (k, v) :: m' else (k', v') :: amap_insert k v m'
  end.
(** [HashMap::get] and indexing of a [Value] (src/utils/did.rs:40). *)
Fixpoint amap_get {V} (k : bytes) (m : list (bytes * V)) : option V :=
  match m with
  | [] => None
  | (k', v) :: m' => if beq k k' then Some v else amap_get k m'
  end.

(** [[&str]::contains] and friends.
    (e.g. src/protocols/routing/mod.rs:48-60.) *)
Definition bmem (x : bytes) (l : list bytes) : bool := existsb (beq x) l.

(** Early-return map over a list ([collect::<Result<Vec<_>>>]).
    (e.g. src/message/pack_encrypted/anoncrypt.rs:70.) *)
Fixpoint rmap {A B} (f : A -> res B) (l : list A) : res (list B) :=
  match l with
  | [] => Ok []
  | x :: l' => let? y := f x in let? ys := rmap f l' in Ok (y :: ys)
  end.
