(** The behaviour of [#[derive(Deserialize)]] over serde_json: typed readers on the
    lazy tree of Json.v. *)
From Verif.Model Require Import Prelude Json.

(** A value of another type than expected: reading a scalar may first meet a
    syntax error (Deserializer::peek_invalid_type).
    (serde_json 1.0 (Cargo.toml:39); e.g. src/jwe/envelope.rs:12.) *)
Definition mismatch {A} (r : raw) : res A :=
  match r with
  | RErr rd _ => Err (jkind rd)
  | RStr _ (inl e) => Err (jkind e)
  | _ => Err Malformed
  end.

(** [String], [Cow<str>] (without #[serde(borrow)]). *)
Definition de_string (r : raw) : res bytes :=
  match r with RStr _ rd => rd_str rd | _ => mismatch r end.

(** [&'a str]: cannot be borrowed when the text contains an escape.
    (serde 1.0 (Cargo.toml:46-48); e.g. src/jwe/envelope.rs:12.) *)
Definition de_borrowed (r : raw) : res bytes :=
  match r with
  | RStr true (inr _) => Err Malformed
  | RStr _ rd => rd_str rd
  | _ => mismatch r
  end.

(** [Option<T>]
    (serde 1.0 (Cargo.toml:46-48); e.g. src/jwe/envelope.rs:45.) *)
Definition de_option {A} (f : raw -> res A) (r : raw) : res (option A) :=
  match r with
  | RNull => Ok None
  | _ => let? a := f r in Ok (Some a)
  end.

(** [u64]
    (serde_json 1.0 (Cargo.toml:39); e.g. src/message/from_prior/mod.rs:18.) *)
Definition de_u64 (fparse : bytes -> option bytes) (r : raw) : res N :=
  match r with
  | RNum neg i fe =>
      match num_of fparse neg i fe with
      | Ok (PosInt n) => Ok n
      | _ => Err Malformed
      end
  | _ => mismatch r
  end.

(** [bool]
    (serde_json 1.0 (Cargo.toml:39); e.g. src/message/unpack/mod.rs:157-169.) *)
Definition de_bool (r : raw) : res bool :=
  match r with RBool b => Ok b | _ => mismatch r end.

(** serde_json 1.0 (Cargo.toml:39) de.rs, the closing bracket of a container. *)
Definition close {A} (tl : option jerr) (a : A) : res A :=
  match tl with None => Ok a | Some e => Err (jkind e) end.

(** [Vec<T>]
    (serde 1.0 (Cargo.toml:46-48); e.g. src/jwe/envelope.rs:15.) *)
Definition de_vec {A} (f : raw -> res A) (r : raw) : res (list A) :=
  match r with
  | RArr l tl => let? xs := rmap f l in close tl xs
  | _ => mismatch r
  end.

(** visit_map: [step] handles one member, in document order.
    (serde 1.0 (Cargo.toml:46-48), derived Deserialize, e.g. of src/jwe/envelope.rs:8-25.) *)
Fixpoint walk {S} (step : S -> bytes -> raw -> res S) (s : S)
  (l : list ((jerr + bytes) * raw)) (tl : option jerr) : res S :=
  match l with
  | [] => close tl s
  | (k, v) :: l' => let? k := rd_str k in let? s := step s k v in walk step s l' tl
  end.

(** A member that was already present is "duplicate field"; otherwise decode it.
    (serde 1.0 (Cargo.toml:46-48), derived Deserialize, e.g. of src/jwe/envelope.rs:8-25.) *)
Definition once {A} (cur : option A) (f : raw -> res A) (v : raw) : res (option A) :=
  match cur with
  | Some _ => Err Malformed
  | None => let? a := f v in Ok (Some a)
  end.

(** "missing field"
    (serde 1.0 (Cargo.toml:46-48), derived Deserialize, e.g. of src/jwe/envelope.rs:8-25.) *)
Definition need {A} (o : option A) : res A := ok_or Malformed o.
(** A missing [Option<T>] field is [None].
    (serde 1.0 (Cargo.toml:46-48), derived Deserialize, e.g. of src/jwe/envelope.rs:45.) *)
Definition flat {A} (o : option (option A)) : option A :=
  match o with Some x => x | None => None end.

(** visit_seq: structs without flattened fields also decode from an array with
    exactly their fields in order.  [elem] takes the next element.
    (serde 1.0 (Cargo.toml:46-48), derived Deserialize, e.g. of src/jwe/envelope.rs:8-25.) *)
Definition elem {A} (f : raw -> res A) (l : list raw) (tl : option jerr) : res (A * list raw) :=
  match l with
  | x :: l' => let? a := f x in Ok (a, l')
  | [] => match tl with None => Err Malformed | Some e => Err (jkind e) end
  end.
(** Deserializer::end_seq after the last field.
    (serde_json 1.0 (Cargo.toml:39); e.g. src/jwe/envelope.rs:8-25.) *)
Definition end_seq (l : list raw) (tl : option jerr) : res unit :=
  match l with
  | _ :: _ => Err Malformed
  | [] => close tl tt
  end.

(** Serialisation of optional members with skip_serializing_if.
    (e.g. src/jwe/envelope.rs:44-49.) *)
Definition opt_member {A} (k : string) (f : A -> value) (o : option A) : list (bytes * value) :=
  match o with Some a => [(B k, f a)] | None => [] end.
