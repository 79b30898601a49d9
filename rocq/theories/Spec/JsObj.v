(** JSON kept as JavaScript objects. *)
From Verif.Model Require Import Prelude Utf8 Json Message FromPrior.
From Verif.Spec Require Import Codec Small World Wire.

(** What JSON.stringify may print after JSON.parse: numbers went through a double, [jn n]
    being what is left of [n]; of repeated members the last is kept; the members are in any
    order (names that look like array indices come first). *)
Inductive js_image (jn : number -> number) : value -> value -> Prop :=
| ji_null : js_image jn VNull VNull
| ji_bool b : js_image jn (VBool b) (VBool b)
| ji_num n : js_image jn (VNum n) (VNum (jn n))
| ji_str s : js_image jn (VStr s) (VStr s)
| ji_arr l m : List.length l = List.length m ->
    (forall i x y, nth_error l i = Some x -> nth_error m i = Some y -> js_image jn x y) -> js_image jn (VArr l) (VArr m)
| ji_obj l m : NoDup (map fst m) -> (forall k, In k (map fst l) <-> In k (map fst m)) ->
    (forall k v w, last_of l k v -> In (k, w) m -> js_image jn v w) -> js_image jn (VObj l) (VObj m).

(** The number [n] occurs in a value. *)
Inductive has_number : value -> number -> Prop :=
| hn_num n : has_number (VNum n) n
| hn_arr l x n : In x l -> has_number x n -> has_number (VArr l) n
| hn_obj l k x n : In (k, x) l -> has_number x n -> has_number (VObj l) n.

(** Integers up to 2^53 in magnitude, which doubles can tell apart. *)
Definition safe_integer (n : number) : Prop :=
  match n with PosInt k => (k <= 2 ^ 53)%N | NegInt k => (k <= 2 ^ 53)%N | Float _ => False end.

(** The numbers of JavaScript (ECMAScript, Number::toString): safe integers are kept, the
    first integer above them is not told apart from its neighbour, and an integral float is
    printed as an integer. *)
Definition js_numbers (jn : number -> number) : Prop :=
  (forall n, safe_integer n -> jn n = n)
  /\ jn (PosInt (2 ^ 53 + 1)) = PosInt (2 ^ 53) /\ jn (Float (B "1.0")) = PosInt 1.

(** Every number in a message, in rotation claims, has the property [P]. *)
Section Numbers.
Context (P : number -> Prop).
Definition numbers_within (v : value) : Prop := forall n, has_number v n -> P n.
Definition number_time (n : N) : Prop := P (PosInt n).
Definition numbers_attachment (a : attachment) : Prop :=
  match att_data a with AJson v _ => numbers_within v | _ => True end
  /\ opt number_time (att_lastmod_time a) /\ opt number_time (att_byte_count a).
Definition numbers_message (m : message) : Prop :=
  numbers_within (msg_body m) /\ (forall k v, In (k, v) (msg_extra m) -> numbers_within v)
  /\ opt number_time (msg_created m) /\ opt number_time (msg_expires m)
  /\ opt (Forall numbers_attachment) (msg_attachments m).
Definition numbers_prior (p : from_prior) : Prop :=
  opt number_time (fp_exp p) /\ opt number_time (fp_nbf p) /\ opt number_time (fp_iat p).
End Numbers.
