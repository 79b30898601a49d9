(** Specification of the two text codecs, written from the RFCs and not from the
    model: base64url without padding (RFC 4648 section 5) and JSON numbers and
    values (RFC 8259, with the ranges of [serde_json::Number]). *)
From Verif.Model Require Import Prelude Utf8 Json.

(** ** base64url *)

(** The eight bits of a byte, most significant first. *)
Definition bits_of (c : ascii) : list bool :=
  let '(Ascii b0 b1 b2 b3 b4 b5 b6 b7) := c in [b7; b6; b5; b4; b3; b2; b1; b0].
Definition bits_value (l : list bool) : nat := fold_left (fun n (b : bool) => 2 * n + (if b then 1 else 0)) l 0.
Definition alphabet64 : bytes := B "ABCDEFGHIJKLMNOPQRSTUVWXYZabcdefghijklmnopqrstuvwxyz0123456789-_".

(** [sextets bits gs]: [gs] are the consecutive groups of six bits of [bits], the
    last one filled up with zeros. *)
Inductive sextets : list bool -> list (list bool) -> Prop :=
| sx_nil : sextets [] []
| sx_last l z : 0 < List.length l < 6 -> z = repeat false (6 - List.length l) -> sextets l [l ++ z]
| sx_cons g l gs : List.length g = 6 -> sextets l gs -> sextets (g ++ l) (g :: gs).

(** [is_base64url s t]: the text [t] is the encoding of the bytes [s]. *)
Definition is_base64url (s t : bytes) : Prop :=
  exists gs, sextets (flat_map bits_of s) gs
             /\ t = map (fun g => nth (bits_value g) alphabet64 " "%char) gs.

(** ** JSON *)

Definition digit09 (c : ascii) : Prop := In c (B "0123456789").
Definition digits1 (s : bytes) : Prop := s <> [] /\ Forall digit09 s.
Definition json_int (s : bytes) : Prop :=
  s = B "0" \/ exists c t, s = c :: t /\ In c (B "123456789") /\ Forall digit09 t.
Definition json_frac (s : bytes) : Prop := s = [] \/ exists d, s = "."%char :: d /\ digits1 d.
Definition json_exp (s : bytes) : Prop :=
  s = [] \/ exists c sg d, s = c :: sg ++ d /\ In c (B "eE") /\ (sg = [] \/ sg = B "+" \/ sg = B "-") /\ digits1 d.
(** A JSON number that is not an integer literal. *)
Definition float_lexeme (s : bytes) : Prop :=
  exists ng i f e, s = ng ++ i ++ f ++ e /\ (ng = [] \/ ng = B "-") /\ json_int i /\ json_frac f /\ json_exp e
                   /\ (f <> [] \/ e <> []).

Section Values.
(** Conversion of a number text to the text of the nearest f64. *)
Variable fparse : bytes -> option bytes.

(** Numbers of [serde_json::Number]: u64, negative i64, or a float whose printed
    form is read back as the same float. *)
Definition json_number (n : number) : Prop :=
  match n with
  | PosInt n => (n < 2 ^ 64)%N
  | NegInt n => (0 < n <= 2 ^ 63)%N
  | Float l => float_lexeme l /\ fparse l = Some l
  end.

(** The float conversion only produces texts that it reads back unchanged. *)
Definition floats_stable : Prop := forall t l, fparse t = Some l -> json_number (Float l).

(** Strictly increasing names: the order of [BTreeMap<String, Value>]. *)
Inductive sorted_names : list bytes -> Prop :=
| sn_nil : sorted_names []
| sn_one k : sorted_names [k]
| sn_cons k k' l : bcmp k k' = Lt -> sorted_names (k' :: l) -> sorted_names (k :: k' :: l).

(** [json_value d v]: [v] is a [serde_json::Value] whose containers are nested at
    most [d] deep. *)
Inductive json_value : nat -> value -> Prop :=
| jv_null d : json_value d VNull
| jv_bool d b : json_value d (VBool b)
| jv_num d n : json_number n -> json_value d (VNum n)
| jv_str d s : utf8 s = true -> json_value d (VStr s)
| jv_arr d l : (forall x, In x l -> json_value d x) -> json_value (S d) (VArr l)
| jv_obj d l : sorted_names (map fst l) ->
    (forall k x, In (k, x) l -> utf8 k = true /\ json_value d x) -> json_value (S d) (VObj l).
End Values.
