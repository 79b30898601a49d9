(** The grammar of JSON texts (RFC 8259) and of UTF-8 (RFC 3629), written from the
    RFCs: which byte sequences are JSON, how one splits into tokens, and which value
    it denotes. *)
From Verif.Model Require Import Prelude Json.
From Verif.Spec Require Import Codec Small Names Text.

(** ** UTF-8 *)

(** [utf8_form n s]: [s] is the encoding of the code point [n]: the shortest of the
    four forms, read from the lead byte and the continuation bytes. *)
Definition offset (lo : N) (width : N) (c : ascii) (x : N) : Prop := (N_of_ascii c = lo + x /\ x < width)%N.
Inductive utf8_form : N -> bytes -> Prop :=
| u1 c n : offset 0 128 c n -> utf8_form n [c]
| u2 a b x y : offset 192 32 a x -> offset 128 64 b y -> (128 <= x * 64 + y)%N -> utf8_form (x * 64 + y) [a; b]
| u3 a b c x y z : offset 224 16 a x -> offset 128 64 b y -> offset 128 64 c z ->
    (2048 <= (x * 64 + y) * 64 + z)%N -> utf8_form ((x * 64 + y) * 64 + z) [a; b; c]
| u4 a b c d x y z w : offset 240 8 a x -> offset 128 64 b y -> offset 128 64 c z -> offset 128 64 d w ->
    (65536 <= ((x * 64 + y) * 64 + z) * 64 + w)%N -> utf8_form (((x * 64 + y) * 64 + z) * 64 + w) [a; b; c; d].
(** Unicode scalar values: code points without the surrogates. *)
Definition surrogate (n : N) : Prop := (0xD800 <= n <= 0xDFFF)%N.
Definition scalar (n : N) : Prop := (n <= 0x10FFFF)%N /\ ~ surrogate n.
Definition utf8_text (s : bytes) : Prop := exists ns us, Forall scalar ns /\ Forall2 utf8_form ns us /\ s = List.concat us.

(** ** Tokens *)

Definition ws (s : bytes) : Prop := Forall (fun c => In c [" "%char; ascii_of_nat 9; ascii_of_nat 10; ascii_of_nat 13]) s.

(** One element between the quotes: a character standing for itself, a backslash with
    a letter, or [\u] with four hexadecimal digits. *)
Inductive schar := CPlain (c : ascii) | CEsc (e : ascii) | CHex (a b c d : ascii).
Definition char_src (x : schar) : bytes :=
  match x with CPlain c => [c] | CEsc e => ["\"%char; e] | CHex a b c d => ["\"; "u"; a; b; c; d]%char end.
Definition hexd (c : ascii) (n : N) : Prop :=
  nth_error (B "0123456789abcdef") (N.to_nat n) = Some c \/ nth_error (B "0123456789ABCDEF") (N.to_nat n) = Some c.
(** The value of four hexadecimal digits. *)
Definition hex_code (a b c d : ascii) (n : N) : Prop :=
  exists ds, Forall2 hexd [a; b; c; d] ds /\ n = be_value 16 ds.
Definition char_ok (x : schar) : Prop :=
  match x with
  | CPlain c => 32 <= nat_of_ascii c /\ c <> """"%char /\ c <> "\"%char
  | CEsc e => In e (B """\/bfnrt")
  | CHex a b c d => exists n, hex_code a b c d n
  end.
Definition quoted (cs : list schar) : bytes := B """" ++ flat_map char_src cs ++ B """".

(** The tree of tokens of a text. *)
Inductive lex :=
| LNull | LBool (b : bool) | LNum (neg : bool) (int fe : bytes) | LStr (cs : list schar)
| LArr (l : list lex) | LObj (l : list (list schar * lex)).
Definition minus (neg : bool) : bytes := if neg then B "-" else [].

(** [written l t]: the text [t] is one JSON value with the tokens [l]. *)
Inductive written : lex -> bytes -> Prop :=
| w_null : written LNull (B "null")
| w_true : written (LBool true) (B "true")
| w_false : written (LBool false) (B "false")
| w_num neg i f e : json_int i -> json_frac f -> json_exp e -> written (LNum neg i (f ++ e)) (minus neg ++ i ++ f ++ e)
| w_str cs : Forall char_ok cs -> written (LStr cs) (quoted cs)
| w_arr0 a : ws a -> written (LArr []) (B "[" ++ a ++ B "]")
| w_arr ls t : elements ls t -> written (LArr ls) (B "[" ++ t ++ B "]")
| w_obj0 a : ws a -> written (LObj []) (B "{" ++ a ++ B "}")
| w_obj ms t : fields ms t -> written (LObj ms) (B "{" ++ t ++ B "}")
with elements : list lex -> bytes -> Prop :=
| e_one a l s b : ws a -> written l s -> ws b -> elements [l] (a ++ s ++ b)
| e_more a l s b ls t : ws a -> written l s -> ws b -> elements ls t -> elements (l :: ls) (a ++ s ++ b ++ B "," ++ t)
with fields : list (list schar * lex) -> bytes -> Prop :=
| m_one a k b c l s d : ws a -> Forall char_ok k -> ws b -> ws c -> written l s -> ws d ->
    fields [(k, l)] (a ++ quoted k ++ b ++ B ":" ++ c ++ s ++ d)
| m_more a k b c l s d ms t : ws a -> Forall char_ok k -> ws b -> ws c -> written l s -> ws d -> fields ms t ->
    fields ((k, l) :: ms) (a ++ quoted k ++ b ++ B ":" ++ c ++ s ++ d ++ B "," ++ t).

(** [spells l t]: the whole text, with white space around the value. *)
Definition spells (l : lex) (t : bytes) : Prop := exists a s b, ws a /\ written l s /\ ws b /\ t = a ++ s ++ b.
Definition json_syntax (t : bytes) : Prop := exists l, spells l t.

(** ** Meaning *)

Definition escapes : list (ascii * ascii) :=
  [(""""%char, """"%char); ("\"%char, "\"%char); ("/"%char, "/"%char); ("b"%char, ascii_of_nat 8); ("f"%char, ascii_of_nat 12);
   ("n"%char, ascii_of_nat 10); ("r"%char, ascii_of_nat 13); ("t"%char, ascii_of_nat 9)].
(** [decodes cs s]: the elements [cs] denote the bytes [s]; code points beyond the
    basic plane are two [\u] escapes, a lone surrogate denotes nothing. *)
Inductive decodes : list schar -> bytes -> Prop :=
| d_nil : decodes [] []
| d_plain c cs s : decodes cs s -> decodes (CPlain c :: cs) (c :: s)
| d_esc e c cs s : In (e, c) escapes -> decodes cs s -> decodes (CEsc e :: cs) (c :: s)
| d_unit a b c d n u cs s : hex_code a b c d n -> ~ surrogate n -> utf8_form n u -> decodes cs s ->
    decodes (CHex a b c d :: cs) (u ++ s)
| d_pair a b c d n a' b' c' d' m u cs s : hex_code a b c d n -> hex_code a' b' c' d' m ->
    (0xD800 <= n < 0xDC00)%N -> (0xDC00 <= m < 0xE000)%N ->
    utf8_form (0x10000 + (n - 0xD800) * 0x400 + (m - 0xDC00)) u -> decodes cs s ->
    decodes (CHex a b c d :: CHex a' b' c' d' :: cs) (u ++ s).

Section Meaning.
(** Conversion of a number text to the text of the nearest f64. *)
Variable fp : bytes -> option bytes.

(** Integers that fit u64 or i64 are kept, every other number becomes a float. *)
Inductive num_means : bool -> bytes -> bytes -> number -> Prop :=
| nm_pos i n : decimal n i -> (n < 2 ^ 64)%N -> num_means false i [] (PosInt n)
| nm_neg i n : decimal n i -> (0 < n <= 2 ^ 63)%N -> num_means true i [] (NegInt n)
| nm_float (neg : bool) i (fe : bytes) x :
    (forall n, fe = [] -> decimal n i -> if neg then (n = 0 \/ 2 ^ 63 < n)%N else (2 ^ 64 <= n)%N) ->
    fp (minus neg ++ i ++ fe) = Some x -> num_means neg i fe (Float x).

Definition str_means (cs : list schar) (s : bytes) : Prop := decodes cs s /\ utf8_text s.
(** [means d l v]: the tokens [l] denote [v] and contain at most [d] nested containers. *)
Inductive means : nat -> lex -> value -> Prop :=
| mn_null d : means d LNull VNull
| mn_bool d b : means d (LBool b) (VBool b)
| mn_num d neg i fe n : num_means neg i fe n -> means d (LNum neg i fe) (VNum n)
| mn_str d cs s : str_means cs s -> means d (LStr cs) (VStr s)
| mn_arr d ls vs : Forall2 (means d) ls vs -> means (S d) (LArr ls) (VArr vs)
| mn_obj d ms kvs : Forall2 (fun m kv => str_means (fst m) (fst kv)) ms kvs ->
    Forall2 (fun m kv => means d (snd m) (snd kv)) ms kvs -> means (S d) (LObj ms) (VObj kvs).

(** A JSON text denoting [v], at most 127 containers deep. *)
Definition json_denotes (t : bytes) (v : value) : Prop := exists l, spells l t /\ means 127 l v.
End Meaning.

(** Outside member names, escapes are only used in strings that cannot be written
    without them. *)
Inductive no_needless_escape : lex -> Prop :=
| ne_null : no_needless_escape LNull
| ne_bool b : no_needless_escape (LBool b)
| ne_num neg i fe : no_needless_escape (LNum neg i fe)
| ne_plain cs : Forall (fun x => exists c, x = CPlain c) cs -> no_needless_escape (LStr cs)
| ne_str cs s : decodes cs s -> escaped s -> no_needless_escape (LStr cs)
| ne_arr ls : Forall no_needless_escape ls -> no_needless_escape (LArr ls)
| ne_obj ms : Forall (fun m => no_needless_escape (snd m)) ms -> no_needless_escape (LObj ms).
Definition denotes_plainly (fp : bytes -> option bytes) (t : bytes) (v : value) : Prop :=
  exists l, spells l t /\ means fp 127 l v /\ no_needless_escape l.
