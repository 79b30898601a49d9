(** serde_json: the compact printer ([serde_json::to_string]) and the streaming
    parser ([from_str] / [from_slice]), as used from src/message, src/jwe,
    src/jws and src/protocols. *)
From Verif.Model Require Import Prelude Utf8.

(** ** JSON trees *)

(** [serde_json::Number].  A finite f64 is represented by the text serde_json
    prints for it (printing is injective on finite floats). *)
Inductive number :=
| PosInt (n : N)      (* u64 *)
| NegInt (n : N)      (* i64 below zero: the value is -n *)
| Float (lex : bytes).

(** A JSON tree with ordered members.  [serde_json::Value] is such a tree whose
    objects are sorted by key without duplicates ([Map] is a [BTreeMap]); the
    trees written by derived [Serialize] are in field order. *)
Inductive value :=
| VNull
| VBool (b : bool)
| VNum (n : number)
| VStr (s : bytes)
| VArr (l : list value)
| VObj (l : list (bytes * value)).

(** ** Printer *)

(** serde_json 1.0 (Cargo.toml:39): a decimal digit (itoa), behind every to_string (e.g.
    src/message/from_prior/pack.rs). *)
Definition digit (n : N) : ascii := ascii_of_N (48 + n).

(** itoa on u64; [fuel] is the binary length, always enough.
    (serde_json 1.0 (Cargo.toml:39), e.g. created_time of src/message/message.rs:8-75.) *)
Fixpoint dec_digits (fuel : nat) (n : N) : bytes :=
  match fuel with
  | O => []
  | S f => (if n <? 10 then [digit n] else dec_digits f (n / 10) ++ [digit (n mod 10)])%N
  end.
(** serde_json 1.0 (Cargo.toml:39), serialize_u64 (itoa), e.g. created_time of
    src/message/message.rs:8-75. *)
Definition print_N (n : N) : bytes := dec_digits (S (N.size_nat n)) n.

(** serde_json 1.0 (Cargo.toml:39), Serialize for Number, e.g. in the body of
    src/message/message.rs:8-75. *)
Definition print_number (n : number) : bytes :=
  match n with
  | PosInt n => print_N n
  | NegInt n => "-"%char :: print_N n
  | Float lex => lex
  end.

(** serde_json 1.0 (Cargo.toml:39) ser.rs, the hexadecimal digits of \u escapes. *)
Definition hexd (n : N) : ascii := (if n <? 10 then ascii_of_N (48 + n) else ascii_of_N (87 + n))%N.

(** serde_json ser.rs ESCAPE table / format_escaped_str: control characters, quote
    and backslash are escaped; everything else is copied. *)
Definition must_escape (c : ascii) : bool :=
  ((N_of_ascii c <? 32) || (N_of_ascii c =? 34) || (N_of_ascii c =? 92))%N.
(** serde_json 1.0 (Cargo.toml:39) ser.rs, CharEscape / write_char_escape. *)
Definition esc_char (c : ascii) : bytes :=
  let n := N_of_ascii c in
  (if n =? 34 then ["\"; """"]%char
   else if n =? 92 then ["\"; "\"]%char
   else if n =? 8 then ["\"; "b"]%char
   else if n =? 9 then ["\"; "t"]%char
   else if n =? 10 then ["\"; "n"]%char
   else if n =? 12 then ["\"; "f"]%char
   else if n =? 13 then ["\"; "r"]%char
   else if n <? 32 then ["\"; "u"; "0"; "0"; hexd (n / 16); hexd (n mod 16)]%char
   else [c])%N.
(** serde_json 1.0 (Cargo.toml:39) ser.rs, format_escaped_str_contents. *)
Definition esc_str (s : bytes) : bytes := flat_map esc_char s.
(** serde_json 1.0 (Cargo.toml:39) ser.rs, format_escaped_str. *)
Definition print_str (s : bytes) : bytes := """"%char :: esc_str s ++ [""""%char].

(** serde_json CompactFormatter. *)
Fixpoint print (v : value) : bytes :=
  match v with
  | VNull => B "null"
  | VBool true => B "true"
  | VBool false => B "false"
  | VNum n => print_number n
  | VStr s => print_str s
  | VArr l => "["%char :: join (B ",") (map print l) ++ ["]"%char]
  | VObj l => "{"%char :: join (B ",") (map (fun kv => print_str (fst kv) ++ B ":" ++ print (snd kv)) l)
              ++ ["}"%char]
  end.

(** ** Parser *)

(** Categories of serde_json errors that the code distinguishes
    (src/error.rs:168-175): end of input, or anything else. *)
Inductive jerr := JEof | JSyn.

(** [ToResult::to_didcomm] and [From<serde_json::Error>], src/error.rs:141-175: Io and Eof become
    InvalidState, Syntax and Data become Malformed. *)
Definition jkind (e : jerr) : errkind :=
  match e with JEof => InvalidState | JSyn => Malformed end.

(** serde_json parses while the typed visitor consumes.  The model first builds a
    lazy picture of the text: a tree that contains, at the place where the reader
    would meet a syntax error or the end of input, the error itself.  Typed
    decoders walk that tree in document order and so meet the same first error.

    - [RStr esc rd]: a string; [esc] tells whether it contains an escape (then it
      cannot be borrowed as [&str]); [rd] is what reading its content gives
      (skipping it is always fine);
    - [RNum neg int fe]: lexeme of a number, [fe] the fraction and exponent part;
    - [RArr]/[RObj] with a tail: [None] when properly closed, otherwise the error
      met after the last complete element;
    - [RErr rd sk]: reading meets error [rd]; skipping ([IgnoredAny]) meets [sk]. *)
Inductive raw :=
| RNull
| RBool (b : bool)
| RNum (neg : bool) (int fe : bytes)
| RStr (esc : bool) (rd : jerr + bytes)
| RArr (l : list raw) (tail : option jerr)
| RObj (l : list ((jerr + bytes) * raw)) (tail : option jerr)
| RErr (rd sk : jerr).

(** De::parse_whitespace.
    (serde_json 1.0 (Cargo.toml:39) de.rs, behind every from_str, e.g.
    src/message/message.rs:88-90.) *)
Definition is_ws (c : ascii) : bool :=
  (let n := N_of_ascii c in (n =? 32) || (n =? 10) || (n =? 9) || (n =? 13))%N.
(** serde_json 1.0 (Cargo.toml:39) de.rs, parse_whitespace, behind every from_str, e.g.
    src/message/message.rs:88-90. *)
Fixpoint skip_ws (s : bytes) : bytes :=
  match s with
  | c :: t => if is_ws c then skip_ws t else s
  | [] => []
  end.

(** serde_json 1.0 (Cargo.toml:39) de.rs, the digits of parse_any_number. *)
Definition is_digit (c : ascii) : bool := byte_in 48 57 c.
(** serde_json 1.0 (Cargo.toml:39) de.rs, the digit loops of parse_any_number, parse_decimal and
    parse_exponent. *)
Fixpoint span_digits (s : bytes) : bytes * bytes :=
  match s with
  | c :: t => if is_digit c then let (a, b) := span_digits t in (c :: a, b) else ([], s)
  | [] => ([], [])
  end.

(** serde_json 1.0 (Cargo.toml:39) de.rs: scanning stops with an error. *)
Definition rfail (e : jerr) : raw * option bytes := (RErr e e, None).

(** Deserializer::parse_exponent: optional sign, at least one digit.
    (serde_json 1.0 (Cargo.toml:39) de.rs.) *)
Definition psign (s : bytes) : bytes * bytes :=
  match s with
  | c :: t => if Ascii.eqb c "+" || Ascii.eqb c "-" then ([c], t) else ([], s)
  | [] => ([], [])
  end.
(** serde_json 1.0 (Cargo.toml:39) de.rs, parse_exponent. *)
Definition pexp (s : bytes) : jerr + (bytes * bytes) :=
  let (sg, s1) := psign s in
  match s1 with
  | [] => inl JEof
  | _ => match span_digits s1 with
         | ([], _) => inl JSyn
         | (ds, r) => inr (sg ++ ds, r)
         end
  end.

(** Deserializer::parse_decimal: at least one digit after the point.
    (serde_json 1.0 (Cargo.toml:39) de.rs.) *)
Definition pfrac (s : bytes) : jerr + (bytes * bytes) :=
  match s with
  | [] => inl JEof
  | _ => match span_digits s with
         | ([], _) => inl JSyn
         | (ds, r) => inr (ds, r)
         end
  end.

(** Optional exponent after [acc].
    (serde_json 1.0 (Cargo.toml:39) de.rs, parse_decimal and parse_number.) *)
Definition popt_exp (s acc : bytes) : jerr + (bytes * bytes) :=
  match s with
  | c :: t =>
      if Ascii.eqb c "e" || Ascii.eqb c "E" then
        match pexp t with inl e => inl e | inr (x, r) => inr (acc ++ c :: x, r) end
      else inr (acc, s)
  | [] => inr (acc, [])
  end.

(** What follows the integer part.
    (serde_json 1.0 (Cargo.toml:39) de.rs, parse_number.) *)
Definition pfe (s : bytes) : jerr + (bytes * bytes) :=
  match s with
  | c :: t =>
      if Ascii.eqb c "." then
        match pfrac t with inl e => inl e | inr (x, r) => popt_exp r (c :: x) end
      else popt_exp s []
  | [] => inr ([], [])
  end.

(** Deserializer::parse_any_number / ignore_number: the lexical grammar of JSON
    numbers (no leading zero).
    (serde_json 1.0 (Cargo.toml:39) de.rs, behind every from_str, e.g.
    src/message/message.rs:88-90.) *)
Definition pnum_body (neg : bool) (s : bytes) : raw * option bytes :=
  match s with
  | [] => rfail JEof
  | c :: t =>
      if negb (is_digit c) then rfail JSyn
      else if Ascii.eqb c "0" then
        match t with
        | d :: _ => if is_digit d then rfail JSyn
                    else match pfe t with
                         | inl e => rfail e
                         | inr (fe, r) => (RNum neg [c] fe, Some r)
                         end
        | [] => (RNum neg [c] [], Some [])
        end
      else let (ds, r) := span_digits s in
           match pfe r with
           | inl e => rfail e
           | inr (fe, r') => (RNum neg ds fe, Some r')
           end
  end.
(** serde_json 1.0 (Cargo.toml:39) de.rs, the '-' case of parse_any_value. *)
Definition pnum (s : bytes) : raw * option bytes :=
  match s with
  | c :: t => if Ascii.eqb c "-" then pnum_body true t else pnum_body false s
  | [] => rfail JEof
  end.

(** Identifiers null/true/false (parse_ident).
    (serde_json 1.0 (Cargo.toml:39) de.rs.) *)
Fixpoint pident (id : bytes) (s : bytes) : jerr + bytes :=
  match id with
  | [] => inr s
  | x :: id' => match s with
                | [] => inl JEof
                | c :: t => if Ascii.eqb c x then pident id' t else inl JSyn
                end
  end.

(** The one-character escapes of parse_escape.
    (serde_json 1.0 (Cargo.toml:39) read.rs.) *)
Definition simple_escape (c : ascii) : option ascii :=
  let n := N_of_ascii c in
  (if n =? 34 then Some c else if n =? 92 then Some c else if n =? 47 then Some c
   else if n =? 98 then Some (ascii_of_N 8) else if n =? 102 then Some (ascii_of_N 12)
   else if n =? 110 then Some (ascii_of_N 10) else if n =? 114 then Some (ascii_of_N 13)
   else if n =? 116 then Some (ascii_of_N 9) else None)%N.

(** serde_json 1.0 (Cargo.toml:39) read.rs, decode_hex_val. *)
Definition hexval (c : ascii) : option N :=
  let n := N_of_ascii c in
  (if (48 <=? n) && (n <=? 57) then Some (n - 48)
   else if (97 <=? n) && (n <=? 102) then Some (n - 87)
   else if (65 <=? n) && (n <=? 70) then Some (n - 55)
   else None)%N.
(** serde_json 1.0 (Cargo.toml:39) read.rs, decode_hex_escape. *)
Definition hex4 (a b c d : ascii) : option N :=
  match hexval a, hexval b, hexval c, hexval d with
  | Some x, Some y, Some z, Some w => Some (((x * 16 + y) * 16 + z) * 16 + w)%N
  | _, _, _, _ => None
  end.

(** serde_json 1.0 (Cargo.toml:39) read.rs, the closing quote. *)
Definition is_quote (c : ascii) : bool := Ascii.eqb c """".
(** serde_json 1.0 (Cargo.toml:39) read.rs, the escape character. *)
Definition is_bslash (c : ascii) : bool := Ascii.eqb c "\".
(** serde_json 1.0 (Cargo.toml:39) read.rs, control characters must be escaped. *)
Definition is_ctrl (c : ascii) : bool := (N_of_ascii c <? 32)%N.

(** SliceRead::ignore_str: skip to the closing quote.  Returns whether an escape
    was seen and the rest of the input.  The argument starts after the opening
    quote.
    (serde_json 1.0 (Cargo.toml:39) read.rs.) *)
Fixpoint skip_str (s : bytes) : bool * (jerr + bytes) :=
  match s with
  | [] => (false, inl JEof)
  | c :: t =>
      if is_quote c then (false, inr t)
      else if is_bslash c then
        match t with
        | [] => (true, inl JEof)
        | e :: t1 =>
            if is_some (simple_escape e) then (true, snd (skip_str t1))
            else if Ascii.eqb e "u" then
              match t1 with
              | a :: b :: x :: y :: t2 =>
                  if is_some (hex4 a b x y) then (true, snd (skip_str t2)) else (true, inl JSyn)
              | _ => (true, inl JEof)
              end
            else (true, inl JSyn)
        end
      else if is_ctrl c then (false, inl JSyn)
      else skip_str t
  end.

(** serde_json 1.0 (Cargo.toml:39) read.rs: bytes appended to the scratch buffer. *)
Definition rcons (x : bytes) (r : jerr + bytes) : jerr + bytes :=
  match r with inl e => inl e | inr s => inr (x ++ s) end.

(** SliceRead::parse_str and parse_escape: decode the content, surrogate pairs
    included; a lone surrogate is an error.
    (serde_json 1.0 (Cargo.toml:39) read.rs, behind every from_str, e.g.
    src/message/message.rs:88-90.) *)
Fixpoint read_str (s : bytes) : jerr + bytes :=
  match s with
  | [] => inl JEof
  | c :: t =>
      if is_quote c then inr []
      else if is_bslash c then
        match t with
        | [] => inl JEof
        | e :: t1 =>
            match simple_escape e with
            | Some ch => rcons [ch] (read_str t1)
            | None =>
                if Ascii.eqb e "u" then
                  match t1 with
                  | a :: b :: x :: y :: t2 =>
                      match hex4 a b x y with
                      | None => inl JSyn
                      | Some n =>
                          if ((56320 <=? n) && (n <=? 57343))%N then inl JSyn
                          else if ((55296 <=? n) && (n <=? 56319))%N then
                            match t2 with
                            | [] => inl JEof
                            | p :: t3 =>
                                if negb (is_bslash p) then inl JSyn
                                else match t3 with
                                | [] => inl JEof
                                | q :: t4 =>
                                    if negb (Ascii.eqb q "u") then inl JSyn
                                    else match t4 with
                                    | a' :: b' :: x' :: y' :: t5 =>
                                        match hex4 a' b' x' y' with
                                        | None => inl JSyn
                                        | Some m =>
                                            if ((56320 <=? m) && (m <=? 57343))%N then
                                              rcons (encode_char ((n - 55296) * 1024 + (m - 56320) + 65536)%N)
                                                    (read_str t5)
                                            else inl JSyn
                                        end
                                    | _ => inl JEof
                                    end
                                end
                            end
                          else rcons (encode_char n) (read_str t2)
                      end
                  | _ => inl JEof
                  end
                else inl JSyn
            end
        end
      else if is_ctrl c then inl JSyn
      else rcons [c] (read_str t)
  end.

(** parse_str validates the result as UTF-8 (only relevant for [from_slice]).
    (serde_json 1.0 (Cargo.toml:39) read.rs; [from_slice] is used in src/jwe/parse.rs and
    src/jws/parse.rs:38.) *)
Definition read_utf8 (s : bytes) : jerr + bytes :=
  match read_str s with
  | inl e => inl e
  | inr x => if utf8 x then inr x else inl JSyn
  end.

(** A string token; the argument starts after the opening quote.
    (serde_json 1.0 (Cargo.toml:39) read.rs.) *)
Definition pstring (s : bytes) : bool * (jerr + bytes) * (jerr + bytes) :=
  let (esc, sk) := skip_str s in (esc, read_utf8 s, sk).

(** serde_json 1.0 (Cargo.toml:39) read.rs: the error met first when reading; [dflt] is the one met
    when skipping. *)
Definition err_of {A} (dflt : jerr) (r : jerr + A) : jerr :=
  match r with inl e => e | inr _ => dflt end.

(** Deserializer::deserialize_any and ignore_value with SeqAccess / MapAccess.
    [fuel] bounds the recursion; [parse] passes twice the length of the text plus one,
    which is always enough.
    (serde_json 1.0 (Cargo.toml:39) de.rs, behind every from_str, e.g.
    src/message/message.rs:88-90.) *)
Fixpoint pval (fuel : nat) (s : bytes) : raw * option bytes :=
  match fuel with
  | O => rfail JSyn
  | S f =>
      match skip_ws s with
      | [] => rfail JEof
      | c :: t =>
          if is_quote c then
            match pstring t with
            | (esc, rd, inr r) => (RStr esc rd, Some r)
            | (_, rd, inl e) => (RErr (err_of e rd) e, None)
            end
          else if Ascii.eqb c "{" then
            match pobj f true t with (l, tl, k) => (RObj l tl, k) end
          else if Ascii.eqb c "[" then
            match parr f true t with (l, tl, k) => (RArr l tl, k) end
          else if Ascii.eqb c "n" then
            match pident (B "ull") t with inl e => rfail e | inr r => (RNull, Some r) end
          else if Ascii.eqb c "t" then
            match pident (B "rue") t with inl e => rfail e | inr r => (RBool true, Some r) end
          else if Ascii.eqb c "f" then
            match pident (B "alse") t with inl e => rfail e | inr r => (RBool false, Some r) end
          else if Ascii.eqb c "-" || is_digit c then pnum (c :: t)
          else rfail JSyn
      end
  end
with parr (fuel : nat) (first : bool) (s : bytes) : list raw * option jerr * option bytes :=
  match fuel with
  | O => ([], Some JSyn, None)
  | S f =>
      match skip_ws s with
      | [] => ([], Some JEof, None)
      | c :: t =>
          let elem s' :=
            match pval f s' with
            | (r, None) => ([r], Some JSyn, None)
            | (r, Some k) => match parr f false k with (l, tl, k') => (r :: l, tl, k') end
            end in
          if Ascii.eqb c "]" then ([], None, Some t)
          else if first then elem (c :: t)
          else if Ascii.eqb c "," then
            match skip_ws t with
            | [] => ([], Some JEof, None)
            | d :: _ => if Ascii.eqb d "]" then ([], Some JSyn, None) else elem t
            end
          else ([], Some JSyn, None)
      end
  end
with pobj (fuel : nat) (first : bool) (s : bytes)
  : list ((jerr + bytes) * raw) * option jerr * option bytes :=
  match fuel with
  | O => ([], Some JSyn, None)
  | S f =>
      match skip_ws s with
      | [] => ([], Some JEof, None)
      | c :: t =>
          let member s' :=
            match skip_ws s' with
            | [] => ([], Some JEof, None)
            | q :: t' =>
                if negb (is_quote q) then ([], Some JSyn, None)
                else match pstring t' with
                | (_, rd, inl e) => ([(inl (err_of e rd), RErr e e)], Some e, None)
                | (_, rd, inr r) =>
                    match skip_ws r with
                    | [] => ([(rd, RErr JEof JEof)], Some JEof, None)
                    | d :: r' =>
                        if negb (Ascii.eqb d ":") then ([(rd, RErr JSyn JSyn)], Some JSyn, None)
                        else match pval f r' with
                        | (v, None) => ([(rd, v)], Some JSyn, None)
                        | (v, Some k) =>
                            match pobj f false k with (l, tl, k') => ((rd, v) :: l, tl, k') end
                        end
                    end
                end
            end in
          if Ascii.eqb c "}" then ([], None, Some t)
          else if first then member (c :: t)
          else if Ascii.eqb c "," then
            match skip_ws t with
            | [] => ([], Some JEof, None)
            | d :: _ => if Ascii.eqb d "}" then ([], Some JSyn, None) else member t
            end
          else ([], Some JSyn, None)
      end
  end.

(** Result of scanning a whole text: the tree and what [Deserializer::end] says
    about the rest ([None]: only white space follows).
    (serde_json 1.0 (Cargo.toml:39) de.rs, from_trait.) *)
Definition parse (s : bytes) : raw * option jerr :=
  match pval (S (List.length s + List.length s)) s with
  | (r, None) => (r, Some JSyn)
  | (r, Some k) => match skip_ws k with [] => (r, None) | _ => (r, Some JSyn) end
  end.

(** [serde_json::from_str] / [from_slice] for a type with decoder [dec]. *)
Definition from_json {A} (dec : raw -> res A) (s : bytes) : res A :=
  match parse s with
  | (r, e) => let? a := dec r in
              match e with None => Ok a | Some e => Err (jkind e) end
  end.

(** ** Decoding numbers and trees *)

(** serde_json 1.0 (Cargo.toml:39) de.rs: the value of the digits of an integer. *)
Definition dec_val (ds : bytes) : N :=
  fold_left (fun acc c => acc * 10 + (N_of_ascii c - 48))%N ds 0%N.

(** serde_json 1.0 (Cargo.toml:39) de.rs: one more than u64::MAX. *)
Definition u64_lim : N := 18446744073709551616%N.
(** serde_json 1.0 (Cargo.toml:39) de.rs: the absolute value of i64::MIN. *)
Definition i64_lim : N := 9223372036854775808%N.

Section Floats.
(** serde_json's conversion of a number lexeme to f64, printed again; [None] when
    out of range.  External behaviour, not modelled. *)
Variable fparse : bytes -> option bytes.

(** ParserNumber of parse_any_number: u64, i64 or f64 ("-0" and integers out of
    range become floats).
    (serde_json 1.0 (Cargo.toml:39) de.rs; e.g. the body of src/message/message.rs:8-75.) *)
Definition num_of (neg : bool) (int fe : bytes) : res number :=
  let lex := (if neg then ["-"%char] else []) ++ int ++ fe in
  let flt := match fparse lex with Some l => Ok (Float l) | None => Err Malformed end in
  match fe with
  | [] =>
      let n := dec_val int in
      if neg then
        (if (n =? 0) || (i64_lim <? n) then flt else Ok (NegInt n))%N
      else (if n <? u64_lim then Ok (PosInt n) else flt)%N
  | _ => flt
  end.

(** serde_json 1.0 (Cargo.toml:39) de.rs: reading the content of a string, with the error kinds of
    src/error.rs:168-175. *)
Definition rd_str (rd : jerr + bytes) : res bytes :=
  match rd with inl e => Err (jkind e) | inr s => Ok s end.

(** Deserialising into serde's buffered [Content] (order and duplicates kept).
    [d] is [remaining_depth] (check_recursion!: entering a container with
    remaining depth 1 is an error). *)
Fixpoint to_content (d : nat) (r : raw) : res value :=
  let enter := match d with O | S O => Err Malformed | S d' => Ok d' end in
  let fix arr d l :=
    match l with
    | [] => Ok []
    | x :: l' => let? v := to_content d x in let? vs := arr d l' in Ok (v :: vs)
    end in
  let fix obj d l :=
    match l with
    | [] => Ok []
    | (k, x) :: l' => let? k := rd_str k in let? v := to_content d x in
                      let? vs := obj d l' in Ok ((k, v) :: vs)
    end in
  let close {A} (tl : option jerr) (x : A) := match tl with None => Ok x | Some e => Err (jkind e) end in
  match r with
  | RNull => Ok VNull
  | RBool b => Ok (VBool b)
  | RNum neg i fe => let? n := num_of neg i fe in Ok (VNum n)
  | RStr _ rd => let? s := rd_str rd in Ok (VStr s)
  | RArr l tl => let? d := enter in let? vs := arr d l in close tl (VArr vs)
  | RObj l tl => let? d := enter in let? vs := obj d l in close tl (VObj vs)
  | RErr rd _ => Err (jkind rd)
  end.

(** BTreeMap insertion: sorted by key, a later duplicate replaces the value.
    (serde_json 1.0 (Cargo.toml:39), Map without preserve_order.) *)
Fixpoint btree_insert (k : bytes) (v : value) (m : list (bytes * value)) : list (bytes * value) :=
  match m with
  | [] => [(k, v)]
  | (k', v') :: m' =>
      match bcmp k k' with
      | Lt => (k, v) :: m
      | Eq => (k', v) :: m'
      | Gt => (k', v') :: btree_insert k v m'
      end
  end.
(** serde_json 1.0 (Cargo.toml:39): visit_map of Value, members inserted in document order. *)
Definition btree_of (l : list (bytes * value)) : list (bytes * value) :=
  fold_left (fun m kv => btree_insert (fst kv) (snd kv) m) l [].

(** From ordered content to [serde_json::Value]. *)
Fixpoint norm (v : value) : value :=
  match v with
  | VArr l => VArr (map norm l)
  | VObj l => VObj (btree_of (map (fun kv => (fst kv, norm (snd kv))) l))
  | _ => v
  end.

(** Deserialising into [serde_json::Value]. *)
Definition to_value (d : nat) (r : raw) : res value :=
  let? v := to_content d r in Ok (norm v).

End Floats.

(** IgnoredAny: skip a value; only syntactic errors are noticed.
    (serde_json 1.0 (Cargo.toml:39), unknown members of e.g. src/jwe/envelope.rs:6-25.) *)
Fixpoint skip (r : raw) : res unit :=
  let fix arr l := match l with [] => Ok tt | x :: l' => let? _ := skip x in arr l' end in
  let fix obj (l : list ((jerr + bytes) * raw)) :=
    match l with [] => Ok tt | (_, x) :: l' => let? _ := skip x in obj l' end in
  let close tl := match tl with None => Ok tt | Some e => Err (jkind e) end in
  match r with
  | RArr l tl => let? _ := arr l in close tl
  | RObj l tl => let? _ := obj l in close tl
  | RErr _ sk => Err (jkind sk)
  | _ => Ok tt
  end.

(** The remaining depth at the start of a text.
    (serde_json 1.0 (Cargo.toml:39) de.rs, remaining_depth: 128.) *)
Definition max_depth : nat := 128.
