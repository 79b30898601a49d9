(** The base64 0.13 crate with the URL_SAFE_NO_PAD configuration. *)
From Verif.Model Require Import Prelude.

(** A 6-bit group, most significant bit first.
    (base64 0.13, Cargo.toml:36.) *)
Definition sext : Type := bool * bool * bool * bool * bool * bool.

(** The number written by a 6-bit group (base64 0.13, Cargo.toml:36). *)
Definition sext_N (s : sext) : N :=
  let '(a, b, c, d, e, f) := s in
  (32 * N.b2n a + 16 * N.b2n b + 8 * N.b2n c + 4 * N.b2n d + 2 * N.b2n e + N.b2n f)%N.

(** Alphabet of base64::URL_SAFE_NO_PAD: A-Z a-z 0-9 - _
    (base64 0.13, Cargo.toml:36; e.g. src/jwe/encrypt.rs:50.) *)
Definition b64_char (s : sext) : ascii :=
  let n := sext_N s in
  (if n <? 26 then ascii_of_N (65 + n)
   else if n <? 52 then ascii_of_N (71 + n)
   else if n <? 62 then ascii_of_N (n - 4)
   else if n =? 62 then "-"%char
   else "_"%char)%N.

(** The 6-bit group of a number below 64 (base64 0.13, Cargo.toml:36). *)
Definition N_sext (n : N) : sext :=
  (N.testbit n 5, N.testbit n 4, N.testbit n 3, N.testbit n 2, N.testbit n 1, N.testbit n 0).

(** The decode table (tables::URL_SAFE_DECODE).
    (base64 0.13, Cargo.toml:36; e.g. src/jwe/parse.rs:27.) *)
Definition b64_val (c : ascii) : option sext :=
  let n := N_of_ascii c in
  (if (65 <=? n) && (n <=? 90) then Some (N_sext (n - 65))
   else if (97 <=? n) && (n <=? 122) then Some (N_sext (n - 71))
   else if (48 <=? n) && (n <=? 57) then Some (N_sext (n + 4))
   else if n =? 45 then Some (N_sext 62)
   else if n =? 95 then Some (N_sext 63)
   else None)%N.

(** [base64::encode_config(_, URL_SAFE_NO_PAD)], called e.g. from
    src/jwe/encrypt.rs:36-113 and src/jws/sign.rs:23-90. *)
Fixpoint b64enc (s : bytes) : bytes :=
  match s with
  | [] => []
  | Ascii a0 a1 a2 a3 a4 a5 a6 a7 :: t =>
      match t with
      | [] => [b64_char (a7, a6, a5, a4, a3, a2);
               b64_char (a1, a0, false, false, false, false)]
      | Ascii b0 b1 b2 b3 b4 b5 b6 b7 :: t2 =>
          match t2 with
          | [] => [b64_char (a7, a6, a5, a4, a3, a2);
                   b64_char (a1, a0, b7, b6, b5, b4);
                   b64_char (b3, b2, b1, b0, false, false)]
          | Ascii c0 c1 c2 c3 c4 c5 c6 c7 :: t3 =>
              b64_char (a7, a6, a5, a4, a3, a2)
              :: b64_char (a1, a0, b7, b6, b5, b4)
              :: b64_char (b3, b2, b1, b0, c7, c6)
              :: b64_char (c5, c4, c3, c2, c1, c0)
              :: b64enc t3
          end
      end
  end.

(** One full group of four symbols.
    (base64 0.13 decode_helper, called from src/jwe/parse.rs:27.) *)
Definition dec4 (a b c d : ascii) : option (ascii * ascii * ascii) :=
  match b64_val a, b64_val b, b64_val c, b64_val d with
  | Some (a7, a6, a5, a4, a3, a2), Some (a1, a0, b7, b6, b5, b4),
    Some (b3, b2, b1, b0, c7, c6), Some (c5, c4, c3, c2, c1, c0) =>
      Some (Ascii a0 a1 a2 a3 a4 a5 a6 a7, Ascii b0 b1 b2 b3 b4 b5 b6 b7,
            Ascii c0 c1 c2 c3 c4 c5 c6 c7)
  | _, _, _, _ => None
  end.
(** A last group of three symbols: the two spare bits must be zero
    (decode_allow_trailing_bits = false).
    (base64 0.13 decode_helper, called from src/jwe/parse.rs:27.) *)
Definition dec3 (a b c : ascii) : option bytes :=
  match b64_val a, b64_val b, b64_val c with
  | Some (a7, a6, a5, a4, a3, a2), Some (a1, a0, b7, b6, b5, b4),
    Some (b3, b2, b1, b0, false, false) =>
      Some [Ascii a0 a1 a2 a3 a4 a5 a6 a7; Ascii b0 b1 b2 b3 b4 b5 b6 b7]
  | _, _, _ => None
  end.
(** A last group of two symbols: the four spare bits must be zero.
    (base64 0.13 decode_helper, called from src/jwe/parse.rs:27.) *)
Definition dec2 (a b : ascii) : option bytes :=
  match b64_val a, b64_val b with
  | Some (a7, a6, a5, a4, a3, a2), Some (a1, a0, false, false, false, false) =>
      Some [Ascii a0 a1 a2 a3 a4 a5 a6 a7]
  | _, _ => None
  end.

(** The padding character of base64 0.13 (Cargo.toml:36). *)
Definition pad : ascii := "="%char.
(** [base64::decode_config(_, URL_SAFE_NO_PAD)] of base64 0.13 (decode_helper):
    a length of 1 mod 4 is an error, '=' is tolerated in the third and fourth
    place of the last group only.  The error value is dropped: every caller maps
    it to [Malformed] (src/jwe/parse.rs:27-39, src/jwe/decrypt.rs:47-76,
    src/jws/parse.rs:34, 77, src/jws/verify.rs:28, 44, src/message/unpack/sign.rs:139,
    src/message/from_prior/unpack.rs:125). *)
Fixpoint b64dec (s : bytes) : option bytes :=
  match s with
  | [] => Some []
  | [_] => None
  | [a; b] => dec2 a b
  | [a; b; c] => if Ascii.eqb c pad then dec2 a b else dec3 a b c
  | a :: b :: c :: d :: t =>
      match t with
      | [] =>
          if Ascii.eqb d pad then
            if Ascii.eqb c pad then dec2 a b else dec3 a b c
          else match dec4 a b c d with
               | Some (x, y, z) => Some [x; y; z]
               | None => None
               end
      | _ :: _ =>
          match dec4 a b c d, b64dec t with
          | Some (x, y, z), Some r => Some (x :: y :: z :: r)
          | _, _ => None
          end
      end
  end.
