(** UTF-8 validity, as checked by [String::from_utf8] / [str::from_utf8], and
    encoding of one code point ([char::encode_utf8]). *)
From Verif.Model Require Import Prelude.

(** A range of core::str::validations (behind src/jwe/parse.rs:75). *)
Definition byte_in (lo hi : N) (a : ascii) : bool :=
  ((lo <=? N_of_ascii a) && (N_of_ascii a <=? hi))%N.
(** A continuation byte of core::str::validations (behind src/jwe/parse.rs:75). *)
Definition cont (a : ascii) : bool := byte_in 128 191 a.

(** The library's validity table (core::str::validations); called from
    src/message/unpack/*.rs ([String::from_utf8]) and src/jwe/parse.rs:75
    ([str::from_utf8] on apu), and by serde_json on byte slices. *)
Fixpoint utf8 (s : bytes) : bool :=
  match s with
  | [] => true
  | a :: t =>
      if byte_in 0 127 a then utf8 t
      else match t with
      | b :: t2 =>
          if byte_in 194 223 a then cont b && utf8 t2
          else match t2 with
          | c :: t3 =>
              if byte_in 224 239 a then
                (if byte_in 224 224 a then byte_in 160 191 b
                 else if byte_in 237 237 a then byte_in 128 159 b
                 else cont b) && cont c && utf8 t3
              else match t3 with
              | d :: t4 =>
                  byte_in 240 244 a &&
                  (if byte_in 240 240 a then byte_in 144 191 b
                   else if byte_in 244 244 a then byte_in 128 143 b
                   else cont b) && cont c && cont d && utf8 t4
              | [] => false
              end
          | [] => false
          end
      | [] => false
      end
  end.

(** [char::encode_utf8] for a scalar value [n].
    (serde_json 1.0 (Cargo.toml:39) read.rs, \u escapes.) *)
Definition encode_char (n : N) : bytes :=
  (if n <? 128 then [ascii_of_N n]
   else if n <? 2048 then
     [ascii_of_N (192 + n / 64); ascii_of_N (128 + n mod 64)]
   else if n <? 65536 then
     [ascii_of_N (224 + n / 4096); ascii_of_N (128 + (n / 64) mod 64);
      ascii_of_N (128 + n mod 64)]
   else
     [ascii_of_N (240 + n / 262144); ascii_of_N (128 + (n / 4096) mod 64);
      ascii_of_N (128 + (n / 64) mod 64); ascii_of_N (128 + n mod 64)])%N.
