(** bs58 decoding (Bitcoin alphabet) and the multicodec prefix of
    src/utils/did.rs:486-519. *)
From Verif.Model Require Import Prelude.

(** bs58 0.4 (Cargo.toml:42), Alphabet::BITCOIN, the default of [bs58::decode] in
    src/utils/did.rs:115, 141, 173, 213. *)
Definition b58_alphabet : bytes :=
  B "123456789ABCDEFGHJKLMNPQRSTUVWXYZabcdefghijkmnopqrstuvwxyz".

(** Position of a character in the alphabet (bs58 alphabet decode table).
    (src/utils/did.rs:115.) *)
Fixpoint index_of (c : ascii) (l : bytes) (i : N) : option N :=
  match l with
  | [] => None
  | x :: l' => if Ascii.eqb c x then Some i else index_of c l' (N.succ i)
  end.
(** The decode table of bs58 0.4 applied to one character (src/utils/did.rs:115). *)
Definition b58_val (c : ascii) : option N := index_of c b58_alphabet 0.

(** bs58 0.4 decode_into, inner loops: multiply the little-endian number [out] by
    58 and add [val].  The final carry is below 58, so the trailing [while] loop
    pushes at most one byte.
    (src/utils/did.rs:115.) *)
Fixpoint mul_add (val : N) (out : list N) : list N :=
  match out with
  | b :: o => let v := (val + b * 58)%N in (v mod 256)%N :: mul_add (v / 256)%N o
  | [] => if (val =? 0)%N then [] else [val]
  end.

(** bs58 0.4 decode_into, outer loop over the characters (src/utils/did.rs:115). *)
Fixpoint b58_digits (s : bytes) (out : list N) : option (list N) :=
  match s with
  | [] => Some out
  | c :: t => match b58_val c with
              | None => None
              | Some v => b58_digits t (mul_add v out)
              end
  end.

(** bs58 0.4 decode_into: every leading '1' stands for a zero byte (src/utils/did.rs:115). *)
Fixpoint lead_ones (s : bytes) : nat :=
  match s with
  | c :: t => if Ascii.eqb c "1" then S (lead_ones t) else O
  | [] => O
  end.

(** [bs58::decode(s).into_vec()]; any failure is InvalidCharacter or
    NonAsciiCharacter, i.e. Malformed (src/error.rs:177-186). *)
Definition b58dec (s : bytes) : option bytes :=
  match b58_digits s [] with
  | None => None
  | Some out => Some (map ascii_of_N (rev (out ++ repeat 0%N (lead_ones s))))
  end.

(** varint crate, [write_unsigned_varint_32]: minimal LEB128; five groups are
    enough for 32 bits. *)
Fixpoint varint_enc (fuel : nat) (n : N) : bytes :=
  match fuel with
  | O => []
  | S f => if (n <? 128)%N then [ascii_of_N n]
           else ascii_of_N (128 + n mod 128)%N :: varint_enc f (n / 128)%N
  end.
(** [write_unsigned_varint_32] as called in src/utils/did.rs:513-516. *)
Definition write_varint (n : N) : bytes := varint_enc 5 n.

(** varint crate, [read_unsigned_varint_32]: LEB128 with at most five groups
    (longer input is modelled as a read error). *)
Fixpoint varint_dec (fuel : nat) (s : bytes) : option N :=
  match fuel, s with
  | S f, c :: t =>
      let n := N_of_ascii c in
      if (n <? 128)%N then Some n
      else match varint_dec f t with
           | Some m => Some (n - 128 + 128 * m)%N
           | None => None
           end
  | _, _ => None
  end.
(** [read_unsigned_varint_32] as called in src/utils/did.rs:507-510. *)
Definition read_varint (s : bytes) : option N := varint_dec 5 s.

(** src/utils/did.rs:486-492 *)
Inductive codec := CX25519Pub | CEd25519Pub | CX25519Priv | CEd25519Priv.

(** Derived PartialEq of Codec, src/utils/did.rs:486. *)
Definition codec_eqb (a b : codec) : bool :=
  match a, b with
  | CX25519Pub, CX25519Pub | CEd25519Pub, CEd25519Pub
  | CX25519Priv, CX25519Priv | CEd25519Priv, CEd25519Priv => true
  | _, _ => false
  end.

(** src/utils/did.rs:495-503: Codec::codec_by_prefix *)
Definition codec_by_prefix (v : N) : res codec :=
  (if v =? 0xEC then Ok CX25519Pub
   else if v =? 0xED then Ok CEd25519Pub
   else if v =? 0x1302 then Ok CX25519Priv
   else if v =? 0x1300 then Ok CEd25519Priv
   else Err IllegalArgument)%N.

(** [slice.split_at(n)]: panics when [n] exceeds the length.
    (src/utils/did.rs:369, 459, 518.) *)
Definition split_at (n : nat) (s : bytes) : res (bytes * bytes) :=
  if Nat.leb n (List.length s) then Ok (firstn n s, skipn n s) else Panic.

(** src/utils/did.rs:506-519: _from_multicodec.  The prefix length is that of the
    minimal re-encoding of the value read. *)
Definition from_multicodec (value : bytes) : res (codec * bytes) :=
  let? prefix_int := ok_or InvalidState (read_varint value) in
  let? c := codec_by_prefix prefix_int in
  let? (_, rest) := split_at (List.length (write_varint prefix_int)) value in
  Ok (c, rest).
