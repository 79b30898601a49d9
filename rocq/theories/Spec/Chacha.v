(** XChaCha20-Poly1305 (RFC 8439 and draft-irtf-cfrg-xchacha). *)
From Verif.Model Require Import Prelude.
From Verif.Spec Require Import Sha2 Aes.
Local Open Scope N_scope.

Definition m32 : N := N.ones 32.
Definition rotl (x n : N) : N := N.lor (N.land (N.shiftl x n) m32) (N.shiftr x (32 - n)).
Definition add32 (x y : N) : N := N.land (x + y) m32.
Definition qr (a b c d : N) : N * N * N * N :=
  let a := add32 a b in let d := rotl (N.lxor d a) 16 in
  let c := add32 c d in let b := rotl (N.lxor b c) 12 in
  let a := add32 a b in let d := rotl (N.lxor d a) 8 in
  let c := add32 c d in let b := rotl (N.lxor b c) 7 in (a, b, c, d).
Definition double_round (s : list N) : list N :=
  match s with
  | [x0; x1; x2; x3; x4; x5; x6; x7; x8; x9; x10; x11; x12; x13; x14; x15] =>
      let '(x0, x4, x8, x12) := qr x0 x4 x8 x12 in
      let '(x1, x5, x9, x13) := qr x1 x5 x9 x13 in
      let '(x2, x6, x10, x14) := qr x2 x6 x10 x14 in
      let '(x3, x7, x11, x15) := qr x3 x7 x11 x15 in
      let '(x0, x5, x10, x15) := qr x0 x5 x10 x15 in
      let '(x1, x6, x11, x12) := qr x1 x6 x11 x12 in
      let '(x2, x7, x8, x13) := qr x2 x7 x8 x13 in
      let '(x3, x4, x9, x14) := qr x3 x4 x9 x14 in
      [x0; x1; x2; x3; x4; x5; x6; x7; x8; x9; x10; x11; x12; x13; x14; x15]
  | _ => s
  end.
Definition sigma : list N := [1634760805; 857760878; 2036477234; 1797285236].
Definition words (l : list N) : list N := map le (chunks (List.length l) 4 l).
Definition mixed (s : list N) : list N := Nat.iter 10 double_round s.
Definition chacha_block (key nonce : list N) (i : N) : list N :=
  let s := sigma ++ words key ++ [i] ++ words nonce in
  List.concat (map (fun '(x, y) => to_le 4 (add32 x y)) (combine s (mixed s))).
Definition hchacha (key nonce : list N) : list N :=
  let s := mixed (sigma ++ words key ++ words nonce) in List.concat (map (to_le 4) (firstn 4 s ++ skipn 12 s)).
Fixpoint chacha (fuel : nat) (key nonce : list N) (i : N) (p : list N) : list N :=
  match fuel, p with
  | S f, _ :: _ => xors (firstn 64 p) (chacha_block key nonce i) ++ chacha f key nonce (i + 1) (skipn 64 p)
  | _, _ => []
  end.
Definition p1305 : N := 2 ^ 130 - 5.
Definition poly1305 (key m : list N) : list N :=
  let r := N.land (le (firstn 16 key)) 21267647620597763993911028882763415551 in
  let acc := fold_left (fun a b => N.modulo ((a + le (b ++ [1])) * r) p1305) (chunks (List.length m) 16 m) 0 in
  to_le 16 (N.land (acc + le (skipn 16 key)) (N.ones 128)).
Definition cp_tag (key nonce aad c : list N) : list N :=
  poly1305 (firstn 32 (chacha_block key nonce 0)) (pad16 aad ++ pad16 c ++ to_le 8 (len aad) ++ to_le 8 (len c)).
Definition x_nonce (nonce : list N) : list N := zeros 4 ++ skipn 16 nonce.
Definition xc20p_enc (key nonce aad p : list N) : list N * list N :=
  let k := hchacha key (firstn 16 nonce) in let n := x_nonce nonce in
  let c := chacha (List.length p) k n 1 p in (c, cp_tag k n aad c).
Definition xc20p_dec (key nonce aad ct : list N) : option (list N) :=
  if Nat.leb 16 (List.length ct) then
    let k := hchacha key (firstn 16 nonce) in let n := x_nonce nonce in
    let c := firstn (List.length ct - 16) ct in
    if eqs (cp_tag k n aad c) (skipn (List.length ct - 16) ct) then Some (chacha (List.length c) k n 1 c) else None
  else None.
