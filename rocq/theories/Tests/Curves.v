(** X25519, Ed25519 and ECDSA on P-256 and secp256k1 (RFC 7748, RFC 8032, FIPS 186-4). *)
From Verif.Model Require Import Prelude.
From Verif.Spec Require Import Sha2.
Open Scope N_scope.

(** *** Modulo 2^255 - 19 *)
Definition p255 : N := Eval vm_compute in 2 ^ 255 - 19.
Definition fold25 (x : N) : N := N.land x (N.ones 255) + 19 * N.shiftr x 255.
Definition norm25 (x : N) : N := let x := fold25 (fold25 x) in if p255 <=? x then x - p255 else x.
Definition mul25 (a b : N) : N := fold25 (fold25 (a * b)).
Definition add25 (a b : N) : N := fold25 (a + b).
Definition sub25 (a b : N) : N := fold25 (a + 2 * p255 - b).
(** The inverse by the extended Euclidean algorithm. *)
Fixpoint egcd (fuel : nat) (a b x y : Z) : Z :=
  match fuel with
  | O => x
  | S f => if Z.eqb b 0 then x else let q := Z.div a b in egcd f b (a - q * b)%Z y (x - q * y)%Z
  end.
Definition inv_mod (a p : N) : N := Z.to_N (Z.modulo (egcd 400 (Z.of_N a) (Z.of_N p) 1 0) (Z.of_N p)).

Fixpoint ladder (n : nat) (k u x2 z2 x3 z3 : N) (swap : bool) : N * N * N * N * bool :=
  match n with
  | O => (x2, z2, x3, z3, swap)
  | S n =>
      let kt := N.testbit k (N.of_nat n) in
      let '(x2, x3, z2, z3) := if xorb swap kt then (x3, x2, z3, z2) else (x2, x3, z2, z3) in
      let a := add25 x2 z2 in let aa := mul25 a a in
      let b := sub25 x2 z2 in let bb := mul25 b b in
      let e := sub25 aa bb in
      let c := add25 x3 z3 in let d := sub25 x3 z3 in
      let da := mul25 d a in let cb := mul25 c b in
      let s := add25 da cb in let t := sub25 da cb in
      ladder n k u (mul25 aa bb) (mul25 e (add25 aa (121665 * e))) (mul25 s s) (mul25 u (mul25 t t)) kt
  end.
Definition clamp (k : list N) : N :=
  N.lor (N.land (le k) (N.ones 254 - 7)) (2 ^ 254).
Definition x25519 (k u : list N) : list N :=
  let u := N.land (le u) (N.ones 255) in
  let '(x2, z2, x3, z3, swap) := ladder 255 (clamp k) u 1 0 u 1 false in
  let '(x, z) := if swap : bool then (x3, z3) else (x2, z2) in
  to_le 32 (norm25 (mul25 x (inv_mod (norm25 z) p255))).
Definition base25 : list N := 9 :: zeros 31.

(** *** Ed25519, points as (X, Y, Z, T) *)
Definition d25 : N := 37095705934669439343138083508754565189542113879843219016388785533085940283555.
Definition sqrt_m1 : N := 19681161376707505956807079304988542015446066515923890162744021073123829784752.
Definition edpt := (N * N * N * N)%type.
Definition ed_add (p q : edpt) : edpt :=
  let '(x1, y1, z1, t1) := p in let '(x2, y2, z2, t2) := q in
  let a := mul25 (sub25 y1 x1) (sub25 y2 x2) in let b := mul25 (add25 y1 x1) (add25 y2 x2) in
  let c := mul25 (mul25 t1 (2 * d25)) t2 in let d := mul25 (2 * z1) z2 in
  let e := sub25 b a in let f := sub25 d c in let g := add25 d c in let h := add25 b a in
  (mul25 e f, mul25 g h, mul25 f g, mul25 e h).
Definition ed_double (p : edpt) : edpt :=
  let '(x, y, z, _) := p in
  let a := mul25 x x in let b := mul25 y y in let c := mul25 (2 * z) z in
  let h := add25 a b in let s := add25 x y in
  let e := sub25 h (mul25 s s) in let g := sub25 a b in let f := add25 c g in
  (mul25 e f, mul25 g h, mul25 f g, mul25 e h).
Definition ed_zero : edpt := (0, 1, 1, 0).
(** [a] times [p] plus [b] times [q]. *)
Fixpoint ed_mul2 (n : nat) (a b : N) (p q pq r : edpt) : edpt :=
  match n with
  | O => r
  | S n =>
      let r := ed_double r in
      let r := match N.testbit a (N.of_nat n), N.testbit b (N.of_nat n) with
               | true, true => ed_add r pq | true, false => ed_add r p | false, true => ed_add r q | false, false => r end in
      ed_mul2 n a b p q pq r
  end.
Fixpoint pow25 (n : nat) (e b r : N) : N :=
  match n with
  | O => r
  | S n => let r := mul25 r r in pow25 n e b (if N.testbit e (N.of_nat n) then mul25 r b else r)
  end.
Definition ed_decode (s : list N) : option edpt :=
  let v := le s in
  let y := N.land v (N.ones 255) in let sign := N.testbit v 255 in
  let yy := mul25 y y in let u := sub25 yy 1 in let w := add25 (mul25 d25 yy) 1 in
  let w3 := mul25 (mul25 w w) w in let w7 := mul25 (mul25 w3 w3) w in
  let x := mul25 (mul25 u w3) (pow25 252 ((p255 - 5) / 8) (mul25 u w7) 1) in
  let c := norm25 (mul25 w (mul25 x x)) in
  let x := if c =? norm25 u then Some x else if c =? norm25 (sub25 0 u) then Some (mul25 x sqrt_m1) else None in
  match x with
  | None => None
  | Some x => let x := norm25 x in let x := if Bool.eqb (N.odd x) sign then x else norm25 (sub25 0 x) in Some (x, y, 1, mul25 x y)
  end.
Definition ed_encode (p : edpt) : list N :=
  let '(x, y, z, _) := p in
  let i := inv_mod (norm25 z) p255 in
  let x := norm25 (mul25 x i) in let y := norm25 (mul25 y i) in
  to_le 32 (y + (if N.odd x then 2 ^ 255 else 0)).
Definition l25 : N := 2 ^ 252 + 27742317777372353535851937790883648493.
Definition ed_base : edpt :=
  let x := 15112221349535400772501151409588531511454012693041857206046113283949847762202 in
  let y := 46316835694926478169428394003475163141307993866256225615783033603165251855960 in (x, y, 1, mul25 x y).
Definition ed_mul_base (a : N) : edpt := ed_mul2 256 a 0 ed_base ed_zero ed_base ed_zero.
Definition ed_public (sk : list N) : list N := ed_encode (ed_mul_base (clamp (firstn 32 (sha512_n sk)))).
Definition ed_sign (sk pk m : list N) : list N :=
  let h := sha512_n sk in let a := clamp (firstn 32 h) in
  let r := N.modulo (le (sha512_n (skipn 32 h ++ m))) l25 in
  let rb := ed_encode (ed_mul_base r) in
  let k := N.modulo (le (sha512_n (rb ++ pk ++ m))) l25 in
  rb ++ to_le 32 (N.modulo (r + k * a) l25).
Definition ed_verify (pk m sig : list N) : bool :=
  match ed_decode pk with
  | None => false
  | Some (x, y, z, t) =>
      let neg := (norm25 (sub25 0 x), y, z, norm25 (sub25 0 t)) in
      let rb := firstn 32 sig in let s := le (skipn 32 sig) in
      let k := N.modulo (le (sha512_n (rb ++ pk ++ m))) l25 in
      Nat.eqb (List.length sig) 64 && (s <? l25)
      && beq (bs (ed_encode (ed_mul2 256 s k ed_base neg (ed_add ed_base neg) ed_zero))) (bs rb)
  end.

(** *** Short Weierstrass curves y^2 = x^3 + a x + b with a = 0 or a = -3, points as (X, Y, Z) in
    Jacobian coordinates *)
Record curve := mkCurve { cp : N; cred : N -> N; ca : N; cb : N; cn : N; cgx : N; cgy : N }.
Section Weier.
Variable C : curve.
Definition mulp (a b : N) : N := cred C (a * b).
Definition addp (a b : N) : N := let s := a + b in if cp C <=? s then s - cp C else s.
Definition subp (a b : N) : N := if b <=? a then a - b else a + cp C - b.
Definition jpt := (N * N * N)%type.
Definition jzero : jpt := (1, 1, 0).
Definition jdouble (p : jpt) : jpt :=
  let '(x, y, z) := p in
  if (z =? 0) || (y =? 0) then jzero else
  let yy := mulp y y in let s := mulp x yy in let s := addp (addp s s) (addp s s) in
  let xx := mulp x x in let zz := mulp z z in
  let m := addp (addp (addp xx xx) xx) (if ca C =? 0 then 0 else let t := mulp zz zz in subp 0 (addp (addp t t) t)) in
  let x' := subp (mulp m m) (addp s s) in
  let y4 := mulp yy yy in let y4 := addp y4 y4 in let y4 := addp y4 y4 in let y4 := addp y4 y4 in
  let yz := mulp y z in (x', subp (mulp m (subp s x')) y4, addp yz yz).
Definition jadd (p q : jpt) : jpt :=
  let '(x1, y1, z1) := p in let '(x2, y2, z2) := q in
  if z1 =? 0 then q else if z2 =? 0 then p else
  let zz1 := mulp z1 z1 in let zz2 := mulp z2 z2 in
  let u1 := mulp x1 zz2 in let u2 := mulp x2 zz1 in
  let s1 := mulp y1 (mulp z2 zz2) in let s2 := mulp y2 (mulp z1 zz1) in
  if u1 =? u2 then (if s1 =? s2 then jdouble p else jzero) else
  let h := subp u2 u1 in let r := subp s2 s1 in
  let hh := mulp h h in let h3 := mulp h hh in let v := mulp u1 hh in
  let x3 := subp (subp (mulp r r) h3) (addp v v) in
  (x3, subp (mulp r (subp v x3)) (mulp s1 h3), mulp (mulp z1 z2) h).
Fixpoint jmul2 (n : nat) (a b : N) (p q pq r : jpt) : jpt :=
  match n with
  | O => r
  | S n =>
      let r := jdouble r in
      let r := match N.testbit a (N.of_nat n), N.testbit b (N.of_nat n) with
               | true, true => jadd r pq | true, false => jadd r p | false, true => jadd r q | false, false => r end in
      jmul2 n a b p q pq r
  end.
Definition affine (p : jpt) : option (N * N) :=
  let '(x, y, z) := p in
  if z =? 0 then None else
  let i := inv_mod z (cp C) in let i2 := mulp i i in Some (mulp x i2, mulp y (mulp i i2)).
Definition on_curve (x y : N) : bool :=
  (x <? cp C) && (y <? cp C) && (mulp y y =? addp (addp (mulp (mulp x x) x) (mulp (ca C) x)) (cb C)).
Definition wmul (k : N) (p : N * N) : option (N * N) :=
  let j := (fst p, snd p, 1) in affine (jmul2 256 k 0 j jzero j jzero).
Definition wbase : N * N := (cgx C, cgy C).
Definition ecdsa_verify (q : N * N) (hash sig : list N) : bool :=
  let r := be (firstn 32 sig) in let s := be (skipn 32 sig) in let n := cn C in
  Nat.eqb (List.length sig) 64 && (0 <? r) && (r <? n) && (0 <? s) && (s <? n)
  && let w := inv_mod s n in
     let u1 := N.modulo (be hash * w) n in let u2 := N.modulo (r * w) n in
     let g := (cgx C, cgy C, 1) in let q := (fst q, snd q, 1) in
     match affine (jmul2 256 u1 u2 g q (jadd g q) jzero) with
     | None => false
     | Some (x, _) => N.modulo x n =? r
     end.
(** Signing with a nonce that is derived from key and message. *)
Definition ecdsa_sign (d : N) (hash : list N) : option (list N) :=
  let n := cn C in
  let k := N.modulo (be (sha512_n (to_be 32 d ++ hash))) (n - 1) + 1 in
  match wmul k wbase with
  | None => None
  | Some (x, _) => let r := N.modulo x n in
      Some (to_be 32 r ++ to_be 32 (N.modulo (inv_mod k n * (be hash + r * d)) n))
  end.
End Weier.

Definition pk1 : N := Eval vm_compute in 2 ^ 256 - 4294968273.
Definition fold_k1 (x : N) : N := N.land x (N.ones 256) + 4294968273 * N.shiftr x 256.
Definition red_k1 (x : N) : N := let x := fold_k1 (fold_k1 x) in let x := fold_k1 x in if pk1 <=? x then x - pk1 else x.
Definition secp256k1 : curve := mkCurve pk1 red_k1 0 7
  115792089237316195423570985008687907852837564279074904382605163141518161494337
  55066263022277343669578718895168534326250603453777594175500187360389116729240
  32670510020758816978083085130507043184471273380659243275938904335757337482424.
Definition pr1 : N := Eval vm_compute in 2 ^ 256 - 2 ^ 224 + 2 ^ 192 + 2 ^ 96 - 1.
(** FIPS 186-4 D.2.3 *)
Definition join (l : list N) : N := fold_left (fun a w => N.shiftl a 32 + w) l 0.
Definition red_r1 (x : N) : N :=
  let c i := N.land (N.shiftr x (32 * i)) (N.ones 32) in
  let c8 := c 8 in let c9 := c 9 in let c10 := c 10 in let c11 := c 11 in let c12 := c 12 in let c13 := c 13 in let c14 := c 14 in let c15 := c 15 in
  let plus := N.land x (N.ones 256) + 2 * join [c15; c14; c13; c12; c11; 0; 0; 0] + 2 * join [0; c15; c14; c13; c12; 0; 0; 0]
              + join [c15; c14; 0; 0; 0; c10; c9; c8] + join [c8; c13; c15; c14; c13; c11; c10; c9] in
  let minus := join [c10; c8; 0; 0; 0; c13; c12; c11] + join [c11; c9; 0; 0; c15; c14; c13; c12]
               + join [c12; 0; c10; c9; c8; c15; c14; c13] + join [c13; 0; c11; c10; c9; 0; c15; c14] in
  let x := plus + 4 * pr1 - minus in
  let x := x - N.shiftr x 256 * pr1 in let x := x - N.shiftr x 256 * pr1 in if pr1 <=? x then x - pr1 else x.
Definition secp256r1 : curve := mkCurve pr1 red_r1 (pr1 - 3)
  41058363725152142129326129780047268409114441015993725554835256314039467401291
  115792089210356248762697446949407573529996955224135760342422259061068512044369
  48439561293906451759052585252797914202762949526041747995844080717082404635286
  36134250956749795798585127919587881956611106672985015071877198253568414405109.
