(** AES-256 with key wrap, CBC and GCM (FIPS 197, RFC 3394, RFC 7518, SP 800-38D). *)
From Verif.Model Require Import Prelude.
From Verif.Spec Require Import Sha2.
Local Open Scope N_scope.

Definition sbox : list N :=
  [99; 124; 119; 123; 242; 107; 111; 197; 48; 1; 103; 43; 254; 215; 171; 118;
   202; 130; 201; 125; 250; 89; 71; 240; 173; 212; 162; 175; 156; 164; 114; 192;
   183; 253; 147; 38; 54; 63; 247; 204; 52; 165; 229; 241; 113; 216; 49; 21;
   4; 199; 35; 195; 24; 150; 5; 154; 7; 18; 128; 226; 235; 39; 178; 117;
   9; 131; 44; 26; 27; 110; 90; 160; 82; 59; 214; 179; 41; 227; 47; 132;
   83; 209; 0; 237; 32; 252; 177; 91; 106; 203; 190; 57; 74; 76; 88; 207;
   208; 239; 170; 251; 67; 77; 51; 133; 69; 249; 2; 127; 80; 60; 159; 168;
   81; 163; 64; 143; 146; 157; 56; 245; 188; 182; 218; 33; 16; 255; 243; 210;
   205; 12; 19; 236; 95; 151; 68; 23; 196; 167; 126; 61; 100; 93; 25; 115;
   96; 129; 79; 220; 34; 42; 144; 136; 70; 238; 184; 20; 222; 94; 11; 219;
   224; 50; 58; 10; 73; 6; 36; 92; 194; 211; 172; 98; 145; 149; 228; 121;
   231; 200; 55; 109; 141; 213; 78; 169; 108; 86; 244; 234; 101; 122; 174; 8;
   186; 120; 37; 46; 28; 166; 180; 198; 232; 221; 116; 31; 75; 189; 139; 138;
   112; 62; 181; 102; 72; 3; 246; 14; 97; 53; 87; 185; 134; 193; 29; 158;
   225; 248; 152; 17; 105; 217; 142; 148; 155; 30; 135; 233; 206; 85; 40; 223;
   140; 161; 137; 13; 191; 230; 66; 104; 65; 153; 45; 15; 176; 84; 187; 22].
Definition inv_sbox : list N :=
  [82; 9; 106; 213; 48; 54; 165; 56; 191; 64; 163; 158; 129; 243; 215; 251;
   124; 227; 57; 130; 155; 47; 255; 135; 52; 142; 67; 68; 196; 222; 233; 203;
   84; 123; 148; 50; 166; 194; 35; 61; 238; 76; 149; 11; 66; 250; 195; 78;
   8; 46; 161; 102; 40; 217; 36; 178; 118; 91; 162; 73; 109; 139; 209; 37;
   114; 248; 246; 100; 134; 104; 152; 22; 212; 164; 92; 204; 93; 101; 182; 146;
   108; 112; 72; 80; 253; 237; 185; 218; 94; 21; 70; 87; 167; 141; 157; 132;
   144; 216; 171; 0; 140; 188; 211; 10; 247; 228; 88; 5; 184; 179; 69; 6;
   208; 44; 30; 143; 202; 63; 15; 2; 193; 175; 189; 3; 1; 19; 138; 107;
   58; 145; 17; 65; 79; 103; 220; 234; 151; 242; 207; 206; 240; 180; 230; 115;
   150; 172; 116; 34; 231; 173; 53; 133; 226; 249; 55; 232; 28; 117; 223; 110;
   71; 241; 26; 113; 29; 41; 197; 137; 111; 183; 98; 14; 170; 24; 190; 27;
   252; 86; 62; 75; 198; 210; 121; 32; 154; 219; 192; 254; 120; 205; 90; 244;
   31; 221; 168; 51; 136; 7; 199; 49; 177; 18; 16; 89; 39; 128; 236; 95;
   96; 81; 127; 169; 25; 181; 74; 13; 45; 229; 122; 159; 147; 201; 156; 239;
   160; 224; 59; 77; 174; 42; 245; 176; 200; 235; 187; 60; 131; 83; 153; 97;
   23; 43; 4; 126; 186; 119; 214; 38; 225; 105; 20; 99; 85; 33; 12; 125].
Definition sub (t : list N) (b : N) : N := nth (N.to_nat b) t 0.
Definition xtime (a : N) : N := let b := 2 * a in if 255 <? b then N.lxor b 283 else b.
Fixpoint gmul (fuel : nat) (a b : N) : N :=
  match fuel with
  | O => 0
  | S f => N.lxor (if N.odd b then a else 0) (gmul f (xtime a) (N.div2 b))
  end.
Definition gm := gmul 4.
(** The key schedule: 60 words. *)
Fixpoint expand (fuel i : nat) (rcon : N) (ws : list (list N)) : list (list N) :=   (* newest first *)
  match fuel with
  | O => ws
  | S f =>
      let prev := hd [] ws in let old := nth 7 ws [] in
      match Nat.modulo i 8 with
      | O => let t := map (sub sbox) (tl prev ++ [hd 0 prev]) in
             let t := match t with x :: r => N.lxor x rcon :: r | [] => [] end in
             expand f (S i) (xtime rcon) (xors old t :: ws)
      | 4%nat => expand f (S i) rcon (xors old (map (sub sbox) prev) :: ws)
      | _ => expand f (S i) rcon (xors old prev :: ws)
      end
  end.
Definition round_keys (key : list N) : list (list N) :=
  chunks 15 16 (List.concat (rev (expand 52 8 1 (rev (chunks 8 4 key))))).
Definition shift_rows (s : list N) : list N := map (fun i => nth i s 0) [0; 5; 10; 15; 4; 9; 14; 3; 8; 13; 2; 7; 12; 1; 6; 11]%nat.
Definition inv_shift_rows (s : list N) : list N := map (fun i => nth i s 0) [0; 13; 10; 7; 4; 1; 14; 11; 8; 5; 2; 15; 12; 9; 6; 3]%nat.
Definition mix (x y z t : N) (c : list N) : list N :=
  match c with
  | [a; b; c; d] =>
      let m p q r s := N.lxor (N.lxor (gm p x) (gm q y)) (N.lxor (gm r z) (gm s t)) in
      [m a b c d; m b c d a; m c d a b; m d a b c]
  | _ => c
  end.
Definition mix_columns (s : list N) : list N := List.concat (map (mix 2 3 1 1) (chunks 4 4 s)).
Definition inv_mix_columns (s : list N) : list N := List.concat (map (mix 14 11 13 9) (chunks 4 4 s)).
Fixpoint enc_rounds (ks : list (list N)) (s : list N) : list N :=
  match ks with
  | [] => s
  | [k] => xors k (shift_rows (map (sub sbox) s))
  | k :: ks => enc_rounds ks (xors k (mix_columns (shift_rows (map (sub sbox) s))))
  end.
Definition enc_block (rk : list (list N)) (s : list N) : list N :=
  match rk with k :: ks => enc_rounds ks (xors k s) | [] => s end.
Fixpoint dec_rounds (ks : list (list N)) (s : list N) : list N :=
  match ks with
  | [] => s
  | [k] => xors k (map (sub inv_sbox) (inv_shift_rows s))
  | k :: ks => dec_rounds ks (inv_mix_columns (xors k (map (sub inv_sbox) (inv_shift_rows s))))
  end.
Definition dec_block (rk : list (list N)) (s : list N) : list N :=
  match rev rk with k :: ks => dec_rounds ks (xors k s) | [] => s end.

(** A256KW *)
Definition kw_iv : list N := repeat 166 8.
Fixpoint wrap_steps (rk : list (list N)) (t : N) (a : list N) (r : list (list N)) : list N * list (list N) * N :=
  match r with
  | [] => (a, [], t)
  | x :: r =>
      let b := enc_block rk (a ++ x) in
      let '(a, r, t') := wrap_steps rk (t + 1) (xors (firstn 8 b) (to_be 8 t)) r in
      (a, skipn 8 b :: r, t')
  end.
Fixpoint wrap_loop (n : nat) rk (t : N) (a : list N) (r : list (list N)) : list N :=
  match n with
  | O => a ++ List.concat r
  | S n => let '(a, r, t) := wrap_steps rk t a r in wrap_loop n rk t a r
  end.
Definition kw_wrap_n (key p : list N) : list N := wrap_loop 6 (round_keys key) 1 kw_iv (chunks (List.length p) 8 p).
Fixpoint unwrap_steps (rk : list (list N)) (t : N) (a : list N) (r : list (list N)) : list N * list (list N) * N :=  (* r from the last *)
  match r with
  | [] => (a, [], t)
  | x :: r =>
      let b := dec_block rk (xors a (to_be 8 t) ++ x) in
      let '(a, r, t') := unwrap_steps rk (t - 1) (firstn 8 b) r in
      (a, skipn 8 b :: r, t')
  end.
Fixpoint unwrap_loop (n : nat) rk (t : N) (a : list N) (r : list (list N)) : list N * list (list N) :=
  match n with
  | O => (a, r)
  | S n => let '(a, r, t) := unwrap_steps rk t a r in unwrap_loop n rk t a r
  end.
Definition eqs (a b : list N) : bool := beq (bs a) (bs b).
Definition kw_unwrap_n (key c : list N) : option (list N) :=
  match chunks (List.length c) 8 c with
  | a :: r =>
      let n := List.length r in
      if Nat.eqb (Nat.modulo (List.length c) 8) 0 && Nat.leb 2 n then
        let '(a, r) := unwrap_loop 6 (round_keys key) (6 * N.of_nat n) a (rev r) in
        if eqs a kw_iv then Some (List.concat (rev r)) else None
      else None
  | [] => None
  end.

(** A256CBC-HS512: the key is the MAC key and then the encryption key. *)
Definition cbc_enc (key iv p : list N) : list N :=
  let rk := round_keys key in
  let n := (16 - Nat.modulo (List.length p) 16)%nat in
  let bl := chunks (List.length p + 16) 16 (p ++ repeat (N.of_nat n) n) in
  List.concat (rev (snd (fold_left (fun '(v, out) b => let c := enc_block rk (xors v b) in (c, c :: out)) bl (iv, [])))).
Definition cbc_dec (key iv c : list N) : option (list N) :=
  let rk := round_keys key in
  let p := List.concat (rev (snd (fold_left (fun '(v, out) b => (b, xors v (dec_block rk b) :: out)) (chunks (List.length c) 16 c) (iv, [])))) in
  let n := N.to_nat (last p 0) in
  if Nat.leb 1 n && Nat.leb n 16 && Nat.leb n (List.length p) && forallb (N.eqb (N.of_nat n)) (skipn (List.length p - n) p)
  then Some (firstn (List.length p - n) p) else None.
Definition cbc_tag (mk aad iv c : list N) : list N :=
  firstn 32 (hmac sha512_n 128 mk (aad ++ iv ++ c ++ to_be 8 (8 * len aad))).
Definition cbchs_enc (key iv aad p : list N) : list N * list N :=
  let c := cbc_enc (skipn 32 key) iv p in (c, cbc_tag (firstn 32 key) aad iv c).
Definition cbchs_dec (key iv aad ct : list N) : option (list N) :=
  if Nat.leb 32 (List.length ct) then
    let c := firstn (List.length ct - 32) ct in
    if eqs (cbc_tag (firstn 32 key) aad iv c) (skipn (List.length ct - 32) ct) && Nat.eqb (Nat.modulo (List.length c) 16) 0
    then cbc_dec (skipn 32 key) iv c else None
  else None.

(** A256GCM *)
Fixpoint gf_mul (n : nat) (x v : N) : N :=   (* bits of x from the top *)
  match n with
  | O => 0
  | S n => N.lxor (if N.testbit x (N.of_nat n) then v else 0)
             (gf_mul n x (if N.odd v then N.lxor (N.div2 v) (N.shiftl 225 120) else N.div2 v))
  end.
Definition pad16 (l : list N) : list N := l ++ zeros (Nat.modulo (16 - Nat.modulo (List.length l) 16) 16).
Definition ghash (h : N) (l : list N) : N := fold_left (fun y b => gf_mul 128 (N.lxor y (be b)) h) (chunks (List.length l) 16 l) 0.
Fixpoint ctr (fuel : nat) rk (iv : list N) (i : N) (p : list N) : list N :=
  match fuel, p with
  | S f, _ :: _ => xors (firstn 16 p) (enc_block rk (iv ++ to_be 4 i)) ++ ctr f rk iv (i + 1) (skipn 16 p)
  | _, _ => []
  end.
Definition gcm_tag rk (iv aad c : list N) : list N :=
  let h := be (enc_block rk (zeros 16)) in
  xors (to_be 16 (ghash h (pad16 aad ++ pad16 c ++ to_be 8 (8 * len aad) ++ to_be 8 (8 * len c)))) (enc_block rk (iv ++ to_be 4 1)).
Definition gcm_enc (key iv aad p : list N) : list N * list N :=
  let rk := round_keys key in let c := ctr (List.length p) rk iv 2 p in (c, gcm_tag rk iv aad c).
Definition gcm_dec (key iv aad ct : list N) : option (list N) :=
  if Nat.leb 16 (List.length ct) then
    let rk := round_keys key in let c := firstn (List.length ct - 16) ct in
    if eqs (gcm_tag rk iv aad c) (skipn (List.length ct - 16) ct) then Some (ctr (List.length c) rk iv 2 c) else None
  else None.
