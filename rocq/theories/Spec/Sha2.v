(** SHA-256, SHA-512 and HMAC (FIPS 180-4, RFC 2104).  The test vectors of the repository
    are run through them in Tests. *)
From Verif.Model Require Import Prelude.
Local Open Scope N_scope.

(** Bytes as numbers. *)
Definition ns (s : bytes) : list N := map N_of_ascii s.
Definition bs (l : list N) : bytes := map ascii_of_N l.
Definition be (l : list N) : N := fold_left (fun a b => a * 256 + b) l 0.
Fixpoint le (l : list N) : N := match l with [] => 0 | b :: l => b + 256 * le l end.
Fixpoint to_le (n : nat) (x : N) : list N := match n with O => [] | S n => N.modulo x 256 :: to_le n (N.div x 256) end.
Definition to_be (n : nat) (x : N) : list N := rev (to_le n x).
Fixpoint chunks (fuel n : nat) (l : list N) : list (list N) :=
  match fuel, l with S f, _ :: _ => firstn n l :: chunks f n (skipn n l) | _, _ => [] end.
Definition xors (a b : list N) : list N := map (fun '(x, y) => N.lxor x y) (combine a b).
Definition zeros (n : nat) : list N := repeat 0 n.
Definition len (l : list N) : N := N.of_nat (List.length l).

Section Sha2.
Variable w : N.                      (* bits of a word *)
Variable K : list N.
Variables a1 a2 a3 b1 b2 b3 c1 c2 c3 d1 d2 d3 : N.  (* rotations *)
Definition rotr (x n : N) : N := N.lor (N.shiftr x n) (N.land (N.shiftl x (w - n)) (N.ones w)).
Definition cut (x : N) : N := N.land x (N.ones w).
Definition sched (l : list N) : list N :=
  let g i := nth i l 0 in
  let s0 := N.lxor (N.lxor (rotr (g 1%nat) c1) (rotr (g 1%nat) c2)) (N.shiftr (g 1%nat) c3) in
  let s1 := N.lxor (N.lxor (rotr (g 14%nat) d1) (rotr (g 14%nat) d2)) (N.shiftr (g 14%nat) d3) in
  tl l ++ [cut (g 0%nat + s0 + g 9%nat + s1)].
Definition round (st : list N) (k x : N) : list N :=
  match st with
  | [a; b; c; d; e; f; g; h] =>
      let s1 := N.lxor (N.lxor (rotr e b1) (rotr e b2)) (rotr e b3) in
      let ch := N.lxor (N.land e f) (N.land (N.lxor e (N.ones w)) g) in
      let t1 := h + s1 + ch + k + x in
      let s0 := N.lxor (N.lxor (rotr a a1) (rotr a a2)) (rotr a a3) in
      let mj := N.lxor (N.lxor (N.land a b) (N.land a c)) (N.land b c) in
      [cut (t1 + s0 + mj); a; b; c; cut (d + t1); e; f; g]
  | _ => st
  end.
Fixpoint rounds (ks : list N) (st m : list N) : list N :=
  match ks with [] => st | k :: ks => rounds ks (round st k (hd 0 m)) (sched m) end.
Definition block (st : list N) (b : list N) : list N :=
  let m := map be (chunks 16 (N.to_nat (w / 8)) b) in
  map (fun '(x, y) => cut (x + y)) (combine st (rounds K st m)).
Definition hash (h0 : list N) (m : list N) : list N :=
  let bl := N.to_nat (w * 2) in
  let lw := N.to_nat (w / 4) in
  let n := (List.length m + 1 + lw)%nat in
  let pad := zeros (Nat.modulo (bl - Nat.modulo n bl) bl) in
  let m' := m ++ 128 :: pad ++ to_be lw (8 * len m) in
  List.concat (map (to_be (N.to_nat (w / 8))) (fold_left block (chunks (List.length m') bl m') h0)).
End Sha2.

Definition k256 : list N :=
  [1116352408; 1899447441; 3049323471; 3921009573; 961987163; 1508970993; 2453635748; 2870763221;
   3624381080; 310598401; 607225278; 1426881987; 1925078388; 2162078206; 2614888103; 3248222580;
   3835390401; 4022224774; 264347078; 604807628; 770255983; 1249150122; 1555081692; 1996064986;
   2554220882; 2821834349; 2952996808; 3210313671; 3336571891; 3584528711; 113926993; 338241895;
   666307205; 773529912; 1294757372; 1396182291; 1695183700; 1986661051; 2177026350; 2456956037;
   2730485921; 2820302411; 3259730800; 3345764771; 3516065817; 3600352804; 4094571909; 275423344;
   430227734; 506948616; 659060556; 883997877; 958139571; 1322822218; 1537002063; 1747873779;
   1955562222; 2024104815; 2227730452; 2361852424; 2428436474; 2756734187; 3204031479; 3329325298].
Definition h256 : list N := [1779033703; 3144134277; 1013904242; 2773480762; 1359893119; 2600822924; 528734635; 1541459225].
Definition k512 : list N :=
  [4794697086780616226; 8158064640168781261; 13096744586834688815; 16840607885511220156;
   4131703408338449720; 6480981068601479193; 10538285296894168987; 12329834152419229976;
   15566598209576043074; 1334009975649890238; 2608012711638119052; 6128411473006802146;
   8268148722764581231; 9286055187155687089; 11230858885718282805; 13951009754708518548;
   16472876342353939154; 17275323862435702243; 1135362057144423861; 2597628984639134821;
   3308224258029322869; 5365058923640841347; 6679025012923562964; 8573033837759648693;
   10970295158949994411; 12119686244451234320; 12683024718118986047; 13788192230050041572;
   14330467153632333762; 15395433587784984357; 489312712824947311; 1452737877330783856;
   2861767655752347644; 3322285676063803686; 5560940570517711597; 5996557281743188959;
   7280758554555802590; 8532644243296465576; 9350256976987008742; 10552545826968843579;
   11727347734174303076; 12113106623233404929; 14000437183269869457; 14369950271660146224;
   15101387698204529176; 15463397548674623760; 17586052441742319658; 1182934255886127544;
   1847814050463011016; 2177327727835720531; 2830643537854262169; 3796741975233480872;
   4115178125766777443; 5681478168544905931; 6601373596472566643; 7507060721942968483;
   8399075790359081724; 8693463985226723168; 9568029438360202098; 10144078919501101548;
   10430055236837252648; 11840083180663258601; 13761210420658862357; 14299343276471374635;
   14566680578165727644; 15097957966210449927; 16922976911328602910; 17689382322260857208;
   500013540394364858; 748580250866718886; 1242879168328830382; 1977374033974150939;
   2944078676154940804; 3659926193048069267; 4368137639120453308; 4836135668995329356;
   5532061633213252278; 6448918945643986474; 6902733635092675308; 7801388544844847127].
Definition h512 : list N :=
  [7640891576956012808; 13503953896175478587; 4354685564936845355; 11912009170470909681;
   5840696475078001361; 11170449401992604703; 2270897969802886507; 6620516959819538809].
Definition sha256_n (m : list N) : list N := hash 32 k256 2 13 22 6 11 25 7 18 3 17 19 10 h256 m.
Definition sha512_n (m : list N) : list N := hash 64 k512 28 34 39 14 18 41 1 8 7 19 61 6 h512 m.
Definition hmac (h : list N -> list N) (bl : nat) (key m : list N) : list N :=
  let k := if Nat.ltb bl (List.length key) then h key else key in
  let k := k ++ zeros (bl - List.length k) in
  h (map (N.lxor 92) k ++ h (map (N.lxor 54) k ++ m)).
