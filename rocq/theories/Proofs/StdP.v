(** The standard primitives obey the laws assumed of primitives. *)
From Coq Require Import Lia.
From Verif.Model Require Import Prelude Crypto.
From Verif.Spec Require Import Sha2 Aes Chacha Ciphers.
From Verif.Proofs Require Import Lib AesP CipherP.
Local Open Scope N_scope.

Lemma eqs_refl l : eqs l l = true. Proof. unfold eqs. now apply beq_eq. Qed.
Lemma repeat_byt x n : x < 256 -> byt (repeat x n).
Proof. intros H. induction n; cbn [repeat]; constructor; auto. Qed.

(** ** A256KW *)
Lemma kw_undone key p n : List.length key = 32%nat -> byt key -> byt p -> List.length p = (8 * n)%nat -> (2 <= n)%nat ->
  kw_unwrap_n key (kw_wrap_n key p) = Some p /\ List.length (kw_wrap_n key p) = (8 * n + 8)%nat /\ byt (kw_wrap_n key p).
Proof.
  intros KL KB PB PL N2. destruct (round_keys_ok key KL KB) as [RK RL]. unfold kw_wrap_n, kw_unwrap_n.
  set (rk := round_keys key) in *. assert (RL2 : (2 <= List.length rk)%nat) by lia.
  destruct (chunks_whole 8 n p (List.length p)) as (C1 & C2 & C3); [lia|exact PL|lia|].
  pose proof (chunks_blocks 8 n p (List.length p) ltac:(lia) PB PL ltac:(lia)) as CB. set (r := chunks (List.length p) 8 p) in *.
  assert (IV : half kw_iv) by (split; [reflexivity|apply repeat_byt; reflexivity]).
  destruct (wrapped_ok rk RK RL2 6 1 kw_iv r IV CB ltac:(lia)) as (a' & r' & W & A' & R' & L' & U).
  rewrite wrap_loop_wrapped, W. destruct A' as [A1 A2].
  assert (RR : Forall (fun b => List.length b = 8%nat) r') by (eapply Forall_impl; [|exact R']; now intros b []).
  assert (LR : List.length (List.concat r') = (8 * n)%nat) by (rewrite (concat_length 8 r' RR), L', C3; reflexivity).
  assert (LT : List.length (a' ++ List.concat r') = (8 * n + 8)%nat) by (rewrite app_length; lia).
  assert (BT : byt (a' ++ List.concat r')) by (apply byt_app; [exact A2|apply concat_byt; eapply Forall_impl; [|exact R']; now intros b []]).
  split; [|auto].
  change (a' ++ List.concat r') with (List.concat (a' :: r')). rewrite (chunks_concat 8 (a' :: r')); [|lia|now constructor|].
  2: { cbn [List.concat]. rewrite LT. cbn [List.length]. lia. }
  cbn [List.concat]. rewrite LT, L', C3.
  replace (Nat.modulo (8 * n + 8) 8) with 0%nat by (replace (8 * n + 8)%nat with ((n + 1) * 8)%nat by lia; symmetry; apply Nat.mod_mul; lia).
  replace (Nat.leb 2 n) with true by (symmetry; now apply Nat.leb_le). cbn [Nat.eqb andb].
  specialize (U 0%nat). rewrite C3 in U. replace (1 + N.of_nat 6 * N.of_nat n - 1) with (6 * N.of_nat n) in U by lia.
  change (6 + 0)%nat with 6%nat in U. rewrite U. cbn [unwrap_loop]. rewrite eqs_refl, rev_involutive. now rewrite C1.
Qed.

(** ** A256CBC-HS512 *)
Lemma forallb_repeat x n : forallb (N.eqb x) (repeat x n) = true.
Proof. induction n; cbn [repeat forallb]; [reflexivity|]. now rewrite N.eqb_refl. Qed.
Lemma last_repeat (l : list N) x n d : (0 < n)%nat -> last (l ++ repeat x n) d = x.
Proof.
  intros H. destruct n as [|n]; [lia|]. replace (repeat x (S n)) with (repeat x n ++ [x]) by (symmetry; apply (repeat_cons n x)).
  rewrite app_assoc. apply last_last.
Qed.
Lemma cbc_ok key iv p : List.length key = 32%nat -> byt key -> state iv -> byt p ->
  cbc_dec key iv (cbc_enc key iv p) = Some p /\ List.length (cbc_enc key iv p) = (16 * (List.length p / 16 + 1))%nat /\ byt (cbc_enc key iv p).
Proof.
  intros KL KB IV PB. destruct (round_keys_ok key KL KB) as [RK RL]. unfold cbc_enc, cbc_dec.
  set (rk := round_keys key) in *. assert (RL2 : (2 <= List.length rk)%nat) by lia.
  set (n := (16 - Nat.modulo (List.length p) 16)%nat). set (k := (List.length p / 16 + 1)%nat).
  assert (M : (Nat.modulo (List.length p) 16 < 16)%nat) by (apply Nat.mod_upper_bound; lia).
  assert (D : List.length p = (16 * (List.length p / 16) + Nat.modulo (List.length p) 16)%nat) by (apply Nat.div_mod; lia).
  assert (N0 : (0 < n <= 16)%nat) by (unfold n; lia).
  set (q := p ++ repeat (N.of_nat n) n).
  assert (QL : List.length q = (16 * k)%nat) by (unfold q; rewrite app_length, repeat_length; unfold n, k; lia).
  assert (QB : byt q) by (apply byt_app; [exact PB|apply repeat_byt; lia]).
  assert (F : (k <= List.length p + 16)%nat) by (unfold k; lia).
  destruct (chunks_whole 16 k q (List.length p + 16) ltac:(lia) QL F) as (C1 & C2 & C3).
  pose proof (chunks_blocks 16 k q (List.length p + 16) ltac:(lia) QB QL F) as CB. set (bl := chunks (List.length p + 16) 16 q) in *.
  rewrite fold_cbc_e. cbn [rev app].
  pose proof (cbc_states rk RK bl iv IV CB) as CS.
  assert (CE : Forall (fun b => List.length b = 16%nat) (cbc_e rk iv bl)) by (eapply Forall_impl; [|exact CS]; now intros b []).
  assert (CL : List.length (List.concat (cbc_e rk iv bl)) = (16 * k)%nat) by (rewrite (concat_length 16 _ CE), cbc_length, C3; reflexivity).
  split; [|split; [exact CL|apply concat_byt; eapply Forall_impl; [|exact CS]; now intros b []]].
  rewrite (chunks_concat 16 (cbc_e rk iv bl) _ ltac:(lia) CE) by (rewrite cbc_length, CL; lia).
  rewrite fold_cbc_d. cbn [rev app]. rewrite (cbc_undone rk RK RL2 bl iv IV CB), C1.
  cbv zeta. assert (LQ : last q 0 = N.of_nat n) by (apply last_repeat; lia). rewrite LQ, Nat2N.id.
  assert (PQ : (List.length q - n)%nat = List.length p) by (unfold q; rewrite app_length, repeat_length; lia). rewrite PQ.
  replace (Nat.leb 1 n) with true by (symmetry; apply Nat.leb_le; lia). replace (Nat.leb n 16) with true by (symmetry; apply Nat.leb_le; lia).
  replace (Nat.leb n (List.length q)) with true by (symmetry; apply Nat.leb_le; unfold q; rewrite app_length, repeat_length; lia).
  cbn [andb].
  unfold q. rewrite skipn_app, skipn_all, Nat.sub_diag, firstn_app, firstn_all, Nat.sub_diag. cbn [skipn firstn app]. rewrite forallb_repeat, app_nil_r. reflexivity.
Qed.

(** Digests. *)
Lemma round_length w a1 a2 a3 b1 b2 b3 st k x : List.length st = 8%nat -> List.length (round w a1 a2 a3 b1 b2 b3 st k x) = 8%nat.
Proof. intros H. do 8 (destruct st as [|? st]; [discriminate|]). destruct st; [reflexivity|discriminate]. Qed.
Lemma rounds_length w a1 a2 a3 b1 b2 b3 c1 c2 c3 d1 d2 d3 : forall ks st m, List.length st = 8%nat ->
  List.length (rounds w a1 a2 a3 b1 b2 b3 c1 c2 c3 d1 d2 d3 ks st m) = 8%nat.
Proof. induction ks as [|k ks IH]; intros st m H; [exact H|]. cbn [rounds]. apply IH. now apply round_length. Qed.
Lemma blocks_length w K a1 a2 a3 b1 b2 b3 c1 c2 c3 d1 d2 d3 : forall bl st, List.length st = 8%nat ->
  List.length (fold_left (block w K a1 a2 a3 b1 b2 b3 c1 c2 c3 d1 d2 d3) bl st) = 8%nat.
Proof.
  induction bl as [|b bl IH]; intros st H; [exact H|]. cbn [fold_left]. apply IH. unfold block.
  rewrite map_length, combine_length, rounds_length by exact H. rewrite H. reflexivity.
Qed.
Lemma hash_ok w K a1 a2 a3 b1 b2 b3 c1 c2 c3 d1 d2 d3 h0 m : List.length h0 = 8%nat ->
  List.length (hash w K a1 a2 a3 b1 b2 b3 c1 c2 c3 d1 d2 d3 h0 m) = (N.to_nat (w / 8) * 8)%nat
  /\ byt (hash w K a1 a2 a3 b1 b2 b3 c1 c2 c3 d1 d2 d3 h0 m).
Proof.
  intros H. unfold hash. set (st := fold_left _ _ h0).
  assert (L : List.length st = 8%nat) by now apply blocks_length.
  split.
  - rewrite (concat_length (N.to_nat (w / 8))); [now rewrite map_length, L|].
    apply Forall_map. rewrite Forall_forall. intros x _. apply to_be_length.
  - apply concat_byt, Forall_map. rewrite Forall_forall. intros x _. apply to_be_byt.
Qed.
Lemma sha256_ok m : List.length (sha256_n m) = 32%nat /\ byt (sha256_n m). Proof. exact (hash_ok 32 k256 2 13 22 6 11 25 7 18 3 17 19 10 h256 m eq_refl). Qed.
Lemma sha512_ok m : List.length (sha512_n m) = 64%nat /\ byt (sha512_n m). Proof. exact (hash_ok 64 k512 28 34 39 14 18 41 1 8 7 19 61 6 h512 m eq_refl). Qed.
Lemma cbc_tag_ok mk aad iv c : List.length (cbc_tag mk aad iv c) = 32%nat /\ byt (cbc_tag mk aad iv c).
Proof.
  unfold cbc_tag, hmac. cbv zeta. match goal with |- context [firstn 32 (sha512_n ?x)] => destruct (sha512_ok x) as [A B] end.
  split; [apply firstn_length_le; lia|now apply byt_firstn].
Qed.
Lemma split_tag (c t : list N) n : List.length t = n ->
  Nat.leb n (List.length (c ++ t)) = true /\ firstn (List.length (c ++ t) - n) (c ++ t) = c /\ skipn (List.length (c ++ t) - n) (c ++ t) = t.
Proof.
  intros <-. rewrite app_length. replace (List.length c + List.length t - List.length t)%nat with (List.length c) by lia.
  split; [apply Nat.leb_le; lia|]. rewrite firstn_app, firstn_all, skipn_app, skipn_all, Nat.sub_diag. cbn [firstn skipn app]. now rewrite app_nil_r.
Qed.
Lemma mod16 n : Nat.modulo (16 * n) 16 = 0%nat. Proof. rewrite Nat.mul_comm. apply Nat.mod_mul. lia. Qed.

(** What has to be shown of a cipher [enc]/[dec] with keys and nonces of given lengths. *)
Definition cipher (kl nl tl : nat) (grow : nat -> nat) (enc : list N -> list N -> list N -> list N -> list N * list N)
  (dec : list N -> list N -> list N -> list N -> option (list N)) : Prop :=
  forall k n aad p, List.length k = kl -> byt k -> List.length n = nl -> byt n -> byt p ->
    let '(c, t) := enc k n aad p in
    dec k n aad (c ++ t) = Some p /\ byt c /\ byt t /\ List.length c = grow (List.length p) /\ List.length t = tl.
Lemma cbchs_cipher : cipher 64 16 32 (fun n => 16 * (n / 16 + 1))%nat cbchs_enc cbchs_dec.
Proof.
  intros k n aad p KL KB NL NB PB. unfold cbchs_enc, cbchs_dec.
  destruct (cbc_ok (skipn 32 k) n p) as (D & L & B); [rewrite skipn_length; lia|now apply byt_skipn|split; assumption|exact PB|].
  set (c := cbc_enc (skipn 32 k) n p) in *. destruct (cbc_tag_ok (firstn 32 k) aad n c) as [TL TB].
  set (t := cbc_tag (firstn 32 k) aad n c) in *. split; [|auto].
  destruct (split_tag c t 32 TL) as (S1 & S2 & S3). rewrite S1, S2, S3. fold t. rewrite eqs_refl, L, mod16. exact D.
Qed.

(** ** A256GCM *)
Lemma gcm_cipher : cipher 32 12 16 (fun n => n) gcm_enc gcm_dec.
Proof.
  intros k n aad p KL KB NL NB PB. unfold gcm_enc, gcm_dec. destruct (round_keys_ok k KL KB) as [RK RL]. set (rk := round_keys k) in *.
  assert (GS : forall i, state (enc_block rk (n ++ to_be 4 i))).
  { intros i. apply enc_block_state; [exact RK|]. split; [rewrite app_length, to_be_length; lia|apply byt_app; [exact NB|apply to_be_byt]]. }
  set (c := ctr (List.length p) rk n 2 p).
  assert (CL : List.length c = List.length p) by (unfold c; rewrite ctr_strm; apply strm_length; [lia|intros i; apply GS|lia]).
  assert (CB : byt c) by (unfold c; rewrite ctr_strm; apply strm_byt; [intros i; apply GS|exact PB]).
  assert (T : List.length (gcm_tag rk n aad c) = 16%nat /\ byt (gcm_tag rk n aad c)).
  { unfold gcm_tag. cbv zeta. destruct (GS 1) as [A B]. split; [rewrite xors_length, to_be_length, A; reflexivity|apply xors_byt; [apply to_be_byt|exact B]]. }
  destruct T as [TL TB]. set (t := gcm_tag rk n aad c) in *. split; [|auto].
  destruct (split_tag c t 16 TL) as (S1 & S2 & S3). rewrite S1. cbv zeta. rewrite S2, S3. fold t. rewrite eqs_refl, CL. f_equal.
  unfold c. rewrite !ctr_strm. apply strm_undone; [lia|intros i; apply GS|lia|lia].
Qed.

(** ** XC20P *)
Lemma double_round_length s : List.length s = 16%nat -> List.length (double_round s) = 16%nat.
Proof.
  intros H. do 16 (destruct s as [|? s]; [discriminate|]). destruct s; [|discriminate]. unfold double_round.
  repeat (match goal with |- context [qr ?a ?b ?c ?d] => destruct (qr a b c d) as [[[? ?] ?] ?] end). reflexivity.
Qed.
Lemma mixed_length s : List.length s = 16%nat -> List.length (mixed s) = 16%nat.
Proof. intros H. assert (A : forall n, List.length (Nat.iter n double_round s) = 16%nat) by (induction n as [|n IH]; [exact H|now apply double_round_length]). apply A. Qed.
Lemma words_length l k : List.length l = (4 * k)%nat -> List.length (words l) = k.
Proof. intros H. unfold words. rewrite map_length. now apply (chunks_whole 4 k l (List.length l)); [lia| |lia]. Qed.
Lemma map_to_le_ok (f : N * N -> N) l : List.length (List.concat (map (fun p => to_le 4 (f p)) l)) = (4 * List.length l)%nat /\ byt (List.concat (map (fun p => to_le 4 (f p)) l)).
Proof.
  split.
  - rewrite (concat_length 4); [now rewrite map_length|]. apply Forall_map. rewrite Forall_forall. intros x _. apply to_le_length.
  - apply concat_byt, Forall_map. rewrite Forall_forall. intros x _. apply to_le_byt.
Qed.
Lemma chacha_block_ok k n i : List.length k = 32%nat -> List.length n = 12%nat -> List.length (chacha_block k n i) = 64%nat /\ byt (chacha_block k n i).
Proof.
  intros K M. unfold chacha_block. set (s := sigma ++ words k ++ [i] ++ words n).
  assert (L : List.length s = 16%nat) by (unfold s; rewrite !app_length, (words_length k 8), (words_length n 3) by lia; reflexivity).
  assert (E : map (fun '(x, y) => to_le 4 (add32 x y)) (combine s (mixed s)) = map (fun p => to_le 4 (add32 (fst p) (snd p))) (combine s (mixed s)))
    by (apply map_ext; now intros []).
  cbv zeta. rewrite E. destruct (map_to_le_ok (fun p => add32 (fst p) (snd p)) (combine s (mixed s))) as [A B].
  split; [|exact B]. rewrite A, combine_length, mixed_length, L by exact L. reflexivity.
Qed.
Lemma hchacha_length k n : List.length k = 32%nat -> List.length n = 16%nat -> List.length (hchacha k n) = 32%nat.
Proof.
  intros K M. unfold hchacha. cbv zeta. set (s := mixed _).
  assert (L : List.length s = 16%nat) by (apply mixed_length; rewrite !app_length, (words_length k 8), (words_length n 4) by lia; reflexivity).
  rewrite (concat_length 4); [|apply Forall_map; rewrite Forall_forall; intros x _; apply to_le_length].
  rewrite map_length, app_length, firstn_length, skipn_length, L. reflexivity.
Qed.
Lemma xc20p_cipher : cipher 32 24 16 (fun n => n) xc20p_enc xc20p_dec.
Proof.
  intros k n aad p KL KB NL NB PB. unfold xc20p_enc, xc20p_dec. cbv zeta.
  assert (HL : List.length (hchacha k (firstn 16 n)) = 32%nat) by (apply hchacha_length; [exact KL|apply firstn_length_le; lia]).
  set (hk := hchacha k (firstn 16 n)) in *.
  assert (XL : List.length (x_nonce n) = 12%nat) by (unfold x_nonce; rewrite app_length, skipn_length, NL; reflexivity).
  set (xn := x_nonce n) in *. pose proof (fun i => chacha_block_ok hk xn i HL XL) as G.
  set (c := chacha (List.length p) hk xn 1 p).
  assert (CL : List.length c = List.length p) by (unfold c; rewrite chacha_strm; apply strm_length; [lia|intros i; apply G|lia]).
  assert (CB : byt c) by (unfold c; rewrite chacha_strm; apply strm_byt; [intros i; apply G|exact PB]).
  assert (TL : List.length (cp_tag hk xn aad c) = 16%nat) by (unfold cp_tag, poly1305; cbv zeta; apply to_le_length).
  assert (TB : byt (cp_tag hk xn aad c)) by (unfold cp_tag, poly1305; cbv zeta; apply to_le_byt).
  set (t := cp_tag hk xn aad c) in *. split; [|auto].
  destruct (split_tag c t 16 TL) as (S1 & S2 & S3). rewrite S1, S2, S3. fold t. rewrite eqs_refl, CL. f_equal.
  unfold c. rewrite !chacha_strm. apply strm_undone; [lia|intros i; apply G|lia|lia].
Qed.
