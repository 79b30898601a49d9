(** AES decryption undoes AES encryption; key wrapping, CBC and key streams are undone. *)
From Coq Require Import Btauto.
From Verif.Model Require Import Prelude.
From Verif.Spec Require Import Sha2 Aes Chacha.
From Coq Require Import Lia.
Local Open Scope N_scope.

Definition byt (l : list N) : Prop := Forall (fun x => x < 256) l.

Lemma ns_byt s : byt (ns s).
Proof. unfold byt, ns. rewrite Forall_forall. intros x H. apply in_map_iff in H as (c & <- & _). apply N_ascii_bounded. Qed.
Lemma bs_ns s : bs (ns s) = s.
Proof. unfold bs, ns. rewrite map_map. rewrite <- (map_id s) at 2. apply map_ext. apply ascii_N_embedding. Qed.
Lemma ns_bs l : byt l -> ns (bs l) = l.
Proof.
  unfold bs, ns. intros H. rewrite map_map. rewrite <- (map_id l) at 2. apply map_ext_in. intros a I.
  apply N_ascii_embedding. unfold byt in H. rewrite Forall_forall in H. now apply H.
Qed.
Lemma ns_length s : List.length (ns s) = List.length s. Proof. apply map_length. Qed.
Lemma bs_length s : List.length (bs s) = List.length s. Proof. apply map_length. Qed.
Lemma ns_app a b : ns (a ++ b) = ns a ++ ns b. Proof. apply map_app. Qed.

Lemma byt_app a b : byt a -> byt b -> byt (a ++ b). Proof. intros. now apply Forall_app. Qed.
Lemma byt_firstn n l : byt l -> byt (firstn n l).
Proof. intros H. rewrite <- (firstn_skipn n l) in H. now apply Forall_app in H. Qed.
Lemma byt_skipn n l : byt l -> byt (skipn n l).
Proof. intros H. rewrite <- (firstn_skipn n l) in H. now apply Forall_app in H. Qed.
Lemma lxor_byte a b : a < 256 -> b < 256 -> N.lxor a b < 256.
Proof.
  intros A B. assert (E : N.lxor a b = N.lxor a b mod 2 ^ 8).
  { rewrite <- N.land_ones. apply N.bits_inj. intros i. rewrite N.land_spec, N.lxor_spec.
    destruct (N.lt_ge_cases i 8) as [L|L].
    - rewrite N.ones_spec_low by exact L. now rewrite andb_true_r.
    - rewrite N.ones_spec_high by exact L. rewrite andb_false_r.
      replace a with (a mod 2 ^ 8) by (apply N.mod_small; exact A). replace b with (b mod 2 ^ 8) by (apply N.mod_small; exact B).
      rewrite !N.mod_pow2_bits_high by exact L. reflexivity. }
  rewrite E. apply N.mod_lt. discriminate.
Qed.
Lemma xors_length a b : List.length (xors a b) = Nat.min (List.length a) (List.length b).
Proof. unfold xors. now rewrite map_length, combine_length. Qed.
Lemma xors_cons x y a b : xors (x :: a) (y :: b) = N.lxor x y :: xors a b. Proof. reflexivity. Qed.
Lemma xors_byt a b : byt a -> byt b -> byt (xors a b).
Proof.
  intros A. revert b. induction A as [|x a X A IH]; intros b B; [constructor|]. destruct B as [|y b Y B]; [constructor|].
  rewrite xors_cons. constructor; [now apply lxor_byte|now apply IH].
Qed.
Lemma xors_same k : forall s, (List.length s <= List.length k)%nat -> xors k (xors k s) = s.
Proof.
  induction k as [|x k IH]; intros [|y s] H; cbn [List.length] in H; try reflexivity; try lia.
  rewrite !xors_cons, IH by lia. f_equal. now rewrite <- N.lxor_assoc, N.lxor_nilpotent, N.lxor_0_l.
Qed.
Lemma xors_comm a : forall b, xors a b = xors b a.
Proof. induction a as [|x a IH]; intros [|y b]; try reflexivity. rewrite !xors_cons, IH. f_equal. apply N.lxor_comm. Qed.
Lemma xors_undo p k : (List.length p <= List.length k)%nat -> xors (xors p k) k = p.
Proof. intros H. rewrite (xors_comm p), (xors_comm _ k). now apply xors_same. Qed.

Lemma to_le_length n : forall x, List.length (to_le n x) = n. Proof. induction n; intros; cbn; auto. Qed.
Lemma to_le_byt n : forall x, byt (to_le n x).
Proof. induction n; intros; cbn [to_le]; constructor; [apply N.mod_lt; discriminate|apply IHn]. Qed.
Lemma to_be_length n x : List.length (to_be n x) = n. Proof. unfold to_be. now rewrite rev_length, to_le_length. Qed.
Lemma to_be_byt n x : byt (to_be n x). Proof. apply Forall_rev, to_le_byt. Qed.

(** ** Blocks *)
Definition blocks (n : nat) (l : list (list N)) : Prop := Forall (fun b => List.length b = n /\ byt b) l.
Lemma chunks_concat n : forall bl fuel, (0 < n)%nat -> Forall (fun b => List.length b = n) bl -> (List.length bl <= fuel)%nat ->
  chunks fuel n (List.concat bl) = bl.
Proof.
  induction bl as [|b bl IH]; intros fuel N0 F L; [now destruct fuel|].
  inversion F as [|b0 bl0 E F']; subst. destruct fuel as [|fuel]; [cbn in L; lia|]. cbn [List.concat]. destruct b as [|x b]; [cbn in N0; lia|].
  cbn [chunks app]. rewrite app_comm_cons. rewrite firstn_app, Nat.sub_diag, firstn_all, skipn_app, Nat.sub_diag, skipn_all. cbn [firstn skipn app].
  rewrite app_nil_r. f_equal. apply IH; auto. cbn in L. lia.
Qed.
Lemma concat_length n bl : Forall (fun b : list N => List.length b = n) bl -> List.length (List.concat bl) = (n * List.length bl)%nat.
Proof. induction 1 as [|b bl E F IH]; [cbn; lia|]. cbn [List.concat List.length]. rewrite app_length, IH, E. lia. Qed.
Lemma concat_byt bl : Forall byt bl -> byt (List.concat bl).
Proof. induction 1; [constructor|]. cbn [List.concat]. now apply byt_app. Qed.
Lemma chunks_whole n : forall k l fuel, (0 < n)%nat -> List.length l = (n * k)%nat -> (k <= fuel)%nat ->
  List.concat (chunks fuel n l) = l /\ Forall (fun b => List.length b = n) (chunks fuel n l) /\ List.length (chunks fuel n l) = k.
Proof.
  induction k as [|k IH]; intros l fuel N0 L F.
  - assert (l = []) as -> by (destruct l; [reflexivity|cbn in L; lia]). destruct fuel; cbn; auto.
  - destruct fuel as [|fuel]; [lia|]. destruct l as [|x l]; [cbn in L; lia|]. cbn [chunks]. set (l0 := x :: l) in *.
    destruct (IH (skipn n l0) fuel N0) as (A & B & D); [rewrite skipn_length; lia|lia|]. cbn [List.concat List.length]. rewrite A, D.
    split; [apply firstn_skipn|]. split; [constructor; [apply firstn_length_le; lia|exact B]|reflexivity].
Qed.
Lemma chunks_byt n : forall fuel l, byt l -> Forall byt (chunks fuel n l).
Proof.
  induction fuel as [|f IH]; intros l H; [constructor|]. destruct l as [|x l]; [constructor|]. cbn [chunks].
  constructor; [now apply byt_firstn|apply IH; now apply byt_skipn].
Qed.
Lemma chunks_blocks n k l fuel : (0 < n)%nat -> byt l -> List.length l = (n * k)%nat -> (k <= fuel)%nat -> blocks n (chunks fuel n l).
Proof.
  intros A B D F. destruct (chunks_whole n k l fuel A D F) as (_ & E & _). pose proof (chunks_byt n fuel l B) as G.
  unfold blocks. rewrite Forall_forall in *. auto.
Qed.

(** ** AES *)
Definition all_bytes : list N := map N.of_nat (seq 0 256).
Lemma byte_in x : x < 256 -> In x all_bytes.
Proof. intros H. apply in_map_iff. exists (N.to_nat x). split; [apply N2Nat.id|]. apply in_seq. lia. Qed.
Lemma for_bytes (f : N -> bool) : forallb f all_bytes = true -> forall x, x < 256 -> f x = true.
Proof. intros H x L. rewrite forallb_forall in H. apply H, byte_in, L. Qed.
Lemma sbox_undone x : x < 256 -> sub inv_sbox (sub sbox x) = x.
Proof. intros H. apply N.eqb_eq. exact (for_bytes (fun x => sub inv_sbox (sub sbox x) =? x) ltac:(vm_compute; reflexivity) x H). Qed.
Lemma sbox_byte x : x < 256 -> sub sbox x < 256.
Proof. intros H. apply N.ltb_lt. exact (for_bytes (fun x => sub sbox x <? 256) ltac:(vm_compute; reflexivity) x H). Qed.
Definition tim (a : N) : N := N.lxor (N.shiftl a 1) (if N.testbit a 7 then 283 else 0).
Lemma xtime_tim x : x < 256 -> xtime x = tim x.
Proof. intros H. apply N.eqb_eq. exact (for_bytes (fun x => xtime x =? tim x) ltac:(vm_compute; reflexivity) x H). Qed.
Lemma xtime_byte x : x < 256 -> xtime x < 256.
Proof. intros H. apply N.ltb_lt. exact (for_bytes (fun x => xtime x <? 256) ltac:(vm_compute; reflexivity) x H). Qed.
Lemma tim_lxor a b : tim (N.lxor a b) = N.lxor (tim a) (tim b).
Proof.
  unfold tim. rewrite N.shiftl_lxor, N.lxor_spec.
  set (u := N.shiftl a 1). set (v := N.shiftl b 1).
  destruct (N.testbit a 7), (N.testbit b 7); cbn [xorb]; apply N.bits_inj; intros i; rewrite ?N.lxor_spec, ?N.bits_0; btauto.
Qed.
Lemma xtime_lxor a b : a < 256 -> b < 256 -> xtime (N.lxor a b) = N.lxor (xtime a) (xtime b).
Proof. intros A B. rewrite !xtime_tim; auto using lxor_byte. apply tim_lxor. Qed.

(** Multiplication by the constants. *)
Lemma gm_1 a : gm a 1 = a. Proof. unfold gm. cbn. now rewrite N.lxor_0_r. Qed.
Lemma gm_2 a : gm a 2 = xtime a. Proof. unfold gm. cbn -[xtime]. now rewrite N.lxor_0_r. Qed.
Lemma gm_3 a : gm a 3 = N.lxor a (xtime a). Proof. unfold gm. cbn -[xtime]. now rewrite N.lxor_0_r. Qed.
Lemma gm_9 a : gm a 9 = N.lxor a (xtime (xtime (xtime a))). Proof. unfold gm. cbn -[xtime]. now rewrite N.lxor_0_r. Qed.
Lemma gm_11 a : gm a 11 = N.lxor a (N.lxor (xtime a) (xtime (xtime (xtime a)))). Proof. unfold gm. cbn -[xtime]. now rewrite N.lxor_0_r. Qed.
Lemma gm_13 a : gm a 13 = N.lxor a (N.lxor (xtime (xtime a)) (xtime (xtime (xtime a)))). Proof. unfold gm. cbn -[xtime]. now rewrite N.lxor_0_r. Qed.
Lemma gm_14 a : gm a 14 = N.lxor (xtime a) (N.lxor (xtime (xtime a)) (xtime (xtime (xtime a)))). Proof. unfold gm. cbn -[xtime]. now rewrite N.lxor_0_r. Qed.
Lemma mix_undone a b c d : a < 256 -> b < 256 -> c < 256 -> d < 256 -> mix 14 11 13 9 (mix 2 3 1 1 [a; b; c; d]) = [a; b; c; d].
Proof.
  intros A B D E. unfold mix. rewrite !gm_1, !gm_2, !gm_3, !gm_9, !gm_11, !gm_13, !gm_14.
  rewrite !xtime_lxor by auto 8 using lxor_byte, xtime_byte.
  repeat f_equal; apply N.bits_inj; intros i; rewrite ?N.lxor_spec; btauto.
Qed.
Lemma mix_byt a b c d : a < 256 -> b < 256 -> c < 256 -> d < 256 -> byt (mix 2 3 1 1 [a; b; c; d]).
Proof. intros. unfold mix. rewrite !gm_1, !gm_2, !gm_3. repeat (constructor; [auto 8 using lxor_byte, xtime_byte|]). constructor. Qed.

Definition state (s : list N) : Prop := List.length s = 16%nat /\ byt s.
Ltac open16 s :=
  let H := fresh in intros [H HB]; do 16 (destruct s as [|? s]; [cbn in H; lia|]); destruct s; [clear H|cbn in H; lia].
Lemma shift_undone s : state s -> inv_shift_rows (shift_rows s) = s. Proof. open16 s. reflexivity. Qed.
Lemma shift_state s : state s -> state (shift_rows s).
Proof. open16 s. split; [reflexivity|]. unfold shift_rows. cbn [map nth]. unfold byt in *. rewrite Forall_forall in *. cbn [In] in *. intros; firstorder. Qed.
Lemma sub_state s : state s -> state (map (sub sbox) s).
Proof. intros [L B]. split; [now rewrite map_length|]. apply Forall_map. eapply Forall_impl; [|exact B]. intros a. apply sbox_byte. Qed.
Lemma sub_undone s : byt s -> map (sub inv_sbox) (map (sub sbox) s) = s.
Proof. intros H. rewrite map_map. rewrite <- (map_id s) at 2. apply map_ext_in. intros a I. apply sbox_undone. unfold byt in H. rewrite Forall_forall in H. auto. Qed.
Lemma xors_state k s : state k -> state s -> state (xors k s).
Proof. intros [A B] [D E]. split; [rewrite xors_length, A, D; reflexivity|now apply xors_byt]. Qed.
Lemma mix_state s : state s -> state (mix_columns s).
Proof.
  open16 s. unfold byt in HB. repeat match goal with H : Forall _ (_ :: _) |- _ => inversion H; clear H; subst end.
  split; [reflexivity|]. unfold mix_columns. cbn [chunks firstn skipn map List.concat]. repeat apply byt_app; try (apply mix_byt; assumption). constructor.
Qed.
Lemma mix_columns_undone s : state s -> inv_mix_columns (mix_columns s) = s.
Proof.
  open16 s. unfold byt in HB. repeat match goal with H : Forall _ (_ :: _) |- _ => inversion H; clear H; subst end.
  unfold mix_columns, inv_mix_columns. rewrite chunks_concat; [|lia| |cbn; lia].
  - cbn [chunks firstn skipn]. rewrite map_map. cbn [map]. rewrite !mix_undone by assumption. reflexivity.
  - cbn [chunks firstn skipn map]. repeat (constructor; [reflexivity|]). constructor.
Qed.
Definition back (s : list N) : list N := map (sub inv_sbox) (inv_shift_rows s).
Lemma back_undone s : state s -> back (shift_rows (map (sub sbox) s)) = s.
Proof. intros H. unfold back. rewrite shift_undone by now apply sub_state. apply sub_undone, H. Qed.
Lemma enc_rounds_state : forall ks s, Forall state ks -> state s -> state (enc_rounds ks s).
Proof.
  induction ks as [|k ks IH]; intros s K H; [exact H|]. inversion K as [|k0 ks0 K1 K2]; subst.
  destruct ks as [|k' ks]; [cbn [enc_rounds]; auto using xors_state, shift_state, sub_state|].
  change (enc_rounds (k :: k' :: ks) s) with (enc_rounds (k' :: ks) (xors k (mix_columns (shift_rows (map (sub sbox) s))))).
  apply IH; [exact K2|]. auto using xors_state, shift_state, sub_state, mix_state.
Qed.
Definition undo (k0 : list N) (more : list (list N)) (s : list N) : list N :=
  match more with [] => xors k0 s | _ => dec_rounds more (inv_mix_columns (xors k0 s)) end.
Lemma dec_step k0 more s : state s -> dec_rounds (k0 :: more) (shift_rows (map (sub sbox) s)) = undo k0 more s.
Proof. intros H. destruct more as [|m more]; cbn [dec_rounds undo]; fold (back (shift_rows (map (sub sbox) s))); now rewrite back_undone. Qed.
Lemma xors_state_same k s : state k -> state s -> xors k (xors k s) = s.
Proof. intros [A _] [B _]. apply xors_same. lia. Qed.
Lemma rounds_undone : forall ks k0 more s, ks <> [] -> Forall state ks -> state s ->
  dec_rounds (tl (rev ks) ++ k0 :: more) (xors (hd [] (rev ks)) (enc_rounds ks s)) = undo k0 more s.
Proof.
  induction ks as [|k ks IH]; intros k0 more s NE K H; [congruence|]. inversion K as [|k1 ks1 K1 K2]; subst.
  destruct ks as [|k' ks].
  - cbn [rev app tl hd enc_rounds]. rewrite xors_state_same by auto using shift_state, sub_state. now apply dec_step.
  - change (enc_rounds (k :: k' :: ks) s) with (enc_rounds (k' :: ks) (xors k (mix_columns (shift_rows (map (sub sbox) s))))).
    change (rev (k :: k' :: ks)) with (rev (k' :: ks) ++ [k]). remember (rev (k' :: ks)) as l eqn:EL.
    assert (NL : l <> []) by (intros E; rewrite E in EL; apply (f_equal (@List.length _)) in EL; rewrite rev_length in EL; discriminate).
    destruct l as [|x l]; [congruence|]. cbn [app tl hd]. rewrite <- app_assoc. cbn [app].
    specialize (IH k (k0 :: more) (xors k (mix_columns (shift_rows (map (sub sbox) s))))). cbn [tl hd] in IH.
    rewrite IH; [|discriminate|exact K2|auto using xors_state, shift_state, sub_state, mix_state].
    unfold undo at 1. rewrite xors_state_same by auto using mix_state, shift_state, sub_state.
    rewrite mix_columns_undone by auto using shift_state, sub_state. now apply dec_step.
Qed.
(** Decrypting a block undoes encrypting it. *)
Lemma block_undone rk s : (2 <= List.length rk)%nat -> Forall state rk -> state s -> dec_block rk (enc_block rk s) = s.
Proof.
  intros L K H. destruct rk as [|k ks]; [cbn in L; lia|]. inversion K as [|k1 ks1 K1 K2]; subst.
  unfold dec_block, enc_block. cbn [rev]. destruct ks as [|k' ks]; [cbn in L; lia|].
  remember (rev (k' :: ks)) as l eqn:EL.
  assert (NL : l <> []) by (intros E; rewrite E in EL; apply (f_equal (@List.length _)) in EL; rewrite rev_length in EL; discriminate).
  destruct l as [|x l]; [congruence|]. cbn [app].
  pose proof (rounds_undone (k' :: ks) k [] (xors k s)) as R. rewrite <- EL in R. cbn [tl hd] in R. rewrite R; [|discriminate|exact K2|now apply xors_state].
  cbn [undo]. now apply xors_state_same.
Qed.
Lemma enc_block_state rk s : Forall state rk -> state s -> state (enc_block rk s).
Proof. intros K H. destruct K as [|k ks K1 K2]; [exact H|]. cbn [enc_block]. apply enc_rounds_state; auto using xors_state. Qed.
