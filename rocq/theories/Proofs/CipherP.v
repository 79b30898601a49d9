(** The standard ciphers and key wrapping are undone by their inverses. *)
From Coq Require Import Lia.
From Verif.Model Require Import Prelude.
From Verif.Spec Require Import Sha2 Aes Chacha.
From Verif.Proofs Require Import AesP.
Local Open Scope N_scope.

(** ** Round keys *)
Definition word (w : list N) : Prop := List.length w = 4%nat /\ byt w.
Lemma xors_word a b : word a -> word b -> word (xors a b).
Proof. intros [A B] [D E]. split; [rewrite xors_length, A, D; reflexivity|now apply xors_byt]. Qed.
Lemma sub_word w : word w -> word (map (sub sbox) w).
Proof. intros [L B]. split; [now rewrite map_length|]. apply Forall_map. eapply Forall_impl; [|exact B]. intros a. apply sbox_byte. Qed.
Lemma expand_words : forall f i rcon ws, rcon < 256 -> (8 <= List.length ws)%nat -> Forall word ws ->
  Forall word (expand f i rcon ws) /\ List.length (expand f i rcon ws) = (List.length ws + f)%nat.
Proof.
  induction f as [|f IH]; intros i rcon ws R L F; [cbn; split; [exact F|lia]|].
  assert (P : word (hd [] ws)) by (destruct F; [cbn in L; lia|assumption]).
  assert (O : word (nth 7 ws [])) by (rewrite Forall_forall in F; apply F, nth_In; lia).
  assert (step : forall i' r' w, r' < 256 -> word w ->
    Forall word (expand f i' r' (w :: ws)) /\ List.length (expand f i' r' (w :: ws)) = (List.length ws + S f)%nat).
  { intros i' r' w R' W. destruct (IH i' r' (w :: ws) R') as [A B]; [cbn; lia|now constructor|]. split; [exact A|]. rewrite B. cbn. lia. }
  cbn [expand]. destruct (Nat.modulo i 8) as [|[|[|[|[|?]]]]]; try (apply step; auto using xors_word, sub_word).
  apply xtime_byte, R. apply xors_word; [exact O|].
  destruct (hd [] ws) as [|a [|b [|c [|d [|]]]]]; destruct P as [P1 P2]; try discriminate P1.
  unfold byt in P2. repeat match goal with H : Forall _ (_ :: _) |- _ => inversion H; clear H; subst end.
  split; [reflexivity|]. cbn [tl hd app map]. repeat (constructor; [auto using lxor_byte, sbox_byte|]). constructor.
Qed.
Lemma round_keys_ok key : List.length key = 32%nat -> byt key -> Forall state (round_keys key) /\ List.length (round_keys key) = 15%nat.
Proof.
  intros L B. unfold round_keys.
  destruct (chunks_whole 4 8 key 8) as (_ & C2 & C3); [lia|lia|lia|]. pose proof (chunks_byt 4 8 key B) as C4.
  assert (W : Forall word (rev (chunks 8 4 key))) by (apply Forall_rev; unfold word; rewrite Forall_forall in *; auto).
  destruct (expand_words 52 8 1 (rev (chunks 8 4 key))) as [E1 E2]; [reflexivity|rewrite rev_length; lia|exact W|].
  rewrite rev_length, C3 in E2. set (ws := expand 52 8 1 (rev (chunks 8 4 key))) in *.
  assert (A1 : Forall (fun b => List.length b = 4%nat) (rev ws)) by (apply Forall_rev; eapply Forall_impl; [|exact E1]; now intros w []).
  assert (A2 : byt (List.concat (rev ws))) by (apply concat_byt, Forall_rev; eapply Forall_impl; [|exact E1]; now intros w []).
  assert (A3 : List.length (List.concat (rev ws)) = (16 * 15)%nat) by (rewrite (concat_length 4) by exact A1; rewrite rev_length, E2; reflexivity).
  split; [exact (chunks_blocks 16 15 _ 15 ltac:(lia) A2 A3 ltac:(lia))|].
  now apply (chunks_whole 16 15 _ 15 ltac:(lia) A3 ltac:(lia)).
Qed.

Section Keyed.
Variable rk : list (list N).
Hypothesis RK : Forall state rk.
Hypothesis RL : (2 <= List.length rk)%nat.
Let enc_dec s : state s -> dec_block rk (enc_block rk s) = s. Proof. now apply block_undone. Qed.
Let enc_state s : state s -> state (enc_block rk s). Proof. now apply enc_block_state. Qed.

(** ** Key wrapping *)
Definition half (a : list N) : Prop := List.length a = 8%nat /\ byt a.
Lemma halves a x : half a -> half x -> state (a ++ x).
Proof. intros [A B] [D E]. split; [rewrite app_length; lia|now apply byt_app]. Qed.
Lemma first_half s : state s -> half (firstn 8 s).
Proof. intros [A B]. split; [apply firstn_length_le; lia|now apply byt_firstn]. Qed.
Lemma second_half s : state s -> half (skipn 8 s).
Proof. intros [A B]. split; [rewrite skipn_length; lia|now apply byt_skipn]. Qed.
Lemma tagged a t : half a -> half (xors a (to_be 8 t)).
Proof. intros [A B]. split; [rewrite xors_length, to_be_length; lia|apply xors_byt; [exact B|apply to_be_byt]]. Qed.
Lemma unwrap_steps_app : forall l1 t a x, unwrap_steps rk t a (l1 ++ [x]) =
  let '(a1, r1, t1) := unwrap_steps rk t a l1 in
  let b := dec_block rk (xors a1 (to_be 8 t1) ++ x) in (firstn 8 b, r1 ++ [skipn 8 b], t1 - 1).
Proof.
  induction l1 as [|y l1 IH]; intros t a x; [reflexivity|]. cbn [app unwrap_steps]. cbv zeta. rewrite IH.
  destruct (unwrap_steps rk (t - 1) _ l1) as [[a1 r1] t1]. reflexivity.
Qed.
Lemma wrap_steps_ok : forall r t a, half a -> Forall half r -> 1 <= t ->
  exists a' r', wrap_steps rk t a r = (a', r', t + N.of_nat (List.length r)) /\ half a' /\ Forall half r' /\ List.length r' = List.length r
    /\ unwrap_steps rk (t + N.of_nat (List.length r) - 1) a' (rev r') = (a, rev r, t - 1).
Proof.
  induction r as [|x r IH]; intros t a A R T.
  - exists a, []. cbn [wrap_steps unwrap_steps rev List.length]. rewrite N.add_0_r. auto.
  - inversion R as [|x0 r0 X R']; subst. cbn [wrap_steps]. cbv zeta.
    pose proof (enc_state _ (halves a x A X)) as E. set (b := enc_block rk (a ++ x)) in *.
    destruct (IH (t + 1) (xors (firstn 8 b) (to_be 8 t))) as (a' & r' & W & A' & R1 & L & U); [apply tagged, first_half, E|exact R'|lia|].
    rewrite W. replace (t + 1 + N.of_nat (List.length r)) with (t + N.of_nat (List.length (x :: r))) in * by (cbn [List.length]; lia).
    exists a', (skipn 8 b :: r'). split; [reflexivity|]. split; [exact A'|]. split; [constructor; [now apply second_half|exact R1]|].
    split; [cbn [List.length]; lia|]. cbn [rev]. rewrite unwrap_steps_app, U. replace (t + 1 - 1) with t by lia. cbv zeta.
    destruct (first_half b E) as [F1 _].
    rewrite xors_undo by (rewrite to_be_length; lia). rewrite firstn_skipn. unfold b. rewrite enc_dec by now apply halves.
    destruct A as [A1 _]. rewrite firstn_app, skipn_app, A1, Nat.sub_diag, firstn_O, app_nil_r, firstn_all2, skipn_all2 by lia. reflexivity.
Qed.
Fixpoint wrapped (n : nat) (t : N) (a : list N) (r : list (list N)) : list N * list (list N) * N :=
  match n with O => (a, r, t) | S n => let '(a, r, t) := wrap_steps rk t a r in wrapped n t a r end.
Lemma wrap_loop_wrapped : forall n t a r, wrap_loop n rk t a r = let '(a, r, _) := wrapped n t a r in a ++ List.concat r.
Proof. induction n as [|n IH]; intros t a r; [reflexivity|]. cbn [wrap_loop wrapped]. destruct (wrap_steps rk t a r) as [[a' r'] t']. apply IH. Qed.
Lemma unwrap_loop_add : forall n m t a r a1 r1 t1,
  (forall k, unwrap_loop (n + k) rk t a r = unwrap_loop k rk t1 a1 r1) -> unwrap_loop (n + m) rk t a r = unwrap_loop m rk t1 a1 r1.
Proof. intros. auto. Qed.
Lemma wrapped_ok : forall n t a r, half a -> Forall half r -> 1 <= t ->
  exists a' r', wrapped n t a r = (a', r', t + N.of_nat n * N.of_nat (List.length r)) /\ half a' /\ Forall half r' /\ List.length r' = List.length r
    /\ forall k, unwrap_loop (n + k) rk (t + N.of_nat n * N.of_nat (List.length r) - 1) a' (rev r') = unwrap_loop k rk (t - 1) a (rev r).
Proof.
  induction n as [|n IH]; intros t a r A R T.
  - exists a, r. cbn [wrapped Nat.add]. rewrite N.mul_0_l, N.add_0_r. auto.
  - destruct (wrap_steps_ok r t a A R T) as (a1 & r1 & W & A1 & R1 & L1 & U1).
    destruct (IH (t + N.of_nat (List.length r)) a1 r1 A1 R1) as (a2 & r2 & W2 & A2 & R2 & L2 & U2); [lia|].
    exists a2, r2. cbn [wrapped]. rewrite W, W2. rewrite L1 in *.
    replace (t + N.of_nat (List.length r) + N.of_nat n * N.of_nat (List.length r)) with (t + N.of_nat (S n) * N.of_nat (List.length r)) in * by lia.
    split; [reflexivity|]. split; [exact A2|]. split; [exact R2|]. split; [congruence|]. intros k.
    replace (S n + k)%nat with (n + S k)%nat by lia. rewrite U2. cbn [unwrap_loop]. rewrite U1. reflexivity.
Qed.

(** ** CBC *)
Fixpoint cbc_e (v : list N) (bl : list (list N)) : list (list N) :=
  match bl with [] => [] | b :: bl => let c := enc_block rk (xors v b) in c :: cbc_e c bl end.
Fixpoint cbc_d (v : list N) (bl : list (list N)) : list (list N) :=
  match bl with [] => [] | c :: bl => xors v (dec_block rk c) :: cbc_d c bl end.
Lemma fold_cbc_e : forall bl v out, rev (snd (fold_left (fun '(v, out) b => let c := enc_block rk (xors v b) in (c, c :: out)) bl (v, out))) = rev out ++ cbc_e v bl.
Proof. induction bl as [|b bl IH]; intros v out; cbn [fold_left cbc_e]; [now rewrite app_nil_r|]. rewrite IH. cbn [rev]. now rewrite <- app_assoc. Qed.
Lemma fold_cbc_d : forall bl v out, rev (snd (fold_left (fun '(v, out) b => (b, xors v (dec_block rk b) :: out)) bl (v, out))) = rev out ++ cbc_d v bl.
Proof. induction bl as [|b bl IH]; intros v out; cbn [fold_left cbc_d]; [now rewrite app_nil_r|]. rewrite IH. cbn [rev]. now rewrite <- app_assoc. Qed.
Lemma cbc_states : forall bl v, state v -> Forall state bl -> Forall state (cbc_e v bl).
Proof. induction bl as [|b bl IH]; intros v V F; cbn [cbc_e]; constructor; inversion F; subst; auto using xors_state. Qed.
Lemma cbc_length : forall bl v, List.length (cbc_e v bl) = List.length bl.
Proof. induction bl as [|b bl IH]; intros v; cbn [cbc_e List.length]; auto. Qed.
Lemma cbc_undone : forall bl v, state v -> Forall state bl -> cbc_d v (cbc_e v bl) = bl.
Proof.
  induction bl as [|b bl IH]; intros v V F; [reflexivity|]. inversion F; subst. cbn [cbc_e cbc_d]. cbv zeta.
  rewrite enc_dec by now apply xors_state. rewrite IH by auto using xors_state. rewrite xors_state_same by assumption. reflexivity.
Qed.
End Keyed.

(** ** Key streams *)
Section Stream.
Variables (w : nat) (g : N -> list N).
Hypothesis W0 : (0 < w)%nat.
Hypothesis G : forall i, List.length (g i) = w.
Fixpoint strm (fuel : nat) (i : N) (p : list N) : list N :=
  match fuel, p with
  | S f, _ :: _ => xors (firstn w p) (g i) ++ strm f (i + 1) (skipn w p)
  | _, _ => []
  end.
Lemma strm_length : forall fuel i p, (List.length p <= fuel)%nat -> List.length (strm fuel i p) = List.length p.
Proof.
  induction fuel as [|f IH]; intros i p L; [destruct p; [reflexivity|cbn in L; lia]|]. destruct p as [|x p]; [reflexivity|]. cbn [strm].
  set (l := x :: p) in *. assert (1 <= List.length l)%nat by (cbn; lia). rewrite app_length, xors_length, firstn_length, IH, skipn_length, G by (rewrite skipn_length; lia). lia.
Qed.
Lemma strm_byt : (forall i, byt (g i)) -> forall fuel i p, byt p -> byt (strm fuel i p).
Proof.
  intros B. induction fuel as [|f IH]; intros i p P; [constructor|]. destruct p as [|x p]; [constructor|]. cbn [strm].
  apply byt_app; [apply xors_byt; [now apply byt_firstn|apply B]|apply IH; now apply byt_skipn].
Qed.
Lemma strm_undone : forall f1 f2 i p, (List.length p <= f1)%nat -> (List.length p <= f2)%nat -> strm f2 i (strm f1 i p) = p.
Proof.
  induction f1 as [|f1 IH]; intros f2 i p L1 L2; [destruct p; [now destruct f2|cbn in L1; lia]|]. destruct p as [|x p]; [now destruct f2|].
  cbn [strm]. set (l := x :: p) in *. assert (LL : (1 <= List.length l)%nat) by (cbn; lia).
  destruct f2 as [|f2]; [lia|]. set (h := xors (firstn w l) (g i)). set (t := strm f1 (i + 1) (skipn w l)).
  assert (H : List.length h = Nat.min w (List.length l)) by (unfold h; rewrite xors_length, firstn_length, G; lia).
  assert (T : List.length t = (List.length l - w)%nat) by (unfold t; rewrite strm_length by (rewrite skipn_length; lia); apply skipn_length).
  assert (Hf : firstn w (h ++ t) = h).
  { rewrite firstn_app. rewrite firstn_all2 by lia. destruct (Nat.le_gt_cases w (List.length l)).
    - replace (w - List.length h)%nat with 0%nat by lia. cbn [firstn]. apply app_nil_r.
    - assert (E0 : t = []) by (apply length_zero_iff_nil; lia). rewrite E0. rewrite firstn_nil. apply app_nil_r. }
  assert (Ht : skipn w (h ++ t) = t).
  { rewrite skipn_app. rewrite skipn_all2 by lia. destruct (Nat.le_gt_cases w (List.length l)).
    - replace (w - List.length h)%nat with 0%nat by lia. reflexivity.
    - assert (E0 : t = []) by (apply length_zero_iff_nil; lia). rewrite E0. now rewrite skipn_nil. }
  destruct (h ++ t) as [|y q] eqn:E; [apply (f_equal (@List.length _)) in E; rewrite app_length in E; cbn [List.length] in E; lia|].
  rewrite <- E in *. cbn [strm]. rewrite E. change (strm (S f2) i (y :: q)) with (xors (firstn w (y :: q)) (g i) ++ strm f2 (i + 1) (skipn w (y :: q))).
  rewrite <- E, Hf, Ht. unfold h. rewrite xors_undo by (rewrite firstn_length, G; lia).
  unfold t. rewrite IH by (rewrite skipn_length; lia). apply firstn_skipn.
Qed.
End Stream.
Lemma ctr_strm rk iv : forall f i p, ctr f rk iv i p = strm 16 (fun i => enc_block rk (iv ++ to_be 4 i)) f i p.
Proof. induction f as [|f IH]; intros i p; [reflexivity|]. destruct p; [reflexivity|]. cbn [ctr strm]. now rewrite IH. Qed.
Lemma chacha_strm k n : forall f i p, chacha f k n i p = strm 64 (chacha_block k n) f i p.
Proof. induction f as [|f IH]; intros i p; [reflexivity|]. destruct p; [reflexivity|]. cbn [chacha strm]. now rewrite IH. Qed.
