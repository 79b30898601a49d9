(** Base58 decoding and key representations. *)
From Verif.Model Require Import Prelude Json Base64 Base58 DidDoc Crypto Keys.
From Verif.Proofs Require Import Lib SmallP.
From Verif.Spec Require Import Small.

Fixpoint le_val (out : list N) : N := match out with [] => 0%N | b :: o => (b + 256 * le_val o)%N end.
Definition small (out : list N) := Forall (fun b => b < 256)%N out.
(** no zero most significant byte *)
Fixpoint topnz (out : list N) : Prop :=
  match out with [] => True | [b] => b <> 0%N | _ :: o => topnz o end.

Lemma mul_add_val val out : le_val (mul_add val out) = (val + 58 * le_val out)%N.
Proof.
  revert val; induction out as [|b o IH]; intros val; cbn [mul_add le_val].
  - destruct (N.eqb_spec val 0); cbn [le_val]; lia.
  - rewrite IH. pose proof (N.div_mod (val + b * 58) 256 ltac:(lia)). lia.
Qed.
Lemma mul_add_small val out : (val < 58)%N -> small out -> small (mul_add val out).
Proof.
  intros V H; revert val V; induction H as [|b o Hb Ho IH]; intros val V; cbn [mul_add].
  - destruct (val =? 0)%N; constructor; [lia|constructor].
  - constructor; [apply N.mod_lt; lia|]. apply IH. apply N.div_lt_upper_bound; lia.
Qed.
Lemma topnz_val out : topnz out -> out <> [] -> le_val out <> 0%N.
Proof.
  induction out as [|b o IH]; intros T N; [congruence|]. destruct o as [|c o]; cbn [topnz le_val] in *; [lia|].
  specialize (IH T ltac:(discriminate)). cbn [le_val] in IH. lia.
Qed.
Lemma mul_add_nil val out : mul_add val out = [] -> val = 0%N /\ out = [].
Proof. destruct out; cbn [mul_add]; [|discriminate]. destruct (N.eqb_spec val 0); [auto|discriminate]. Qed.
Lemma mul_add_top val out : topnz out -> topnz (mul_add val out).
Proof.
  revert val; induction out as [|b o IH]; intros val T; cbn [mul_add].
  - destruct (N.eqb_spec val 0); cbn; auto.
  - destruct (mul_add ((val + b * 58) / 256) o) as [|c r] eqn:E.
    + apply mul_add_nil in E as [E ->]. cbn in *. apply N.div_small_iff in E; [|lia]. rewrite N.mod_small by lia. lia.
    + change (topnz (c :: r)). rewrite <- E. apply IH. destruct o; cbn in *; auto.
Qed.

Lemma index_of_spec c l i n : index_of c l i = Some n ->
  (i <= n)%N /\ nth_error l (N.to_nat (n - i)) = Some c.
Proof.
  revert i; induction l as [|x l IH]; intros i; cbn; [discriminate|]. destruct (Ascii.eqb_spec c x).
  - injection 1 as <-. subst. split; [lia|]. now rewrite N.sub_diag.
  - intros H. apply IH in H as [L H]. split; [lia|].
    replace (N.to_nat (n - i)) with (S (N.to_nat (n - N.succ i))) by lia. exact H.
Qed.
Lemma index_of_nth l : NoDup l -> forall c k i, nth_error l k = Some c -> index_of c l i = Some (i + N.of_nat k)%N.
Proof.
  induction 1 as [|x l NI ND IH]; intros c k i H; [destruct k; discriminate|]. destruct k as [|k]; cbn in *.
  - injection H as ->. rewrite Ascii.eqb_refl. f_equal. lia.
  - destruct (Ascii.eqb_spec c x); [subst; destruct NI; eapply nth_error_In; eauto|]. rewrite (IH _ _ _ H). f_equal. lia.
Qed.
Lemma alphabet58_nodup : NoDup alphabet58.
Proof. vm_compute. repeat (constructor; [cbn; intuition discriminate|]). constructor. Qed.
Lemma b58_val_spec c d : b58_val c = Some d <-> nth_error alphabet58 (N.to_nat d) = Some c.
Proof.
  split.
  - intros H. apply index_of_spec in H as [_ H]. now rewrite N.sub_0_r in H.
  - intros H. unfold b58_val. change b58_alphabet with alphabet58. rewrite (index_of_nth _ alphabet58_nodup _ _ 0 H). f_equal. lia.
Qed.
Lemma b58_val_lt c d : b58_val c = Some d -> (d < 58)%N.
Proof.
  intros H. apply b58_val_spec in H. assert (N.to_nat d < List.length alphabet58); [|change (List.length alphabet58) with 58 in *; lia].
  apply nth_error_Some. congruence.
Qed.

Lemma digits_spec s : forall out out', b58_digits s out = Some out' -> exists ds,
  Forall2 (fun c d => b58_val c = Some d) s ds
  /\ le_val out' = fold_left (fun a d => a * 58 + d)%N ds (le_val out)
  /\ (small out -> small out') /\ (topnz out -> topnz out').
Proof.
  induction s as [|c s IH]; intros out out'; cbn [b58_digits].
  - injection 1 as <-. exists []. auto.
  - destruct (b58_val c) as [d|] eqn:E; [|discriminate]. intros H. apply IH in H as (ds & F & V & S & T).
    exists (d :: ds). split; [now constructor|]. split; [|split].
    + rewrite V, mul_add_val. cbn [fold_left]. f_equal. lia.
    + intros K. apply S, mul_add_small; auto. eapply b58_val_lt; eauto.
    + intros K. apply T, mul_add_top, K.
Qed.
Lemma digits_some s ds : Forall2 (fun c d => b58_val c = Some d) s ds -> forall out, exists out', b58_digits s out = Some out'.
Proof. induction 1 as [|c d s ds E F IH]; intros out; cbn [b58_digits]; [eauto|]. rewrite E. apply IH. Qed.

Lemma fold_be base ds : forall a, fold_left (fun a d => a * base + d)%N ds a = (a * base ^ N.of_nat (List.length ds) + be_value base ds)%N.
Proof.
  unfold be_value. induction ds as [|d ds IH]; intros a; cbn [fold_left List.length].
  - rewrite N.pow_0_r. lia.
  - rewrite IH, (IH (0 * base + d)%N), Nat2N.inj_succ, N.pow_succ_r'. lia.
Qed.
Lemma be_value_rev out : be_value 256 (rev out) = le_val out.
Proof.
  unfold be_value. induction out as [|b o IH]; cbn [rev le_val]; auto. rewrite fold_left_app, IH. cbn [fold_left]. lia.
Qed.
Lemma le_val_unique a : forall b, small a -> small b -> topnz a -> topnz b -> le_val a = le_val b -> a = b.
Proof.
  induction a as [|x a IH]; intros b Sa Sb Ta Tb E.
  - destruct b as [|y b]; auto. exfalso. apply (topnz_val (y :: b)); auto; discriminate.
  - destruct b as [|y b]; [exfalso; apply (topnz_val (x :: a)); auto; discriminate|].
    inversion Sa; inversion Sb; subst. cbn [le_val] in E.
    assert (x = y /\ le_val a = le_val b) as [<- F].
    { assert ((x + 256 * le_val a) mod 256 = (y + 256 * le_val b) mod 256)%N by now rewrite E.
      rewrite !(N.mul_comm 256), !N.mod_add, !N.mod_small in * by lia. lia. }
    f_equal. apply IH; auto.
    + destruct a; cbn in *; auto.
    + destruct b; cbn in *; auto.
Qed.

Lemma small_ascii l : small (map N_of_ascii l).
Proof. induction l; cbn; constructor; auto. apply N_ascii_bounded. Qed.
Lemma map_ascii_id l : map ascii_of_N (map N_of_ascii l) = l.
Proof. induction l; cbn; [auto|]. now rewrite ascii_N_embedding, IHl. Qed.
Lemma map_N_id l : small l -> map N_of_ascii (map ascii_of_N l) = l.
Proof. induction 1; cbn; auto. rewrite N_ascii_embedding by auto. now f_equal. Qed.
Lemma topnz_app l b : topnz (l ++ [b]) <-> b <> 0%N.
Proof.
  induction l as [|x l IH]; cbn; [tauto|]. destruct (l ++ [b]) eqn:E; [destruct l; discriminate|]. exact IH.
Qed.
Lemma topnz_head x : (forall y, x <> zero :: y) <-> topnz (rev (map N_of_ascii x)).
Proof.
  destruct x as [|c x]; cbn [map rev]; [split; [cbn; auto|congruence]|]. rewrite topnz_app. split.
  - intros H E. apply (H x). f_equal. rewrite <- (ascii_N_embedding c), E. reflexivity.
  - intros H y E. injection E as -> _. apply H. reflexivity.
Qed.
Lemma lead_ones_app z t : (forall y, t <> "1"%char :: y) -> lead_ones (repeat "1"%char z ++ t) = z.
Proof.
  intros H. induction z as [|z IH]; cbn [repeat app lead_ones].
  - destruct t as [|c t]; cbn; auto. destruct (Ascii.eqb_spec c "1"); auto. subst. destruct (H t eq_refl).
  - rewrite Ascii.eqb_refl. now rewrite IH.
Qed.
Lemma lead_ones_split t : exists t', t = repeat "1"%char (lead_ones t) ++ t' /\ forall y, t' <> "1"%char :: y.
Proof.
  induction t as [|c t (t' & E & N)]; [exists []; split; [auto|congruence]|]. cbn [lead_ones].
  destruct (Ascii.eqb_spec c "1").
  - subst c. exists t'. split; auto. cbn. now f_equal.
  - exists (c :: t). split; auto. intros y F. congruence.
Qed.
Lemma digits_ones z t : b58_digits (repeat "1"%char z ++ t) [] = b58_digits t [].
Proof. induction z; cbn [repeat app b58_digits]; auto. Qed.
Lemma map_rev_zero z : map ascii_of_N (repeat 0%N z) = repeat zero z.
Proof. induction z; cbn; congruence. Qed.
Lemma rev_repeat' {A} (a : A) n : rev (repeat a n) = repeat a n.
Proof.
  induction n; cbn; auto. rewrite IHn. clear. induction n; cbn; auto. now f_equal.
Qed.

Lemma b58dec_spec t x : b58dec t = Some x <-> is_base58 x t.
Proof.
  unfold b58dec. split.
  - destruct (b58_digits t []) as [out|] eqn:E; [|discriminate]. injection 1 as <-.
    destruct (lead_ones_split t) as (t' & T & N). rewrite T, digits_ones in E.
    destruct (digits_spec _ _ _ E) as (ds & F & V & S & P). specialize (S (Forall_nil _)). specialize (P I).
    exists (lead_ones t), (map ascii_of_N (rev out)), t', ds.
    split; [|split; [auto|split; [|split; [|split]]]]; auto.
    + rewrite rev_app_distr, rev_repeat', map_app. now rewrite map_rev_zero.
    + clear -F. induction F; constructor; auto. now apply b58_val_spec.
    + rewrite map_N_id by (now apply Forall_rev). rewrite be_value_rev, V. reflexivity.
    + apply topnz_head. rewrite map_N_id by (now apply Forall_rev). now rewrite rev_involutive.
  - intros (z & x' & t' & ds & -> & -> & F & V & X & N). rewrite digits_ones, lead_ones_app by auto.
    assert (F' : Forall2 (fun c d => b58_val c = Some d) t' ds).
    { clear -F. induction F; constructor; auto. now apply b58_val_spec. }
    destruct (digits_some _ _ F' []) as (out & E). rewrite E. destruct (digits_spec _ _ _ E) as (ds' & G & V' & S & P).
    assert (ds' = ds) as ->.
    { clear -F' G. revert ds' G; induction F'; intros ds' G; inversion G; subst; auto. f_equal; [congruence|auto]. }
    specialize (S (Forall_nil _)). specialize (P I).
    assert (O : out = rev (map N_of_ascii x')).
    { apply le_val_unique; auto; [now apply Forall_rev, small_ascii|now apply topnz_head|].
      rewrite <- be_value_rev, <- (be_value_rev (rev _)), rev_involutive, <- V, be_value_rev, V'. reflexivity. }
    rewrite O, rev_app_distr, rev_involutive, rev_repeat', map_app, map_ascii_id. now rewrite map_rev_zero.
Qed.

Lemma multicodec c rest : from_multicodec (prefix_of c ++ rest) = Ok (c, rest).
Proof. destruct c; reflexivity. Qed.
Lemma multibase_ok c x t : is_base58 (prefix_of c ++ x) t -> multibase_key c ("z"%char :: t) = Ok x.
Proof.
  intros H. apply b58dec_spec in H. unfold multibase_key. rewrite Ascii.eqb_refl, H. cbn [ok_or rbind].
  rewrite multicodec. cbn [rbind]. now destruct c.
Qed.

(** ** Key representations *)
Lemma x25519_public_reps C i c x t u :
  is_base58 x t -> is_base58 (prefix_of CX25519Pub ++ x) u ->
  let jwk := mkVM i JsonWebKey2020 c (MJwk (okp_jwk "X25519" (b64enc x))) in
  let b58 := mkVM i X25519KeyAgreementKey2019 c (MBase58 t) in
  let mb := mkVM i X25519KeyAgreementKey2020 c (MMultibase ("z"%char :: u)) in
  vm_key_pair C b58 = vm_key_pair C jwk /\ vm_key_pair C mb = vm_key_pair C jwk
  /\ vm_key_alg b58 = vm_key_alg jwk /\ vm_key_alg mb = vm_key_alg jwk.
Proof.
  intros H U. apply multibase_ok in U. apply b58dec_spec in H. cbn zeta. unfold vm_key_pair; cbn [vm_type vm_material].
  rewrite H, U. auto.
Qed.
Lemma ed25519_public_reps C i c x t u :
  is_base58 x t -> is_base58 (prefix_of CEd25519Pub ++ x) u ->
  let jwk := mkVM i JsonWebKey2020 c (MJwk (okp_jwk "Ed25519" (b64enc x))) in
  let b58 := mkVM i Ed25519VerificationKey2018 c (MBase58 t) in
  let mb := mkVM i Ed25519VerificationKey2020 c (MMultibase ("z"%char :: u)) in
  vm_key_pair C b58 = vm_key_pair C jwk /\ vm_key_pair C mb = vm_key_pair C jwk
  /\ vm_key_alg b58 = vm_key_alg jwk /\ vm_key_alg mb = vm_key_alg jwk.
Proof.
  intros H U. apply multibase_ok in U. apply b58dec_spec in H. cbn zeta. unfold vm_key_pair; cbn [vm_type vm_material].
  rewrite H, U. auto.
Qed.
Lemma x25519_secret_reps C i d t u kp :
  is_base58 d t -> is_base58 (prefix_of CX25519Priv ++ d) u ->
  x25519_from_secret C d = Some kp -> x25519_secret_bytes C kp = Some d ->
  let jwk := mkSecret i JsonWebKey2020 (MJwk (okp_jwk_priv "X25519" (b64enc d) (b64enc (x25519_public_bytes C kp)))) in
  let b58 := mkSecret i X25519KeyAgreementKey2019 (MBase58 t) in
  let mb := mkSecret i X25519KeyAgreementKey2020 (MMultibase ("z"%char :: u)) in
  sec_key_pair C b58 = sec_key_pair C jwk /\ sec_key_pair C mb = sec_key_pair C jwk
  /\ sec_key_alg b58 = sec_key_alg jwk /\ sec_key_alg mb = sec_key_alg jwk.
Proof.
  intros H U K S. apply multibase_ok in U. apply b58dec_spec in H. cbn zeta. unfold sec_key_pair; cbn [sec_type sec_material].
  rewrite H, U. cbn [ok_or rbind]. unfold x25519_secret_key. rewrite K. cbn [ok_or rbind]. rewrite S. auto.
Qed.
Lemma ed25519_secret_reps C i d x t u : List.length d = 32 ->
  is_base58 (d ++ x) t -> is_base58 (prefix_of CEd25519Priv ++ d ++ x) u ->
  let jwk := mkSecret i JsonWebKey2020 (MJwk (okp_jwk_priv "Ed25519" (b64enc d) (b64enc x))) in
  let b58 := mkSecret i Ed25519VerificationKey2018 (MBase58 t) in
  let mb := mkSecret i Ed25519VerificationKey2020 (MMultibase ("z"%char :: u)) in
  sec_key_pair C b58 = sec_key_pair C jwk /\ sec_key_pair C mb = sec_key_pair C jwk
  /\ sec_key_alg b58 = sec_key_alg jwk /\ sec_key_alg mb = sec_key_alg jwk.
Proof.
  intros L H U. apply multibase_ok in U. apply b58dec_spec in H. cbn zeta. unfold sec_key_pair; cbn [sec_type sec_material].
  assert (S : split_at 32 (d ++ x) = Ok (d, x)).
  { unfold split_at. rewrite app_length, L. replace (Nat.leb 32 (32 + List.length x)) with true by (symmetry; apply Nat.leb_le; lia).
    now rewrite <- L, firstn_app, firstn_all, Nat.sub_diag, firstn_O, app_nil_r, skipn_app, skipn_all, Nat.sub_diag. }
  rewrite H, U. cbn [ok_or rbind]. unfold ed25519_secret_key. rewrite S. auto.
Qed.
