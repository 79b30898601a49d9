(** Basic facts about byte strings, results and executions. *)
From Verif.Model Require Import Prelude Json DidDoc Crypto Effects.
From Coq Require Import Permutation.

(** ** Byte strings *)
Lemma beq_eq a b : beq a b = true <-> a = b.
Proof.
  revert b; induction a as [|x a IH]; intros [|y b]; cbn; try (split; congruence).
  rewrite andb_true_iff, IH, Ascii.eqb_eq. split; [intros [-> ->]; auto | now injection 1].
Qed.
Lemma beq_refl a : beq a a = true. Proof. now apply beq_eq. Qed.
Lemma beq_neq a b : beq a b = false <-> a <> b.
Proof.
  rewrite <- beq_eq. destruct (beq a b); split; congruence.
Qed.
Lemma beq_sym a b : beq a b = beq b a.
Proof.
  destruct (beq b a) eqn:E; [apply beq_eq in E; subst; apply beq_refl|].
  apply beq_neq in E. apply beq_neq. congruence.
Qed.
Lemma beq_spec a b : Bool.reflect (a = b) (beq a b).
Proof. destruct (beq a b) eqn:E; constructor; [now apply beq_eq | now apply beq_neq]. Qed.
Lemma beq_opt_eq a b : beq_opt a b = true <-> a = b.
Proof.
  destruct a, b; cbn; try (split; congruence). rewrite beq_eq; split; congruence.
Qed.
Lemma bytes_eq_dec (a b : bytes) : {a = b} + {a <> b}.
Proof. apply list_eq_dec, ascii_dec. Qed.

Lemma N_of_ascii_inj x y : N_of_ascii x = N_of_ascii y -> x = y.
Proof. intros H. rewrite <- (ascii_N_embedding x), <- (ascii_N_embedding y). congruence. Qed.
Lemma N_ascii_bounded a : (N_of_ascii a < 256)%N.
Proof.
  destruct a as [[] [] [] [] [] [] [] []]; vm_compute; reflexivity.
Qed.
Lemma N_of_ascii_of_N n : (n < 256)%N -> N_of_ascii (ascii_of_N n) = n.
Proof. apply N_ascii_embedding. Qed.

Lemma bcmp_eq a b : bcmp a b = Eq <-> a = b.
Proof.
  revert b; induction a as [|x a IH]; intros [|y b]; cbn; try (split; congruence).
  destruct (N.compare_spec (N_of_ascii x) (N_of_ascii y)) as [E|E|E].
  - rewrite IH. apply N_of_ascii_inj in E. subst. split; [intros ->; auto | now injection 1].
  - split; [congruence | injection 1; intros; subst; lia].
  - split; [congruence | injection 1; intros; subst; lia].
Qed.
Lemma bcmp_refl a : bcmp a a = Eq. Proof. now apply bcmp_eq. Qed.
Lemma bcmp_antisym a b : bcmp b a = CompOpp (bcmp a b).
Proof.
  revert b; induction a as [|x a IH]; intros [|y b]; cbn; auto.
  rewrite N.compare_antisym. destruct (N_of_ascii x ?= N_of_ascii y)%N; cbn; auto.
Qed.
Lemma bcmp_trans a b c : bcmp a b = Lt -> bcmp b c = Lt -> bcmp a c = Lt.
Proof.
  revert b c; induction a as [|x a IH]; intros [|y b] [|z c]; cbn; try congruence.
  destruct (N.compare_spec (N_of_ascii x) (N_of_ascii y)) as [E|E|E]; try congruence;
    destruct (N.compare_spec (N_of_ascii y) (N_of_ascii z)) as [F|F|F]; try congruence; intros H1 H2.
  - rewrite E, F, N.compare_refl. eauto.
  - rewrite E. apply N.compare_lt_iff in F. now rewrite F.
  - rewrite <- F. apply N.compare_lt_iff in E. now rewrite E.
  - assert (G : (N_of_ascii x < N_of_ascii z)%N) by lia. apply N.compare_lt_iff in G. now rewrite G.
Qed.
Lemma ble_total a b : ble a b = true \/ ble b a = true.
Proof. unfold ble. rewrite (bcmp_antisym a b). destruct (bcmp a b); cbn; auto. Qed.
Lemma ble_trans a b c : ble a b = true -> ble b c = true -> ble a c = true.
Proof.
  unfold ble. destruct (bcmp a b) eqn:E; try congruence; destruct (bcmp b c) eqn:F; try congruence; intros _ _.
  - apply bcmp_eq in E, F. subst. now rewrite bcmp_refl.
  - apply bcmp_eq in E. subst. now rewrite F.
  - apply bcmp_eq in F. subst. now rewrite E.
  - now rewrite (bcmp_trans _ _ _ E F).
Qed.
Lemma ble_antisym a b : ble a b = true -> ble b a = true -> a = b.
Proof.
  unfold ble. rewrite (bcmp_antisym a b). destruct (bcmp a b) eqn:E; cbn; try congruence.
  now apply bcmp_eq in E.
Qed.

(** Strong induction on length. *)
Lemma len_ind {A} (P : list A -> Prop) :
  (forall s, (forall t, List.length t < List.length s -> P t) -> P s) -> forall s, P s.
Proof.
  intros H. assert (K : forall n s, List.length s < n -> P s).
  { induction n; [lia|]. intros s Hs. apply H. intros t Ht. apply IHn. lia. }
  intros s. apply (K (S (List.length s))). lia.
Qed.

(** ** Sorting *)
Lemma insert_perm x l : Permutation (x :: l) (insert_sorted x l).
Proof.
  induction l as [|y l IH]; cbn; auto. destruct (ble x y); auto.
  rewrite perm_swap. now constructor.
Qed.
Lemma sort_perm l : Permutation l (sort l).
Proof. induction l; cbn; auto. rewrite <- insert_perm. now constructor. Qed.
Definition bsorted := fix go (l : list bytes) : Prop :=
  match l with [] => True | x :: l' => (forall y, In y l' -> ble x y = true) /\ go l' end.
Lemma sort_sorted l : bsorted (sort l).
Proof.
  induction l as [|x l IH]; cbn; auto.
  generalize dependent (sort l). clear. intros l. induction l as [|y l IH]; cbn; auto.
  intros [H1 H2]. destruct (ble x y) eqn:E; cbn.
  - repeat split; auto. intros z [<-|Hz]; auto. eapply ble_trans; eauto.
  - split; auto. intros z Hz.
    apply (Permutation_in _ (Permutation_sym (insert_perm x l))) in Hz. destruct Hz as [<-|Hz]; auto.
    destruct (ble_total x y); congruence.
Qed.
Lemma bsorted_perm_eq l l' : bsorted l -> bsorted l' -> Permutation l l' -> l = l'.
Proof.
  revert l'; induction l as [|x l IH]; intros l' H1 H2 P.
  - now apply Permutation_nil in P.
  - destruct l' as [|y l']; [now apply Permutation_sym, Permutation_nil in P|].
    cbn in H1, H2. destruct H1 as [H1 H1'], H2 as [H2 H2'].
    assert (x = y) as ->.
    { assert (In x (y :: l')) by (eapply Permutation_in; eauto; now left).
      assert (In y (x :: l)) by (eapply Permutation_in; [symmetry; eauto|now left]).
      cbn in *. destruct H as [->|H]; auto. destruct H0 as [->|H0]; auto.
      apply ble_antisym; auto. }
    f_equal. apply IH; auto. now apply Permutation_cons_inv in P.
Qed.
Lemma sort_perm_eq l l' : Permutation l l' -> sort l = sort l'.
Proof.
  intros P. apply bsorted_perm_eq; auto using sort_sorted.
  now rewrite <- !sort_perm.
Qed.

(** ** Association lists, search *)
Lemma find_first_some {A} (f : A -> bool) l x : find_first f l = Some x -> In x l /\ f x = true.
Proof.
  induction l as [|y l IH]; cbn; try congruence. destruct (f y) eqn:E.
  - injection 1; intros ->. auto.
  - intros H. apply IH in H. tauto.
Qed.
Lemma find_first_none {A} (f : A -> bool) l : find_first f l = None -> forall x, In x l -> f x = false.
Proof.
  induction l as [|y l IH]; cbn; [tauto|]. destruct (f y) eqn:E; try congruence.
  intros H x [<-|Hx]; auto.
Qed.
Lemma find_first_find {A} (f : A -> bool) l : find_first f l = find f l.
Proof. induction l; cbn; auto. now rewrite IHl. Qed.
Lemma find_first_beq x l : In x l -> find_first (fun a => beq a x) l = Some x.
Proof.
  induction l as [|y l IH]; cbn; [tauto|]. intros H. destruct (beq_spec y x); [now subst|].
  apply IH. tauto.
Qed.
Lemma bmem_In x l : bmem x l = true <-> In x l.
Proof.
  unfold bmem. rewrite existsb_exists. split.
  - intros (y & H & E). apply beq_eq in E. now subst.
  - intros H. exists x. split; auto. apply beq_refl.
Qed.
Lemma amap_get_In {V} k (m : list (bytes * V)) v : amap_get k m = Some v -> In (k, v) m.
Proof.
  induction m as [|[k' v'] m IH]; cbn; try congruence. destruct (beq_spec k k'); auto.
  injection 1; intros; subst. auto.
Qed.
Lemma amap_get_insert {V} k k' (v : V) m :
  amap_get k' (amap_insert k v m) = if beq k' k then Some v else amap_get k' m.
Proof.
  induction m as [|[k2 v2] m IH]; cbn; auto.
  destruct (beq_spec k k2); cbn.
  - subst. destruct (beq_spec k' k2); auto.
  - rewrite IH. destruct (beq_spec k' k2), (beq_spec k' k); auto. congruence.
Qed.
Lemma amap_insert_fresh {V} k (v : V) m : ~ In k (map fst m) -> amap_insert k v m = m ++ [(k, v)].
Proof.
  induction m as [|[k2 v2] m IH]; cbn; auto. intros H. destruct (beq_spec k k2); [subst; tauto|].
  now rewrite IH by tauto.
Qed.
Lemma amap_insert_keys {V} k (v : V) m k' :
  In k' (map fst (amap_insert k v m)) <-> k' = k \/ In k' (map fst m).
Proof.
  induction m as [|[k2 v2] m IH]; cbn; [intuition|].
  destruct (beq_spec k k2); cbn; [subst; intuition congruence|]. rewrite IH. intuition.
Qed.

(** ** Results *)
Lemma rbind_Ok {A B} (r : res A) (f : A -> res B) b :
  rbind r f = Ok b <-> exists a, r = Ok a /\ f a = Ok b.
Proof. destruct r; cbn; split; try congruence; try (intros (? & ? & ?); congruence); eauto. Qed.
Lemma ok_or_Ok {A} e (o : option A) a : ok_or e o = Ok a <-> o = Some a.
Proof. destruct o; cbn; split; congruence. Qed.
Lemma ok_or_no_panic {A} e (o : option A) : ok_or e o <> Panic.
Proof. destruct o; cbn; congruence. Qed.
Lemma kind_Ok {A} e (r : res A) a : kind e r = Ok a <-> r = Ok a.
Proof. destruct r; cbn; split; congruence. Qed.
Lemma kind_panic {A} e (r : res A) : kind e r = Panic <-> r = Panic.
Proof. destruct r; cbn; split; congruence. Qed.
Lemma rmap_Ok {A B} (f : A -> res B) l ys : rmap f l = Ok ys <-> Forall2 (fun x y => f x = Ok y) l ys.
Proof.
  revert ys; induction l as [|x l IH]; cbn; intros ys.
  - split; [injection 1; intros <-; constructor | now inversion 1].
  - rewrite rbind_Ok. split.
    + intros (y & H1 & H). apply rbind_Ok in H as (ys' & H2 & H). injection H as <-.
      constructor; auto. now apply IH.
    + inversion 1 as [|? y ? ys' H1 H2]; subst. exists y. split; auto.
      apply IH in H2. rewrite H2. reflexivity.
Qed.
Lemma rmap_map {A B} (f : A -> res B) (g : A -> B) l :
  (forall x, In x l -> f x = Ok (g x)) -> rmap f l = Ok (map g l).
Proof.
  intros H. apply rmap_Ok. induction l; cbn; constructor; auto.
  - apply H; now left.
  - apply IHl. intros; apply H; now right.
Qed.

(** ** Executions *)
Lemma exec_bind {A B} (m : prog A) (f : A -> prog B) tr b :
  exec (bind m f) tr b <-> exists tr1 tr2 a, tr = tr1 ++ tr2 /\ exec m tr1 a /\ exec (f a) tr2 b.
Proof.
  revert tr; induction m as [a|o k IH]; intros tr; cbn.
  - split.
    + intros H. exists [], tr, a. auto.
    + intros (tr1 & tr2 & a' & -> & [-> ->] & H). auto.
  - split.
    + intros (r & tr' & -> & H). apply IH in H as (tr1 & tr2 & a & -> & H1 & H2).
      exists (Ev o r :: tr1), tr2, a. repeat split; auto. eauto.
    + intros (tr1 & tr2 & a & -> & (r & tr' & -> & H1) & H2).
      exists r, (tr' ++ tr2). split; auto. apply IH. eauto 6.
Qed.
Lemma exec_Ret {A} (a b : A) tr : exec (Ret a) tr b <-> tr = [] /\ b = a.
Proof. reflexivity. Qed.
Lemma exec_pbind {A B} (m : prog (res A)) (f : A -> prog (res B)) tr r :
  exec (pbind m f) tr r <->
  (exists tr1 tr2 a, tr = tr1 ++ tr2 /\ exec m tr1 (Ok a) /\ exec (f a) tr2 r)
  \/ (exists e, exec m tr (Err e) /\ r = Err e)
  \/ (exec m tr Panic /\ r = Panic).
Proof.
  unfold pbind. rewrite exec_bind. split.
  - intros (tr1 & tr2 & [a|e|] & -> & H1 & H2).
    + left. eauto 6.
    + destruct H2 as [-> ->]. rewrite app_nil_r. eauto.
    + destruct H2 as [-> ->]. rewrite app_nil_r. eauto.
  - intros [(tr1 & tr2 & a & -> & H1 & H2)|[(e & H & ->)|[H ->]]].
    + eauto 6.
    + exists tr, [], (Err e). rewrite app_nil_r. cbn. auto.
    + exists tr, [], Panic. rewrite app_nil_r. cbn. auto.
Qed.
Lemma exec_pbind_Ok {A B} (m : prog (res A)) (f : A -> prog (res B)) tr b :
  exec (pbind m f) tr (Ok b) <->
  exists tr1 tr2 a, tr = tr1 ++ tr2 /\ exec m tr1 (Ok a) /\ exec (f a) tr2 (Ok b).
Proof.
  rewrite exec_pbind. split; auto.
  intros [H|[(e & _ & H)|[_ H]]]; auto; congruence.
Qed.
Lemma exec_Ret_bind {A B} (r : res A) (f : A -> prog (res B)) tr b :
  exec (pbind (Ret r) f) tr (Ok b) <-> exists a, r = Ok a /\ exec (f a) tr (Ok b).
Proof.
  rewrite exec_pbind_Ok. split.
  - intros (tr1 & tr2 & a & -> & [-> H] & H2). eauto.
  - intros (a & -> & H). exists [], tr, a. cbn. auto.
Qed.
Lemma exec_Ret_Err {A B} (r : res A) (f : A -> prog (res B)) tr x :
  exec (pbind (Ret r) f) tr x <->
  match r with Ok a => exec (f a) tr x | Err e => tr = [] /\ x = Err e | Panic => tr = [] /\ x = Panic end.
Proof. unfold pbind. cbn. destruct r; cbn; reflexivity. Qed.
Lemma exec_Do_bind {A B} o (k : resp o -> prog (res A)) (f : A -> prog (res B)) tr x :
  exec (pbind (Do o k) f) tr x <-> exists r tr', tr = Ev o r :: tr' /\ exec (pbind (k r) f) tr' x.
Proof. unfold pbind; cbn. reflexivity. Qed.

(** A run is an execution, and every execution against the answers it records. *)
Fixpoint trace (h : handler) {A} (m : prog A) : list event :=
  match m with Ret _ => [] | Do o k => Ev o (h o) :: trace h (k (h o)) end.
Lemma run_exec h {A} (m : prog A) : exec m (trace h m) (run h m).
Proof. induction m as [a|o k IH]; cbn; eauto. Qed.
Lemma run_bind h {A B} (m : prog A) (f : A -> prog B) : run h (bind m f) = run h (f (run h m)).
Proof. induction m as [a|o k IH]; cbn; auto. Qed.
Lemma run_pbind h {A B} (m : prog (res A)) (f : A -> prog (res B)) :
  run h (pbind m f) =
  match run h m with Ok a => run h (f a) | Err e => Err e | Panic => Panic end.
Proof. unfold pbind. rewrite run_bind. destruct (run h m); reflexivity. Qed.
