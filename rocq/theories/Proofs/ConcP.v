(** Calls running side by side, and resolvers that fail. *)
From Verif.Model Require Import Prelude Utf8 Json Serde Base64 DidDoc Crypto Keys Effects Jws Jwe Message FromPrior Pack Routing Unpack.
From Verif.Spec Require Import Conc.
From Verif.Proofs Require Import Lib.

Section Conc.
Context (X : nat -> Type).
Notation pool := (pool X). Notation steps := (steps X).

Lemma steps_gone p acts p' i : steps p acts p' -> p i = Gone -> p' i = Gone.
Proof.
  induction 1 as [p p' E|p i' o k r q acts p' P Q O S IH|p i' q acts p' Q O S IH]; intros G.
  - now rewrite E.
  - apply IH. destruct (Nat.eq_dec i i') as [->|N]; [congruence|]. now rewrite O.
  - apply IH. destruct (Nat.eq_dec i i') as [->|N]; auto. now rewrite O.
Qed.
Lemma steps_exec p acts p' i m a : steps p acts p' -> p i = Live m -> p' i = Live (Ret a) -> exec m (events_of i acts) a.
Proof.
  intros S. revert m. induction S as [p p' E|p i' o k r q acts p' P Q O S IH|p i' q acts p' Q O S IH]; intros m L R.
  - rewrite E, L in R. injection R as ->. cbn. auto.
  - cbn [events_of flat_map]. destruct (Nat.eq_dec i i') as [->|N].
    + rewrite Nat.eqb_refl. rewrite P in L. injection L as <-. cbn. eauto.
    + replace (Nat.eqb i' i) with false by (symmetry; apply Nat.eqb_neq; congruence). cbn. apply IH; auto. now rewrite O.
  - cbn [events_of flat_map]. destruct (Nat.eq_dec i i') as [->|N].
    + rewrite (steps_gone _ _ _ _ S Q) in R. discriminate.
    + cbn. apply IH; auto. now rewrite O.
Qed.

(** Dropping everything that concerns some calls leaves the others as they are. *)
Lemma steps_filter (keep : nat -> bool) p acts p' p0 : steps p acts p' -> (forall i, keep i = true -> p0 i = p i) ->
  exists q, steps p0 (filter (fun a => keep (of_task a)) acts) q
    /\ (forall i, keep i = true -> q i = p' i) /\ forall i, keep i = false -> q i = p0 i.
Proof.
  intros S. revert p0. induction S as [p p' E|p i o k r q acts p' P Q O S IH|p i q acts p' Q O S IH]; intros p0 K.
  - exists p0. split; [constructor; auto|]. split; auto. intros i Ki. now rewrite E, K.
  - cbn [filter of_task]. destruct (keep i) eqn:Ki.
    + set (q0 := fun j => if keep j then q j else p0 j).
      destruct (IH q0) as (x & S0 & K1 & K2). { intros j Kj. unfold q0. now rewrite Kj. }
      exists x. split; [|split; auto].
      * eapply steps_answer with (q := q0); [|  | |exact S0].
        -- rewrite K by auto. exact P.
        -- unfold q0. now rewrite Ki.
        -- intros j N. unfold q0. destruct (keep j) eqn:Kj; auto. rewrite O by auto. now rewrite K.
      * intros j Kj. rewrite K2 by auto. unfold q0. now rewrite Kj.
    + apply IH. intros j Kj. rewrite O; auto. intros ->. congruence.
  - cbn [filter of_task]. destruct (keep i) eqn:Ki.
    + set (q0 := fun j => if keep j then q j else p0 j).
      destruct (IH q0) as (x & S0 & K1 & K2). { intros j Kj. unfold q0. now rewrite Kj. }
      exists x. split; [|split; auto].
      * eapply steps_drop with (q := q0); [ | |exact S0].
        -- unfold q0. now rewrite Ki.
        -- intros j N. unfold q0. destruct (keep j) eqn:Kj; auto. rewrite O by auto. now rewrite K.
      * intros j Kj. rewrite K2 by auto. unfold q0. now rewrite Kj.
    + apply IH. intros j Kj. rewrite O; auto. intros ->. congruence.
Qed.

Definition set (p : pool) (i : nat) (t : task (X i)) : pool :=
  fun j => match Nat.eq_dec i j with left E => eq_rect i (fun j => task (X j)) t j E | right _ => p j end.
Lemma set_same p i t : set p i t i = t.
Proof. unfold set. destruct (Nat.eq_dec i i) as [E|N]; [|congruence]. rewrite (Eqdep_dec.UIP_refl_nat i E). reflexivity. Qed.
Lemma set_other p i t j : j <> i -> set p i t j = p j.
Proof. unfold set. destruct (Nat.eq_dec i j); congruence. Qed.
End Conc.

Lemma exec_alone {A} h (m : prog A) tr a : exec m tr a -> Forall (told h) tr -> alone h (drawn tr) m = Some a.
Proof.
  revert tr. induction m as [x|o k IH]; intros tr E F; cbn in E.
  - destruct E as [-> ->]. reflexivity.
  - destruct E as (r & tr' & -> & E). inversion F as [|? ? F0 F1]; subst.
    destruct o; cbn [alone drawn flat_map app] in *; cbn in F0; try subst r; now apply IH.
Qed.

(** ** Failures *)
Inductive loyal {A} (bad : op -> errkind -> A -> Prop) : prog A -> Prop :=
| loyal_ret a : loyal bad (Ret a)
| loyal_do o k : (forall e r, failed (Ev o r) e -> exists x, k r = Ret x /\ bad o e x) -> (forall r, loyal bad (k r)) ->
    loyal bad (Do o k).

Lemma loyal_exec {A} bad (m : prog A) tr x e k : loyal bad m -> exec m tr x -> In e tr -> failed e k ->
  exists o r t, e = Ev o r /\ bad o k x /\ tr = t ++ [e].
Proof.
  intros L. revert tr. induction L as [a|o kk F L IH]; intros tr E I D; cbn in E.
  - destruct E as [-> _]. destruct I.
  - destruct E as (r & tr' & -> & E). destruct I as [<-|I].
    + destruct (F _ _ D) as (y & H & Bd). rewrite H in E. destruct E as [-> ->]. exists o, r, []. auto.
    + destruct (IH r tr' E I D) as (o' & r' & t & -> & Bd & ->). exists o', r', (Ev o r :: t). auto.
Qed.
Lemma loyal_bind {A A'} (bad : op -> errkind -> A -> Prop) (bad' : op -> errkind -> A' -> Prop) m f : loyal bad m ->
  (forall o e x, bad o e x -> exists y, f x = Ret y /\ bad' o e y) -> (forall x, loyal bad' (f x)) -> loyal bad' (bind m f).
Proof.
  intros L H1 H2. induction L as [a|o k F L IH]; cbn; auto. constructor; auto.
  intros e r D. destruct (F e r D) as (x & -> & Bd). cbn. eauto.
Qed.

(** Failures keep their kind. *)
Definition own_kind {A} (o : op) (e : errkind) (x : res A) : Prop := x = Err e.
(** ... or, of the DID resolver, become InvalidState. *)
Definition or_state {A} (o : op) (e : errkind) (x : res A) : Prop :=
  x = Err e \/ (exists d, o = OResolve d) /\ x = Err InvalidState.

Section Loyal.
Context (bad : forall A, op -> errkind -> res A -> Prop).
Hypothesis bad_err : forall A o e x, bad A o e x -> exists k, x = Err k /\ forall A', bad A' o e (Err k).
Hypothesis bad_own : forall A o e, bad A o e (Err e).
Notation L m := (loyal (bad _) m).

Lemma loyal_pbind {A A'} (m : prog (res A)) (f : A -> prog (res A')) : L m -> (forall a, L (f a)) -> L (pbind m f).
Proof.
  intros H1 H2. eapply loyal_bind; [exact H1| |].
  - intros o e x Bd. destruct (bad_err _ _ _ _ Bd) as (k & -> & K). eauto.
  - intros [a|k|]; auto; constructor.
Qed.
Lemma loyal_resolve d : L (resolve d).
Proof. constructor; [|constructor]. intros e r D. cbn in D. subst. eauto. Qed.
Lemma loyal_find d : L (find_secrets d).
Proof. constructor; [|constructor]. intros e r D. cbn in D. subst. eauto. Qed.
Lemma loyal_get d : L (get_secret d).
Proof. constructor; [|constructor]. intros e r D. cbn in D. subst. eauto. Qed.
Lemma loyal_random d : L (random d).
Proof. constructor; [|constructor]. intros e r D. destruct D. Qed.

Ltac lo := repeat (intros; cbv beta iota zeta; lazymatch goal with
  | |- loyal _ (Ret _) => constructor
  | |- loyal _ (pbind _ _) => apply loyal_pbind
  | |- loyal _ (resolve _) => apply loyal_resolve
  | |- loyal _ (find_secrets _) => apply loyal_find
  | |- loyal _ (get_secret _) => apply loyal_get
  | |- loyal _ (random _) => apply loyal_random
  | |- loyal _ (if ?x then _ else _) => destruct x
  | |- loyal _ (match ?x with _ => _ end) => destruct x
  end); auto.

Context (C : crypto).
Lemma loyal_prior_unpack j : L (from_prior_unpack C j).
Proof. unfold from_prior_unpack. lo. Qed.
Lemma loyal_prior_pack p k : L (from_prior_pack C p k).
Proof. unfold from_prior_pack. lo. Qed.
Lemma loyal_plaintext m : L (pack_plaintext C m).
Proof. unfold pack_plaintext. lo. apply loyal_prior_unpack. Qed.
Lemma loyal_signed m s : L (pack_signed C m s).
Proof. unfold pack_signed. lo. apply loyal_plaintext. Qed.
Lemma loyal_jwe_encrypt ce d ka msg alg enc s rs : L (jwe_encrypt C ce d ka msg alg enc s rs).
Proof. unfold jwe_encrypt. lo. Qed.
Lemma loyal_anon_encrypt ka alg msg rs : L (anon_encrypt C ka alg msg rs).
Proof. unfold anon_encrypt. destruct alg; apply loyal_jwe_encrypt. Qed.
Lemma loyal_anoncrypt to msg alg : L (anoncrypt C to msg alg).
Proof. unfold anoncrypt. lo; apply loyal_anon_encrypt. Qed.
Lemma loyal_authcrypt to f msg au an p : L (authcrypt C to f msg au an p).
Proof. unfold authcrypt, auth_encrypt. lo; try apply loyal_anon_encrypt; apply loyal_jwe_encrypt. Qed.
Lemma loyal_find_service d i : L (find_service d i).
Proof. unfold find_service. lo. Qed.
Lemma loyal_chain fuel : forall l c, L (chain_loop fuel l c).
Proof. induction fuel; intros; cbn [chain_loop]; lo. apply loyal_find_service. Qed.
Lemma loyal_wrap msg h hops alg : L (wrap_loop C msg h hops alg).
Proof. revert msg. induction hops; intros; cbn [wrap_loop]; lo. - unfold build_forward. lo. - apply loyal_anoncrypt. Qed.
Lemma loyal_wrap_in_forward msg h to rks alg : L (wrap_in_forward C msg h to rks alg).
Proof. unfold wrap_in_forward. lo. apply loyal_wrap. Qed.
Lemma loyal_wrap_if msg to o : L (wrap_if_needed C msg to o).
Proof. unfold wrap_if_needed, services_chain. lo. - apply loyal_find_service. - apply loyal_chain. - apply loyal_wrap_in_forward. Qed.
Lemma loyal_pack_encrypted m to f s o : L (pack_encrypted C m to f s o).
Proof.
  unfold pack_encrypted. lo; try apply loyal_signed; try apply loyal_plaintext; try apply loyal_authcrypt; try apply loyal_anoncrypt; apply loyal_wrap_if.
Qed.
Lemma loyal_open {A} all (open : bytes -> kalg -> key C -> res A) found : forall last, L (open_loop C all open found last).
Proof. induction found; intros; cbn [open_loop]; lo. Qed.
Lemma loyal_try_anon msg o md : L (try_anoncrypt C msg o md).
Proof. unfold try_anoncrypt. lo; apply loyal_open. Qed.
Lemma loyal_try_sign msg md : L (try_sign C msg md).
Proof. unfold try_sign. lo. Qed.
Lemma loyal_try_plaintext msg md : L (try_plaintext C msg md).
Proof. unfold try_plaintext. lo. apply loyal_prior_unpack. Qed.
Lemma loyal_try_unwrap msg : L (try_unwrap C msg).
Proof. unfold try_unwrap, has_secret. lo. Qed.

Hypothesis bad_state : forall A d e, bad A (OResolve d) e (Err InvalidState).
Lemma loyal_try_auth msg o md : L (try_authcrypt C msg o md).
Proof.
  unfold try_authcrypt. lo; try apply loyal_open.
  unfold pkind, resolve. cbn. constructor; [|constructor]. intros e r D. cbn in D. subst. cbn. eauto.
Qed.
Lemma loyal_rest msg o md : L (unpack_rest C msg o md).
Proof.
  unfold unpack_rest. apply loyal_pbind; [apply loyal_try_auth|]. intros a. destruct (match a with Some (m, d) => (m, d) | None => (msg, md) end) as [m1 d1].
  apply loyal_pbind; [apply loyal_try_sign|]. intros s. destruct (match s with Some (m, d) => (m, d) | None => (m1, d1) end) as [m2 d2].
  apply loyal_pbind; [apply loyal_try_plaintext|]. constructor.
Qed.

Definition obad A (o : op) (e : errkind) (x : option (res A)) : Prop := exists y, x = Some y /\ bad A o e y.
Lemma loyal_unpack_loop fuel : forall msg o md, loyal (obad _) (unpack_loop C fuel msg o md).
Proof.
  assert (S : forall msg o md, loyal (obad _) (bind (unpack_rest C msg o md) (fun x => Ret (Some x)))).
  { intros. eapply loyal_bind; [apply loyal_rest| |constructor]. intros o' e x Bd. eexists. split; [reflexivity|]. eexists. eauto. }
  induction fuel as [|f IH]; intros msg o md; cbn [unpack_loop]; [constructor|].
  eapply loyal_bind; [apply loyal_try_anon| |].
  - intros o' e x Bd. destruct (bad_err _ _ _ _ Bd) as (k & -> & K). eexists. split; [reflexivity|]. eexists. eauto.
  - intros [[[pt md']|]|k|]; auto; try constructor. destruct (uo_unwrap o); auto.
    eapply loyal_bind; [apply loyal_try_unwrap| |].
    + intros o' e x Bd. destruct (bad_err _ _ _ _ Bd) as (k & -> & K). eexists. split; [reflexivity|]. eexists. eauto.
    + intros [[fwd|]|k|]; auto; try constructor.
Qed.
End Loyal.

Lemma own_err A o e x : @own_kind A o e x -> exists k, x = Err k /\ forall A', @own_kind A' o e (Err k).
Proof. unfold own_kind. intros ->. eauto. Qed.
Lemma state_err A o e x : @or_state A o e x -> exists k, x = Err k /\ forall A', @or_state A' o e (Err k).
Proof. unfold or_state. intros [->|[H ->]]; eauto. Qed.

Lemma loyal_last {A} (m : prog (res A)) tr x e k : loyal (@own_kind A) m -> exec m tr x -> In e tr -> failed e k ->
  x = Err k /\ exists t, tr = t ++ [e].
Proof. intros L E I D. destruct (loyal_exec _ _ _ _ _ _ L E I D) as (o & r & t & -> & Bd & ->). unfold own_kind in Bd. eauto. Qed.
Lemma unpack_failure C fuel text o tr x e k : exec (unpack C fuel text o) tr x -> In e tr -> failed e k ->
  (x = Some (Err k) \/ did_call e /\ x = Some (Err InvalidState)) /\ exists t, tr = t ++ [e].
Proof.
  intros E I D. unfold unpack in E.
  assert (L : loyal (obad (@or_state) _) (unpack_loop C fuel text o um_init)).
  { apply loyal_unpack_loop; [exact state_err|now left|]. intros A d e'. right. eauto. }
  destruct (loyal_exec _ _ _ _ _ _ L E I D) as (o' & r & t & -> & (y & -> & Bd) & ->).
  split; eauto. destruct Bd as [->|[(d & ->) ->]]; auto. right. cbn. auto.
Qed.
