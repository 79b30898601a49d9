(** Reasoning forward about every execution of a program. *)
From Verif.Model Require Import Prelude Json DidDoc Crypto Effects.
From Verif.Proofs Require Import Lib.

(** [wp A P h m Q]: run after the history [h], with answers satisfying [A], the
    program [m] only makes calls allowed by [P] and ends in [Q]. *)
Fixpoint wp {X} (A : event -> Prop) (P : list event -> op -> Prop) (h : list event) (m : prog X)
  (Q : list event -> X -> Prop) : Prop :=
  match m with
  | Ret x => Q h x
  | Do o k => P h o /\ forall r, A (Ev o r) -> wp A P (h ++ [Ev o r]) (k r) Q
  end.

Lemma wp_exec {X} A P h (m : prog X) Q tr x : wp A P h m Q -> exec m tr x -> Forall A tr ->
  Q (h ++ tr) x /\ forall t1 o r t2, tr = t1 ++ Ev o r :: t2 -> P (h ++ t1) o.
Proof.
  revert h tr; induction m as [y|o k IH]; intros h tr W E F; cbn in *.
  - destruct E as [-> ->]. rewrite app_nil_r. split; auto. intros t1 o r t2 H. destruct t1; discriminate.
  - destruct W as [W0 W], E as (r & tr' & -> & E). inversion F as [|? ? F0 F1]; subst.
    destruct (IH r _ _ (W r F0) E F1) as [H1 H2]. rewrite <- app_assoc in H1. split; auto.
    intros t1 o' r' t2 Heq. destruct t1 as [|e t1]; cbn in Heq.
    + injection Heq as Ho _. inversion Ho; subst. now rewrite app_nil_r.
    + injection Heq as <- Heq. specialize (H2 _ _ _ _ Heq). now rewrite <- app_assoc in H2.
Qed.
Lemma exec_wp {X} (A : event -> Prop) (P : list event -> op -> Prop) h (m : prog X) (Q : list event -> X -> Prop) :
  (forall tr x, exec m tr x -> Forall A tr -> Q (h ++ tr) x /\ forall t1 o r t2, tr = t1 ++ Ev o r :: t2 -> P (h ++ t1) o) ->
  (forall o, exists r, A (Ev o r)) ->
  wp A P h m Q.
Proof.
  intros H I. revert h H; induction m as [y|o k IH]; intros h H; cbn in *.
  - specialize (H [] y). rewrite app_nil_r in H. apply H; auto.
  - split.
    + destruct (I o) as (r & Ar). assert (X0 : exists tr x, exec (k r) tr x /\ Forall A tr).
      { clear -I. induction (k r) as [y|o' k' IH]; [exists [], y; cbn; auto|]. destruct (I o') as (r' & Ar').
        destruct (IH r') as (tr & x & E & F). exists (Ev o' r' :: tr), x. cbn. split; eauto. }
      destruct X0 as (tr & x & E & F). destruct (H (Ev o r :: tr) x) as [_ K]; eauto.
      specialize (K [] o r tr eq_refl). now rewrite app_nil_r in K.
    + intros r Ar. apply IH. intros tr x E F. destruct (H (Ev o r :: tr) x) as [K1 K2]; eauto.
      rewrite <- app_assoc. split; auto. intros t1 o' r' t2 ->. specialize (K2 (Ev o r :: t1) o' r' t2 eq_refl).
      now rewrite <- app_assoc.
Qed.
Lemma wp_mono {X} A P h (m : prog X) (Q Q' : list event -> X -> Prop) :
  (forall h' x, Q h' x -> Q' h' x) -> wp A P h m Q -> wp A P h m Q'.
Proof.
  intros H. revert h; induction m as [y|o k IH]; intros h; cbn; auto. intros [W0 W]. split; auto.
Qed.
Lemma wp_weaken {X} A (P P' : list event -> op -> Prop) h (m : prog X) (Q Q' : list event -> X -> Prop) :
  (forall h' o, P h' o -> P' h' o) -> (forall h' x, Q h' x -> Q' h' x) -> wp A P h m Q -> wp A P' h m Q'.
Proof.
  intros HP H. revert h; induction m as [y|o k IH]; intros h; cbn; auto. intros [W0 W]. split; auto.
Qed.
(** Histories only grow. *)
Lemma wp_hist {X} A P h (m : prog X) Q : wp A P h m Q -> wp A P h m (fun h' x => Q h' x /\ exists t, h' = h ++ t).
Proof.
  revert h; induction m as [y|o k IH]; intros h; cbn.
  - intros H. split; auto. exists []. now rewrite app_nil_r.
  - intros [W0 W]. split; auto. intros r Ar. eapply wp_mono; [|apply IH, W, Ar]. cbn.
    intros h' x [H (t & ->)]. split; auto. exists (Ev o r :: t). now rewrite <- app_assoc.
Qed.
Lemma wp_bind {X Y} A P h (m : prog X) (f : X -> prog Y) Q :
  wp A P h (bind m f) Q <-> wp A P h m (fun h' x => wp A P h' (f x) Q).
Proof.
  revert h; induction m as [y|o k IH]; intros h; cbn; [tauto|]. split; intros [W0 W]; (split; [auto|]);
    intros r Ar; apply IH; auto.
Qed.
(** The post of a step that may fail: failures must satisfy the final post at once. *)
Definition wpr {X Y} (A : event -> Prop) (P : list event -> op -> Prop) (f : X -> prog (res Y))
  (Q : list event -> res Y -> Prop) (h : list event) (r : res X) : Prop :=
  match r with Ok a => wp A P h (f a) Q | Err e => Q h (Err e) | Panic => Q h Panic end.
Lemma wp_pbind {X Y} A P h (m : prog (res X)) (f : X -> prog (res Y)) Q :
  wp A P h (pbind m f) Q <-> wp A P h m (wpr A P f Q).
Proof.
  unfold pbind. rewrite wp_bind. split; apply wp_mono; intros h' [a|e|]; cbn; auto.
Qed.
Lemma wp_Ret_bind {X Y} A P h (r : res X) (f : X -> prog (res Y)) Q :
  wp A P h (pbind (Ret r) f) Q <-> wpr A P f Q h r.
Proof. rewrite wp_pbind. reflexivity. Qed.
(** The post from the executions, the calls from a wp. *)
Lemma wp_post {X} (A : event -> Prop) (P : list event -> op -> Prop) h (m : prog X) (Q0 Q : list event -> X -> Prop) :
  wp A P h m Q0 -> (forall tr x, exec m tr x -> Forall A tr -> Q (h ++ tr) x) -> wp A P h m Q.
Proof.
  revert h; induction m as [y|o k IH]; intros h W E; cbn in *.
  - specialize (E [] y). rewrite app_nil_r in E. auto.
  - destruct W as [W0 W]. split; auto. intros r Ar. apply IH; auto. intros tr x Ex F.
    rewrite <- app_assoc. apply E; [exists r, tr; auto|]. now constructor.
Qed.
Lemma wp_conj {X} (A : event -> Prop) (P : list event -> op -> Prop) h (m : prog X) (Q Q' : list event -> X -> Prop) :
  wp A P h m Q -> wp A P h m Q' -> wp A P h m (fun h x => Q h x /\ Q' h x).
Proof. revert h; induction m as [y|o k IH]; intros h; cbn; auto. intros [W0 W] [_ W']. split; auto. Qed.
