(** The dot-joined list of key ids determines the key ids. *)
From Verif.Model Require Import Prelude Crypto Jwe.
From Verif.Spec Require Import Small Events.
From Verif.Proofs Require Import Lib SmallP UnpackInv.
From Coq Require Import Permutation.

Lemma hash_inj a b x y : ~ In "#"%char a -> ~ In "#"%char b -> a ++ "#"%char :: x = b ++ "#"%char :: y -> a = b /\ x = y.
Proof.
  revert b; induction a as [|c a IH]; intros [|d b] Ha Hb E; cbn in *.
  - injection E as ->. auto.
  - injection E as <- _. exfalso; auto.
  - injection E as -> _. exfalso; auto.
  - injection E as -> E. apply IH in E as [-> ->]; auto.
Qed.
Lemma join_cons k l : l <> [] -> join (B ".") (k :: l) = k ++ "."%char :: join (B ".") l.
Proof. intros N. destruct l; [congruence|]. reflexivity. Qed.
Lemma join_one s k : join s [k] = k. Proof. reflexivity. Qed.
Lemma join_inj l : forall d l' d', Forall (plain_url d) l -> Forall (plain_url d') l' -> l <> [] -> l' <> [] ->
  join (B ".") l = join (B ".") l' -> l = l'.
Proof.
  induction l as [|k l IH]; intros d l' d' F F' N N' E; [congruence|]. destruct l' as [|k' l']; [congruence|].
  inversion F as [|? ? (f & -> & Hd & Hf) Fl]; subst. inversion F' as [|? ? (f' & -> & Hd' & Hf') Fl']; subst.
  assert (J : forall e x m, Forall (plain_url e) (x :: m) -> exists r, join (B ".") (x :: m) = e ++ "#"%char :: r).
  { intros e x m G. inversion G as [|? ? (g & -> & He & Hg) Gl]; subst. destruct m; cbn [join]; [eauto|]. eexists. rewrite <- app_assoc. reflexivity. }
  destruct l as [|k2 l], l' as [|k2' l'].
  - cbn in E. apply hash_inj in E as [-> ->]; auto.
  - exfalso. rewrite (join_cons _ (k2' :: l')) in E by discriminate. rewrite join_one in E. rewrite <- app_assoc in E.
    apply hash_inj in E as [-> E]; auto. destruct (J _ _ _ Fl') as (r & R). rewrite R in E. apply Hf. rewrite E. apply in_or_app. right. right. apply in_or_app. right. now left.
  - exfalso. rewrite (join_cons _ (k2 :: l)) in E by discriminate. rewrite join_one in E. rewrite <- app_assoc in E.
    apply hash_inj in E as [-> E]; auto. destruct (J _ _ _ Fl) as (r & R). rewrite R in E. apply Hf'. rewrite <- E. apply in_or_app. right. right. apply in_or_app. right. now left.
  - rewrite (join_cons _ (k2 :: l)), (join_cons _ (k2' :: l')) in E by discriminate. rewrite <- !app_assoc in E. cbn [app] in E.
    apply hash_inj in E as [-> E]; auto. destruct (J _ _ _ Fl) as (r & R). destruct (J _ _ _ Fl') as (r' & R'). pose proof E as E'. rewrite R, R' in E'.
    change ("."%char :: d' ++ "#"%char :: r) with (("."%char :: d') ++ "#"%char :: r) in E'. change ("."%char :: d' ++ "#"%char :: r') with (("."%char :: d') ++ "#"%char :: r') in E'.
    rewrite !app_assoc in E'. apply hash_inj in E' as [E1 E2].
    + apply app_inv_tail in E1. subst f'. apply app_inv_head in E. injection E as E. f_equal. eapply IH; eauto; discriminate.
    + intros [I|[I|I]]%in_app_or; auto. discriminate.
    + intros [I|[I|I]]%in_app_or; auto. discriminate.
Qed.
Lemma apv_binds C k1 k2 d1 d2 apv : k1 <> [] -> k2 <> [] -> Forall (plain_url d1) k1 -> Forall (plain_url d2) k2 ->
  apv_for C k1 apv -> apv_for C k2 apv ->
  Permutation k1 k2 \/ exists x y, x <> y /\ sha256 C x = sha256 C y.
Proof.
  intros N1 N2 F1 F2 (l1 & P1 & S1 & E1) (l2 & P2 & S2 & E2).
  destruct (list_eq_dec ascii_dec (join (B ".") l1) (join (B ".") l2)) as [J|J].
  - left. assert (l1 = l2).
    { eapply (join_inj l1 d1 l2 d2); auto.
      - eapply Permutation_Forall; [symmetry; exact P1|auto].
      - eapply Permutation_Forall; [symmetry; exact P2|auto].
      - intros ->. apply Permutation_nil in P1. auto.
      - intros ->. apply Permutation_nil in P2. auto. }
    subst. now rewrite <- P1, P2.
  - right. exists (join (B ".") l1), (join (B ".") l2). split; auto. congruence.
Qed.
Lemma apv_perm C k1 k2 apv : Permutation k1 k2 -> apv_for C k1 apv -> apv_for C k2 apv.
Proof. intros P (l & P1 & S & E). exists l. split; [now rewrite P1|auto]. Qed.
