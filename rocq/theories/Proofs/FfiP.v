(** Tasks and callbacks of the uniffi layer. *)
From Verif.Model Require Import Prelude Json DidDoc Crypto Effects Message FromPrior Pack Routing Unpack Bindings Ffi.
From Verif.Spec Require Import Small Packing Ffi.
From Verif.Proofs Require Import Lib SmallP PackP.

Section Seen.
Lemma asked_app i n a b : asked_at i n (a ++ b) = asked_at i n a ++ asked_at i n b. Proof. apply flat_map_app. Qed.
Lemma taken_app i n a b : taken_at i n (a ++ b) = taken_at i n a ++ taken_at i n b. Proof. apply flat_map_app. Qed.
Lemma released_app i n a b : released_at i n (a ++ b) = released_at i n a ++ released_at i n b. Proof. apply flat_map_app. Qed.
Lemma reports_app i a b : reports_of i (a ++ b) = reports_of i a ++ reports_of i b. Proof. apply flat_map_app. Qed.
Lemma started_app i a b : started_as i (a ++ b) = started_as i a ++ started_as i b. Proof. apply flat_map_app. Qed.
End Seen.

(** Part of an execution. *)
Fixpoint leads {A} (m : prog A) (tr : list event) (q : prog A) : Prop :=
  match tr with
  | [] => m = q
  | Ev o r :: tr => exists k, m = Do o k /\ leads (k r) tr q
  end.
Lemma leads_snoc {A} (tr : list event) : forall (m : prog A) o k r, leads m tr (Do o k) -> leads m (tr ++ [Ev o r]) (k r).
Proof.
  induction tr as [|[o' r'] tr IH]; intros m o k r; cbn.
  - intros ->. exists k. auto.
  - intros (k' & -> & H). exists k'. split; auto.
Qed.
Lemma leads_exec {A} (tr : list event) : forall (m : prog A) x, leads m tr (Ret x) -> exec m tr x.
Proof.
  induction tr as [|[o r] tr IH]; intros m x; cbn.
  - intros ->. cbn. auto.
  - intros (k & -> & H). cbn. exists r, tr. split; auto.
Qed.

Definition is_ask (e : event) : bool := match e with Ev (ORandom _) _ => false | _ => true end.
Definition asks (tr : list event) : nat := List.length (filter is_ask tr).
Lemma delivers_ask o a r : delivers o a r -> is_ask (Ev o r) = true.
Proof. destruct o; cbn; auto; destruct a; intros []. Qed.
Lemma lost_ask o r : lost o r -> is_ask (Ev o r) = true.
Proof. destruct o; auto. Qed.
Lemma answered_ext l l' i n tr m : answered l i n tr ->
  (forall k, k < m -> asked_at i k l' = [] /\ taken_at i k l' = []) -> n + asks tr <= m -> answered (l ++ l') i n tr.
Proof.
  intros H F. induction H as [n|n u r tr H IH|n o a r tr Q T D H IH|n o r tr Q T R L H IH]; intros Le.
  - constructor.
  - constructor. now apply IH.
  - unfold asks in Le. cbn [filter] in Le. rewrite (delivers_ask _ _ _ D) in Le. cbn [List.length] in Le. fold (asks tr) in Le.
    destruct (F n ltac:(lia)) as [F1 F2]. apply an_taken with a; auto.
    + now rewrite asked_app, F1, app_nil_r.
    + now rewrite taken_app, F2, app_nil_r.
    + apply IH. lia.
  - unfold asks in Le. cbn [filter] in Le. rewrite (lost_ask _ _ L) in Le. cbn [List.length] in Le. fold (asks tr) in Le.
    destruct (F n ltac:(lia)) as [F1 F2]. apply an_lost; auto.
    + now rewrite asked_app, F1, app_nil_r.
    + now rewrite taken_app, F2, app_nil_r.
    + rewrite released_app. destruct (released_at i n l); [congruence|discriminate].
    + apply IH. lia.
Qed.
Lemma answered_snoc l i e tr : forall n, answered l i n tr -> answered l i (n + asks tr) [e] -> answered l i n (tr ++ [e]).
Proof.
  intros n H. induction H as [n|n u r tr H IH|n o a r tr Q T D H IH|n o r tr Q T R L H IH]; intros S; cbn [app].
  - now rewrite Nat.add_0_r in S.
  - constructor. now apply IH.
  - apply an_taken with a; auto. apply IH. unfold asks in *. cbn [filter] in S. rewrite (delivers_ask _ _ _ D) in S. cbn [List.length] in S.
    now rewrite Nat.add_succ_r in S.
  - apply an_lost; auto. apply IH. unfold asks in *. cbn [filter] in S. rewrite (lost_ask _ _ L) in S. cbn [List.length] in S.
    now rewrite Nat.add_succ_r in S.
Qed.
Lemma asks_snoc tr e : asks (tr ++ [e]) = asks tr + if is_ask e then 1 else 0.
Proof. unfold asks. rewrite filter_app, app_length. cbn. now destruct (is_ask e). Qed.

Section Good.
Context (C : crypto).
(** What is known about a task after the observations [l]. *)
Definition awaited (l : list obs) (i n : nat) (o : op) (cb : cb_state (payload o)) : Prop :=
  asked_at i n l = [o] /\ is_ask (Ev o (adapt o Panic)) = true
  /\ (cb = mkCB true true None /\ taken_at i n l = [] /\ released_at i n l = []
      \/ (exists a v, cb = mkCB false true (Some v) /\ taken_at i n l = [a] /\ fitting o a = Some v)
      \/ cb = mkCB false true None /\ taken_at i n l = [] /\ released_at i n l <> []).
Definition unseen (l : list obs) (i n : nat) : Prop :=
  forall m, n <= m -> asked_at i m l = [] /\ taken_at i m l = [] /\ released_at i m l = [].
Definition good (l : list obs) (i : nat) (c : ffi_call) (t : task) : Prop :=
  exists tr q, leads (ffi_prog C c) tr q /\ answered l i 0 tr /\ asks tr = List.length (tk_spent t)
    /\ (forall o cb, In (Spent o cb) (tk_spent t) -> cb_sender cb = false)
    /\ match tk_phase t with
       | Ready p => p = q /\ unseen l i (List.length (tk_spent t)) /\ reports_of i l = []
       | Waiting o cb k =>
           q = Do o k /\ awaited l i (List.length (tk_spent t)) o cb /\ unseen l i (S (List.length (tk_spent t))) /\ reports_of i l = []
       | Ended =>
           unseen l i (List.length (tk_spent t))
           /\ exists x, q = Ret x /\ reports_of i l = match x with Some x => reports x | None => [] end
       end.

Lemma good_ext l l' i c t : good l i c t ->
  (forall n, asked_at i n l' = [] /\ taken_at i n l' = [] /\ released_at i n l' = []) -> reports_of i l' = [] -> good (l ++ l') i c t.
Proof.
  intros (tr & q & L & An & As & Sp & Ph) F R. exists tr, q. split; auto. split.
  { eapply answered_ext with (m := asks tr); eauto. intros k _. destruct (F k) as (? & ? & _). auto. }
  split; auto. split; auto.
  assert (U : forall n, unseen l i n -> unseen (l ++ l') i n).
  { intros n U m Le. destruct (U m Le) as (U1 & U2 & U3), (F m) as (F1 & F2 & F3).
    rewrite asked_app, taken_app, released_app, U1, U2, U3, F1, F2, F3. auto. }
  rewrite reports_app, R, app_nil_r. destruct (tk_phase t) as [p|o cb k|].
  - destruct Ph as (? & ? & ?). auto.
  - destruct Ph as (E & (A1 & A2 & A3) & U1 & ?). split; auto. split; auto.
    destruct (F (List.length (tk_spent t))) as (F1 & F2 & F3). split; [now rewrite asked_app, F1, app_nil_r|]. split; auto.
    rewrite taken_app, released_app, F2, F3, !app_nil_r. exact A3.
  - destruct Ph as (? & x & ? & ?). eauto.
Qed.
(** Observations that are not about [i]. *)
Lemma other_unseen i l : (forall x, In x l -> about i x = false) ->
  (forall n, asked_at i n l = [] /\ taken_at i n l = [] /\ released_at i n l = []) /\ reports_of i l = [] /\ started_as i l = [].
Proof.
  induction l as [|x l IH]; intros H; [repeat split|]. destruct IH as (I1 & I2 & I3); [intros y Iy; apply H; now right|].
  pose proof (H x (or_introl eq_refl)) as E. split; [intros n; destruct (I1 n) as (J1 & J2 & J3)|split].
  - unfold asked_at, taken_at, released_at in *. cbn [flat_map]. rewrite J1, J2, J3. destruct x; cbn in E; rewrite ?E; cbn; auto.
  - unfold reports_of in *. cbn [flat_map]. rewrite I2. destruct x; cbn in E; rewrite ?E; auto.
  - unfold started_as in *. cbn [flat_map]. rewrite I3. destruct x; cbn in E; rewrite ?E; auto.
Qed.

Lemma adapt_delivers o a v : fitting o a = Some v -> delivers o a (adapt o v).
Proof.
  assert (F : forall ids l, picked (fun x => In x l) ids (filter (fun s => existsb (fun f => beq f s) l) ids)).
  { intros ids l. induction ids as [|x ids IH]; cbn; [constructor|]. destruct (existsb _ l) eqn:E.
    - constructor; auto. apply existsb_exists in E as (y & I & E). apply beq_eq in E. now subst.
    - constructor; auto. intros I. assert (X : existsb (fun f => beq f x) l = true) by (apply existsb_exists; exists x; rewrite beq_refl; auto). congruence. }
  destruct o, a as [[|]|[|]|[|]]; cbn; intros [=<-]; cbn; auto. eexists. split; [reflexivity|apply F].
Qed.
Lemma adapt_lost o : is_ask (Ev o (adapt o Panic)) = true -> lost o (adapt o (Err InvalidState)).
Proof. destruct o; cbn; auto. discriminate. Qed.

Lemma eqb2 i n : (i =? i) && (n =? n) = true. Proof. now rewrite !Nat.eqb_refl. Qed.
Lemma eqb2' i n m : n < m -> (i =? i) && (n =? m) = false. Proof. intros. rewrite Nat.eqb_refl. cbn. apply Nat.eqb_neq. lia. Qed.

Lemma good_poll l i c t r : good l i c t -> good (l ++ snd (poll i r t)) i c (fst (poll i r t)).
Proof.
  intros G. pose proof G as (tr & q & L & An & As & Sp & Ph). unfold poll. destruct t as [ph sp]. cbn [tk_phase tk_spent] in *.
  destruct ph as [p|o cb k|].
  - destruct Ph as (-> & U & R). destruct q as [x|o k].
    + cbn [fst snd]. set (ob := match x with Some x => map (Reported i) (reports x) | None => [] end).
      assert (O : (forall n, asked_at i n ob = [] /\ taken_at i n ob = [] /\ released_at i n ob = []) /\ reports_of i ob = match x with Some x => reports x | None => [] end).
      { subst ob. destruct x as [[y|y|]|]; cbn; rewrite ?Nat.eqb_refl; repeat split. }
      destruct O as [O1 O2]. exists tr, (Ret x). split; auto. split.
      { eapply answered_ext with (m := asks tr); eauto. intros k _. destruct (O1 k) as (? & ? & _). auto. }
      split; auto. split; auto. cbn [tk_phase]. split.
      { intros m Le. destruct (U m Le) as (U1 & U2 & U3), (O1 m) as (F1 & F2 & F3). rewrite asked_app, taken_app, released_app, U1, U2, U3, F1, F2, F3. auto. }
      exists x. split; auto. rewrite reports_app, R. exact O2.
    + assert (W : is_ask (Ev o (adapt o Panic)) = true -> good (l ++ [Asked i (List.length sp) o]) i c (mkTask (Waiting o cb_new k) sp)).
      { intros A. exists tr, (Do o k). split; auto. cbn [tk_phase tk_spent]. split.
        { eapply answered_ext with (m := asks tr); eauto. intros n Le. cbn. rewrite As in Le.
          replace (List.length sp =? n) with false by (symmetry; apply Nat.eqb_neq; lia). now rewrite Nat.eqb_refl. }
        split; auto. split; auto. split; auto. split; [|split].
        - destruct (U (List.length sp) (le_n _)) as (U1 & U2 & U3). unfold awaited. rewrite asked_app, taken_app, released_app, U1, U2, U3. cbn. rewrite eqb2. cbn. split; auto 6.
        - intros m Le. destruct (U m ltac:(lia)) as (U1 & U2 & U3). rewrite asked_app, taken_app, released_app, U1, U2, U3. cbn. rewrite eqb2' by lia. auto.
        - rewrite reports_app, R. reflexivity. }
      destruct o as [d|ids|d|u]; try (apply W; reflexivity). cbn [fst snd]. rewrite app_nil_r.
      exists (tr ++ [Ev (ORandom u) r]), (k r). split; [now apply leads_snoc|]. split; [apply answered_snoc; auto; repeat constructor|].
      split; [rewrite asks_snoc; cbn; lia|]. split; auto. cbn [tk_phase tk_spent]. auto.
  - destruct Ph as (-> & (A1 & A2 & A3) & U & R).
    assert (D : match cb_get cb with
      | Some v => answered l i (List.length sp) [Ev o (adapt o v)] /\ cb_sender cb = false
      | None => True end).
    { destruct A3 as [(-> & _)|[(a & v & -> & T & F)|(-> & T & Rl)]]; cbn; auto.
      - split; auto. eapply an_taken; eauto; [now apply adapt_delivers|constructor].
      - split; auto. eapply an_lost; eauto; [now apply adapt_lost|constructor]. }
    destruct (cb_get cb) as [v|] eqn:E; cbn [fst snd]; rewrite app_nil_r; [|exact G]. destruct D as [D S].
    exists (tr ++ [Ev o (adapt o v)]), (k (adapt o v)). cbn [tk_phase tk_spent]. split; [now apply leads_snoc|]. split; [apply answered_snoc; auto; now rewrite As|].
    assert (I : is_ask (Ev o (adapt o v)) = true) by (destruct o; auto; discriminate A2).
    rewrite app_length. cbn [List.length]. split; [rewrite asks_snoc, I; lia|]. split.
    { intros o' cb' J. apply in_app_or in J as [J|[J|[]]]; [now apply Sp in J|]. 
      apply (f_equal (fun x => match x with Spent _ cb => cb_sender cb end)) in J. cbn in J. congruence. }
    split; auto. split; auto. now rewrite Nat.add_1_r.
  - cbn [fst snd]. rewrite app_nil_r. exact G.
Qed.

Lemma put_In {A} (x y : A) l : forall n, In y (put n x l) -> y = x \/ In y l.
Proof.
  induction l as [|z l IH]; intros [|n]; cbn; auto; intros [H|H]; auto. apply IH in H as [H|H]; auto.
Qed.
Lemma put_length {A} (x : A) l : forall n, List.length (put n x l) = List.length l.
Proof. induction l; intros [|n]; cbn; auto. Qed.

(** An old callback refuses everything. *)
Lemma spent_refuses {o} a (cb cb' : cb_state (payload o)) r : cb_sender cb = false -> say a cb = Some (r, cb') -> r = Err InvalidState /\ cb' = cb.
Proof. unfold say. destruct (fitting o a); [|discriminate]. unfold cb_call. intros ->. intros [=<- <-]. auto. Qed.
Lemma good_spent l i c ph sp n o cb ob : good l i c (mkTask ph sp) -> cb_sender cb = false ->
  (forall n, asked_at i n ob = [] /\ taken_at i n ob = []) -> reports_of i ob = [] ->
  (forall m, released_at i m ob <> [] -> m < List.length sp) ->
  good (l ++ ob) i c (mkTask ph (put n (Spent o cb) sp)).
Proof.
  intros (tr & q & L & An & As & Sp & Ph) S O R Rl. exists tr, q. cbn [tk_phase tk_spent] in *. rewrite put_length. split; auto. split.
  { eapply answered_ext with (m := asks tr); eauto. }
  split; auto. split.
  { intros o' cb' J. apply put_In in J as [J|J]; [|now apply Sp in J].
    apply (f_equal (fun x => match x with Spent _ cb => cb_sender cb end)) in J. cbn in J. congruence. }
  assert (Z : forall m, List.length sp <= m -> released_at i m ob = []).
  { intros m Le. destruct (released_at i m ob) eqn:E; auto. exfalso. assert (m < List.length sp) by (apply Rl; rewrite E; discriminate). lia. }
  assert (U : forall n, List.length sp <= n -> unseen l i n -> unseen (l ++ ob) i n).
  { intros k Le U m Le'. destruct (U m Le') as (U1 & U2 & U3), (O m) as (F1 & F2). rewrite asked_app, taken_app, released_app, U1, U2, U3, F1, F2, Z by lia. auto. }
  rewrite reports_app, R, app_nil_r. destruct ph as [p|o' cb' k|].
  - destruct Ph as (? & ? & ?). auto.
  - destruct Ph as (E & (A1 & A2 & A3) & U1 & ?). split; auto. split; auto.
    destruct (O (List.length sp)) as (F1 & F2). split; [now rewrite asked_app, F1, app_nil_r|]. split; auto.
    rewrite taken_app, released_app, F2, Z by lia. rewrite !app_nil_r. exact A3.
  - destruct Ph as (? & x & ? & ?). eauto.
Qed.
(** The callback that is awaited. *)
Lemma good_awaited l i c o cb cb' k sp ob : good l i c (mkTask (Waiting o cb k) sp) ->
  (forall n, asked_at i n ob = []) -> reports_of i ob = [] ->
  (forall m, taken_at i m ob <> [] -> m = List.length sp) -> (forall m, released_at i m ob <> [] -> m = List.length sp) ->
  (awaited l i (List.length sp) o cb -> awaited (l ++ ob) i (List.length sp) o cb') ->
  good (l ++ ob) i c (mkTask (Waiting o cb' k) sp).
Proof.
  intros (tr & q & L & An & As & Sp & Ph) O R Tk Rl Aw. exists tr, q. cbn [tk_phase tk_spent] in *. split; auto.
  assert (Z : forall m, m <> List.length sp -> taken_at i m ob = [] /\ released_at i m ob = []).
  { intros m N. split; [destruct (taken_at i m ob) eqn:E; auto; exfalso; apply N, Tk; rewrite E; discriminate|
                        destruct (released_at i m ob) eqn:E; auto; exfalso; apply N, Rl; rewrite E; discriminate]. }
  split. { eapply answered_ext with (m := asks tr); eauto. intros n Le. split; auto. apply Z. lia. }
  split; auto. split; auto. destruct Ph as (E & A & U & Rp). split; auto. split; [now apply Aw|]. split.
  - intros m Le. destruct (U m Le) as (U1 & U2 & U3), (Z m ltac:(lia)) as (Z1 & Z2). rewrite asked_app, taken_app, released_app, U1, U2, U3, O, Z1, Z2. auto.
  - rewrite reports_app, Rp, R. auto.
Qed.

Lemma good_reply l i c t n a : good l i c t -> good (l ++ snd (reply i n a t)) i c (fst (reply i n a t)).
Proof.
  intros G. destruct t as [ph sp]. unfold reply. cbn [tk_phase tk_spent].
  destruct (nth_error sp n) as [[o cb]|] eqn:N.
  - destruct (say a cb) as [[r cb']|] eqn:S; [|cbn; now rewrite app_nil_r]. cbn [fst snd].
    assert (F : cb_sender cb = false). { destruct G as (? & ? & _ & _ & _ & Sp & _). apply nth_error_In in N. now apply Sp in N. }
    destruct (spent_refuses _ _ _ _ F S) as [-> ->]. apply good_spent; auto; intros; cbn in *; auto; congruence.
  - destruct (n =? List.length sp) eqn:E; [|cbn; now rewrite app_nil_r]. apply Nat.eqb_eq in E. subst n.
    destruct ph as [p|o cb k|]; try (cbn; now rewrite app_nil_r).
    destruct (say a cb) as [[r cb']|] eqn:S; [|cbn; now rewrite app_nil_r]. cbn [fst snd].
    unfold say in S. destruct (fitting o a) as [v|] eqn:Fi; [|discriminate]. apply (good_awaited l i c o cb).
    + exact G.
    + intros n. destruct r; reflexivity.
    + destruct r; reflexivity.
    + intros m. unfold told. destruct r; cbn; try congruence. rewrite Nat.eqb_refl. cbn. destruct (Nat.eqb_spec (List.length sp) m); cbn; congruence.
    + intros m. unfold told. destruct r; cbn; congruence.
    + intros (A1 & A2 & A3). unfold awaited. rewrite asked_app, taken_app, released_app, A1. unfold cb_call in S.
      destruct A3 as [(-> & T & R)|[(a' & v' & -> & T & F')|(-> & T & R)]]; cbn in S; injection S as <- <-; cbn; rewrite ?T, ?R, ?eqb2; cbn; split; auto; split; auto.
      * right. left. exists a, v. auto.
      * right. left. exists a', v'. auto.
      * right. right. rewrite app_nil_r. auto.
Qed.
Lemma good_release l i c t n : good l i c t -> good (l ++ snd (release i n t)) i c (fst (release i n t)).
Proof.
  intros G. destruct t as [ph sp]. unfold release. cbn [tk_phase tk_spent].
  destruct (nth_error sp n) as [[o cb]|] eqn:N.
  - cbn [fst snd]. apply good_spent; auto; intros; cbn; auto. destruct ((i =? i) && (n =? m)) eqn:E; [|cbn in *; rewrite E in *; cbn in *; congruence].
    apply andb_prop in E as [_ E]. apply Nat.eqb_eq in E. subst m. apply nth_error_Some. congruence.
  - destruct (n =? List.length sp) eqn:E; [|cbn; now rewrite app_nil_r]. apply Nat.eqb_eq in E. subst n.
    destruct ph as [p|o cb k|]; try (cbn; now rewrite app_nil_r). cbn [fst snd]. apply (good_awaited l i c o cb).
    + exact G.
    + reflexivity.
    + reflexivity.
    + intros m. cbn. congruence.
    + intros m. cbn. rewrite Nat.eqb_refl. cbn. destruct (Nat.eqb_spec (List.length sp) m); cbn; congruence.
    + intros (A1 & A2 & A3). unfold awaited. rewrite asked_app, taken_app, released_app, A1. cbn. rewrite eqb2. cbn. split; auto. split; auto.
      destruct A3 as [(-> & T & R)|[(a' & v' & -> & T & F')|(-> & T & R)]]; cbn; rewrite ?T, ?R.
      * right. right. split; auto. split; auto. discriminate.
      * right. left. exists a', v'. auto.
      * right. right. split; auto. split; auto. destruct (released_at i (List.length sp) l); discriminate.
Qed.

(** ** The whole system *)
Definition sys (l : list obs) (s : list task) : Prop :=
  (forall i t, nth_error s i = Some t -> exists c, started_as i l = [c] /\ good l i c t)
  /\ (forall i x, List.length s <= i -> In x l -> about i x = false).

Lemma put_same {A} (x : A) l : forall n, n < List.length l -> nth_error (put n x l) n = Some x.
Proof. induction l; intros [|n] Le; cbn in *; try lia; auto. apply IHl. lia. Qed.
Lemma put_other {A} (x : A) l : forall n m, n <> m -> nth_error (put n x l) m = nth_error l m.
Proof. induction l; intros [|n] [|m] Ne; cbn; auto; try congruence. Qed.

(** Steps of one task say nothing about others. *)
Definition local (i : nat) (f : task -> task * list obs) : Prop := forall t x, In x (snd (f t)) -> about i x = true /\ (forall j c, x <> Started j c).
Lemma local_poll i r : local i (poll i r).
Proof.
  intros [[[x|[d|ids|d|u] k]|o cb k|] sp] y; cbn; try tauto.
  - destruct x as [[?|?|]|]; cbn; try tauto; intros [<-|[]]; cbn; rewrite Nat.eqb_refl; split; auto; discriminate.
  - intros [<-|[]]; cbn; rewrite Nat.eqb_refl; split; auto; discriminate.
  - intros [<-|[]]; cbn; rewrite Nat.eqb_refl; split; auto; discriminate.
  - intros [<-|[]]; cbn; rewrite Nat.eqb_refl; split; auto; discriminate.
  - destruct (cb_get cb); cbn; tauto.
Qed.
Lemma local_told i n a r x : In x (told i n a r) -> about i x = true /\ forall j c, x <> Started j c.
Proof. intros [<-|[]]. destruct r; cbn; rewrite Nat.eqb_refl; split; auto; discriminate. Qed.
Lemma local_reply i n a : local i (reply i n a).
Proof.
  intros [ph sp] y. unfold reply. cbn [tk_phase tk_spent]. destruct (nth_error sp n) as [[o cb]|].
  - destruct (say a cb) as [[r cb']|]; cbn [snd]; [apply local_told|intros []].
  - destruct (n =? _); [|intros []]. destruct ph as [p|o cb k|]; try (intros []; fail). destruct (say a cb) as [[r cb']|]; cbn [snd]; [apply local_told|intros []].
Qed.
Lemma local_release i n : local i (release i n).
Proof.
  intros [ph sp] y. unfold release. cbn [tk_phase tk_spent]. destruct (nth_error sp n) as [[o cb]|].
  - intros [<-|[]]; cbn; rewrite Nat.eqb_refl; split; auto; discriminate.
  - destruct (n =? _); [|intros []]. destruct ph as [p|o cb k|]; try (intros []; fail). intros [<-|[]]; cbn; rewrite Nat.eqb_refl; split; auto; discriminate.
Qed.
Lemma no_start i l : (forall x, In x l -> forall j c, x <> Started j c) -> started_as i l = [].
Proof.
  induction l as [|x l IH]; intros H; [reflexivity|]. unfold started_as in *. cbn [flat_map]. rewrite IH by (intros; apply H; now right).
  destruct x; auto. destruct (H _ (or_introl eq_refl) i0 c eq_refl).
Qed.
Lemma about_other i j x : about i x = true -> i <> j -> about j x = false.
Proof. intros A N. destruct x; cbn in *; apply Nat.eqb_eq in A; subst; now apply Nat.eqb_neq. Qed.

Lemma sys_step l s i f : local i f -> (forall c t, good l i c t -> good (l ++ snd (f t)) i c (fst (f t))) ->
  sys l s -> sys (l ++ snd (on_task i f s)) (fst (on_task i f s)).
Proof.
  intros Lo St [S1 S2]. unfold on_task. destruct (nth_error s i) as [t|] eqn:N; [|cbn; rewrite app_nil_r; split; auto].
  pose proof (Lo t) as Lt. specialize (fun c => St c t). destruct (f t) as [t' ob]. cbn [fst snd] in *.
  assert (Li : i < List.length s) by (apply nth_error_Some; congruence).
  assert (Os : forall j, started_as j ob = []) by (intros j; apply no_start; intros x I; exact (proj2 (Lt x I))).
  split.
  - intros j u Nj. rewrite started_app, Os, app_nil_r. destruct (Nat.eq_dec i j) as [<-|Ne].
    + rewrite put_same in Nj by auto. injection Nj as <-. destruct (S1 i t N) as (c & Sc & G). exists c. auto.
    + rewrite put_other in Nj by auto. destruct (S1 j u Nj) as (c & Sc & G). exists c. split; auto.
      destruct (other_unseen j ob) as (O1 & O2 & _). { intros x I. eapply about_other; [apply (Lt x I)|auto]. }
      apply good_ext; auto.
  - intros j x Le I. rewrite put_length in Le. apply in_app_or in I as [I|I]; [eauto|]. eapply about_other; [apply (Lt x I)|lia].
Qed.
Lemma sys_act l s a : sys l s -> sys (l ++ snd (act C a s)) (fst (act C a s)).
Proof.
  intros S. destruct a as [c|i r|i n a|i n]; cbn [act].
  - destruct S as [S1 S2]. cbn [fst snd]. split.
    + intros i t N. rewrite started_app. destruct (Nat.lt_ge_cases i (List.length s)) as [Lt|Ge].
      * rewrite nth_error_app1 in N by auto. destruct (S1 i t N) as (c' & Sc & G). exists c'.
        cbn. replace (List.length s =? i) with false by (symmetry; apply Nat.eqb_neq; lia). rewrite app_nil_r. split; auto.
        apply good_ext; auto. 
      * rewrite nth_error_app2 in N by auto. destruct (i - List.length s) eqn:E; [|destruct n; discriminate]. injection N as <-.
        assert (i = List.length s) by lia. subst i. destruct (other_unseen (List.length s) l) as (O1 & O2 & O3). { intros x I. eauto. }
        exists c. rewrite O3. cbn. rewrite Nat.eqb_refl. split; auto. exists [], (ffi_prog C c). cbn [leads tk_phase tk_spent List.length]. split; auto. split; [constructor|].
        split; auto. split; [intros ? ? []|]. split; auto. rewrite reports_app, O2. split; auto.
        intros m _. destruct (O1 m) as (P1 & P2 & P3). rewrite asked_app, taken_app, released_app, P1, P2, P3. auto.
    + intros i x Le I. rewrite app_length in Le. cbn in Le. apply in_app_or in I as [I|[<-|[]]]; [apply S2; auto; lia|]. cbn. apply Nat.eqb_neq. lia.
  - apply sys_step; auto; [apply local_poll|]. intros. now apply good_poll.
  - apply sys_step; auto; [apply local_reply|]. intros. now apply good_reply.
  - apply sys_step; auto; [apply local_release|]. intros. now apply good_release.
Qed.
Lemma sys_acts acs : forall l s, sys l s -> sys (l ++ snd (acts C acs s)) (fst (acts C acs s)).
Proof.
  induction acs as [|a acs IH]; intros l s S; cbn [acts]; [now rewrite app_nil_r|].
  pose proof (sys_act l s a S) as S'. destruct (act C a s) as [s1 o1]. cbn [fst snd] in S'. specialize (IH _ _ S').
  destruct (acts C acs s1) as [s2 o2]. cbn [fst snd] in *. now rewrite app_assoc.
Qed.
Lemma sys_reached acs : sys (snd (acts C acs [])) (fst (acts C acs [])).
Proof. apply (sys_acts acs []). split; [intros [|i] t H; discriminate|intros i x _ []]. Qed.

Lemma got_exec {A} (f : A -> outcome) (m : prog (res A)) tr x : exec (got f m) tr x ->
  exists r, exec m tr r /\ x = Some (match r with Ok a => Ok (f a) | Err k => Err k | Panic => Panic end).
Proof.
  intros H. unfold got in H. apply exec_bind in H as (t1 & t2 & r & -> & H1 & H2). cbn in H2. destruct H2 as [-> ->]. rewrite app_nil_r. eauto.
Qed.
Lemma prog_returns c tr x rep : exec (ffi_prog C c) tr (Some x) -> In rep (reports x) -> returns C c tr rep.
Proof.
  assert (S : forall A (f : A -> outcome) r, In rep (reports (match r with Ok a => Ok (f a) | Err k => Err k | Panic => Panic end)) -> says f r rep).
  { intros A f [a|k|]; cbn; intuition subst; reflexivity. }
  intros H R. destruct c; cbn [ffi_prog returns] in *; try (apply got_exec in H as (r & H & E); injection E as ->; exists r; split; auto).
  apply exec_bind in H as (t1 & t2 & y & -> & H1 & H2). destruct y as [y|]; [|destruct H2 as [_ H2]; discriminate].
  apply got_exec in H2 as (r & [-> ->] & E). injection E as ->. rewrite app_nil_r. eauto.
Qed.
Lemma prog_crashes c tr x : exec (ffi_prog C c) tr x -> (match x with Some x => reports x | None => [] end) = [] -> crashes C c tr.
Proof.
  intros H R. destruct c; cbn [ffi_prog crashes] in *; try (apply got_exec in H as (r & H & ->); destruct r; try discriminate R; exact H).
  apply exec_bind in H as (t1 & t2 & y & -> & H1 & H2). destruct y as [y|].
  - apply got_exec in H2 as (r & [-> ->] & ->). rewrite app_nil_r. left. destruct y; try discriminate R. exact H1.
  - destruct H2 as [-> ->]. rewrite app_nil_r. auto.
Qed.

(** Every report is the result of the library, and there is at most one. *)
Lemma ffi_sound acs i rep : In rep (reports_of i (snd (acts C acs []))) ->
  exists c tr, started_as i (snd (acts C acs [])) = [c] /\ reports_of i (snd (acts C acs [])) = [rep]
    /\ answered (snd (acts C acs [])) i 0 tr /\ returns C c tr rep.
Proof.
  intros R. destruct (sys_reached acs) as [S1 S2]. destruct (nth_error (fst (acts C acs [])) i) as [t|] eqn:N.
  - destruct (S1 i t N) as (c & Sc & tr & q & L & An & _ & _ & Ph). exists c, tr. split; auto.
    destruct (tk_phase t) as [p|o cb k|].
    + destruct Ph as (_ & _ & E). rewrite E in R. destruct R.
    + destruct Ph as (_ & _ & _ & E). rewrite E in R. destruct R.
    + destruct Ph as (_ & x & -> & E). rewrite E in R |- *. destruct x as [x|]; [|destruct R]. apply leads_exec in L.
      split; [|split; auto; now apply prog_returns with x].
      destruct x; cbn in R; try tauto; destruct R as [<-|[]]; reflexivity.
  - apply nth_error_None in N. destruct (other_unseen i (snd (acts C acs []))) as (_ & O2 & _). { intros x I. eauto. } rewrite O2 in R. destruct R.
Qed.
Lemma answered_at l i n tr : answered l i n tr -> forall m, n <= m -> m < n + asks tr ->
  List.length (asked_at i m l) = 1 /\ List.length (taken_at i m l) <= 1.
Proof.
  intros H. induction H as [n|n u r tr H IH|n o a r tr Q T D H IH|n o r tr Q T R L H IH]; intros m Le Lt.
  - cbn in Lt. lia.
  - apply IH; auto.
  - unfold asks in Lt. cbn [filter] in Lt. rewrite (delivers_ask _ _ _ D) in Lt. cbn [List.length] in Lt. fold (asks tr) in Lt.
    destruct (Nat.eq_dec n m) as [<-|Ne]; [rewrite Q, T; auto|]. apply IH; lia.
  - unfold asks in Lt. cbn [filter] in Lt. rewrite (lost_ask _ _ L) in Lt. cbn [List.length] in Lt. fold (asks tr) in Lt.
    destruct (Nat.eq_dec n m) as [<-|Ne]; [rewrite Q, T; auto|]. apply IH; lia.
Qed.
Lemma good_once l i c t n : good l i c t -> List.length (reports_of i l) <= 1 /\ List.length (asked_at i n l) <= 1
  /\ List.length (taken_at i n l) <= List.length (asked_at i n l).
Proof.
  intros (tr & q & L & An & As & _ & Ph). split.
  - destruct (tk_phase t) as [p|o cb k|].
    + destruct Ph as (_ & _ & ->). auto.
    + destruct Ph as (_ & _ & _ & ->). auto.
    + destruct Ph as (_ & x & -> & ->). destruct x as [[?|?|]|]; cbn; auto.
  - destruct (Nat.lt_ge_cases n (asks tr)) as [Lt|Ge].
    + destruct (answered_at l i 0 tr An n) as [-> ?]; cbn; lia.
    + rewrite As in Ge. destruct (tk_phase t) as [p|o cb k|].
      * destruct Ph as (_ & U & _). destruct (U n Ge) as (-> & -> & _). auto.
      * destruct Ph as (_ & (A1 & _ & A3) & U & _). destruct (Nat.eq_dec n (List.length (tk_spent t))) as [->|Ne].
        -- rewrite A1. destruct A3 as [(_ & -> & _)|[(a & v & _ & -> & _)|(_ & -> & _)]]; cbn; auto.
        -- destruct (U n ltac:(lia)) as (-> & -> & _). auto.
      * destruct Ph as (U & _). destruct (U n Ge) as (-> & -> & _). auto.
Qed.
Lemma ffi_once acs i n : List.length (reports_of i (snd (acts C acs []))) <= 1
  /\ List.length (asked_at i n (snd (acts C acs []))) <= 1
  /\ List.length (taken_at i n (snd (acts C acs []))) <= List.length (asked_at i n (snd (acts C acs []))).
Proof.
  destruct (sys_reached acs) as [S1 S2]. destruct (nth_error (fst (acts C acs [])) i) as [t|] eqn:N.
  - destruct (S1 i t N) as (c & _ & G). exact (good_once _ _ _ _ _ G).
  - apply nth_error_None in N. destruct (other_unseen i (snd (acts C acs []))) as (O1 & O2 & _). { intros x I. eauto. }
    destruct (O1 n) as (-> & -> & _). rewrite O2. auto.
Qed.

(** ** Progress *)
Definition settled (l : list obs) (i : nat) (c : ffi_call) : Prop :=
  reports_of i l <> [] \/ outstanding l i \/ exists tr, answered l i 0 tr /\ crashes C c tr.
Lemma waiting_settled l i c t : good l i c t -> match tk_phase t with Waiting o cb k => cb_get cb = None -> settled l i c | _ => True end.
Proof.
  intros (tr & q & _ & _ & _ & _ & Ph). destruct (tk_phase t) as [p|o cb k|]; auto. intros G.
  destruct Ph as (_ & (A1 & _ & A3) & _ & _). destruct A3 as [(_ & T & R)|[(a & v & -> & _)|(-> & _)]]; [|discriminate G|discriminate G].
  right. left. exists (List.length (tk_spent t)), o. auto.
Qed.
Lemma ended_settled l i c t : good l i c t -> tk_phase t = Ended -> settled l i c.
Proof.
  intros (tr & q & L & An & _ & _ & Ph) E. rewrite E in Ph. destruct Ph as (_ & x & -> & R). apply leads_exec in L.
  destruct (match x with Some x => reports x | None => [] end) eqn:Z.
  - right. right. exists tr. split; auto. now apply prog_crashes with x.
  - left. rewrite R. discriminate.
Qed.
Lemma task_settles c i p : forall l sp rs, good l i c (mkTask (Ready p) sp) ->
  exists n, forall s, nth_error s i = Some (mkTask (Ready p) sp) -> settled (l ++ snd (acts C (polls i rs n) s)) i c.
Proof.
  induction p as [x|o k IH]; intros l sp rs G.
  - exists 1. intros s N. cbn [polls acts act]. unfold on_task. rewrite N. pose proof (good_poll l i c _ (rs O) G) as G'.
    cbn [poll tk_phase tk_spent fst snd] in G' |- *. rewrite app_nil_r. now apply (ended_settled _ _ _ _ G').
  - destruct o as [d|ids|d|u].
    1-3: (pose proof (good_poll l i c _ (rs O) G) as G'; cbn [poll tk_phase tk_spent fst snd] in G';
      exists 1; intros s N; cbn [polls acts act]; unfold on_task; rewrite N; cbn [poll tk_phase tk_spent fst snd]; rewrite app_nil_r;
      apply (waiting_settled _ _ _ _ G'); reflexivity).
    pose proof (good_poll l i c _ (rs O) G) as G'. cbn [poll tk_phase tk_spent fst snd] in G'.
    destruct (IH (rs O) (l ++ []) sp (fun n => rs (S n)) G') as (n & H). exists (S n). intros s N.
    cbn [polls acts act]. unfold on_task. rewrite N. cbn [poll tk_phase tk_spent fst snd].
    specialize (H (put i (mkTask (Ready (k (rs O))) sp) s)). rewrite app_nil_r in H.
    destruct (acts C (polls i (fun n => rs (S n)) n) _) as [s' o']. cbn [fst snd app] in *. apply H. apply put_same. apply nth_error_Some. congruence.
Qed.
Lemma ffi_progress acs i c rs : started_as i (snd (acts C acs [])) = [c] ->
  exists n, settled (snd (acts C (acs ++ polls i rs n) [])) i c.
Proof.
  intros Sc.
  assert (AA : forall l1 l2 s, acts C (l1 ++ l2) s = (fst (acts C l2 (fst (acts C l1 s))), snd (acts C l1 s) ++ snd (acts C l2 (fst (acts C l1 s))))).
  { induction l1 as [|a l1 IH]; intros l2 s; cbn [acts app fst snd]; [now destruct (acts C l2 s)|]. destruct (act C a s) as [s1 o1]. rewrite IH.
    destruct (acts C l1 s1) as [s2 o2]. cbn [fst snd]. now rewrite app_assoc. }
  destruct (sys_reached acs) as [S1 S2]. destruct (nth_error (fst (acts C acs [])) i) as [t|] eqn:N.
  2:{ apply nth_error_None in N. destruct (other_unseen i (snd (acts C acs []))) as (_ & _ & O3). { intros x I. eauto. } rewrite O3 in Sc. discriminate. }
  destruct (S1 i t N) as (c' & Sc' & G). rewrite Sc in Sc'. injection Sc' as <-. set (l := snd (acts C acs [])) in *. set (s := fst (acts C acs [])) in *.
  assert (Go : exists n, settled (l ++ snd (acts C (polls i rs n) s)) i c).
  { destruct t as [[p|o cb k|] sp].
    - destruct (task_settles c i p l sp rs G) as (n & H). exists n. apply H. exact N.
    - destruct (cb_get cb) as [v|] eqn:E.
      + pose proof (good_poll l i c _ (rs O) G) as G'. cbn [poll tk_phase tk_spent fst snd] in G'. rewrite E in G'. cbn [fst snd] in G'.
        destruct (task_settles c i _ _ _ (fun n => rs (S n)) G') as (n & H). exists (S n). cbn [polls acts act]. unfold on_task. rewrite N.
        cbn [poll tk_phase tk_spent fst snd]. rewrite E. cbn [fst snd]. rewrite app_nil_r in H.
        specialize (H (put i (mkTask (Ready (k (adapt o v))) (sp ++ [Spent o (cb_cancel cb)])) s)).
        destruct (acts C (polls i (fun n => rs (S n)) n) _) as [s' o']. cbn [fst snd app] in *. apply H. apply put_same. apply nth_error_Some. congruence.
      + exists O. cbn. rewrite app_nil_r. now apply (waiting_settled _ _ _ _ G).
    - exists O. cbn. rewrite app_nil_r. now apply (ended_settled _ _ _ _ G). }
  destruct Go as (n & H). exists n. rewrite AA. exact H.
Qed.

(** ** Calls do not influence each other *)
Lemma filter_about i j f s : local j f -> i <> j -> filter (about i) (snd (on_task j f s)) = [].
Proof.
  intros Lo Ne. unfold on_task. destruct (nth_error s j) as [t|]; [|reflexivity]. specialize (Lo t). destruct (f t) as [t' ob]. cbn [snd] in *.
  induction ob as [|x ob IH]; cbn; auto. rewrite (about_other j i x) by (auto; apply Lo; now left). apply IH. intros y I. apply Lo. now right.
Qed.
Lemma on_task_length i f s : List.length (fst (on_task i f s)) = List.length s.
Proof. unfold on_task. destruct (nth_error s i); auto. destruct (f t). apply put_length. Qed.
Lemma on_task_same i f s s' : nth_error s i = nth_error s' i -> List.length s = List.length s' ->
  snd (on_task i f s) = snd (on_task i f s') /\ nth_error (fst (on_task i f s)) i = nth_error (fst (on_task i f s')) i.
Proof.
  intros E L. unfold on_task. rewrite <- E. destruct (nth_error s i) as [t|] eqn:N; [|cbn; rewrite N, E; auto].
  destruct (f t) as [t' ob]. cbn [fst snd]. split; auto. assert (i < List.length s) by (apply nth_error_Some; congruence).
  rewrite !put_same; auto. now rewrite <- L.
Qed.
Lemma on_task_other i j f s : i <> j -> nth_error (fst (on_task j f s)) i = nth_error s i.
Proof. intros Ne. unfold on_task. destruct (nth_error s j); auto. destruct (f t). cbn. apply put_other; auto. Qed.
Lemma ffi_apart i acs : forall s s', nth_error s i = nth_error s' i -> List.length s = List.length s' ->
  filter (about i) (snd (acts C acs s)) = filter (about i) (snd (acts C (filter (concerns_call i) acs) s')).
Proof.
  induction acs as [|a acs IH]; intros s s' E L; [reflexivity|]. cbn [filter].
  assert (Same : forall f, concerns_call i a = true -> act C a = on_task i f ->
    filter (about i) (snd (acts C (a :: acs) s)) = filter (about i) (snd (acts C (a :: filter (concerns_call i) acs) s'))).
  { intros f _ Ea. cbn [acts]. rewrite Ea. destruct (on_task_same i f s s' E L) as [Eo En]. pose proof (on_task_length i f s) as L1. pose proof (on_task_length i f s') as L2.
    destruct (on_task i f s) as [s1 o1], (on_task i f s') as [s2 o2]. cbn [fst snd] in *. subst o2. specialize (IH s1 s2 En (eq_trans L1 (eq_trans L (eq_sym L2)))).
    destruct (acts C acs s1), (acts C (filter (concerns_call i) acs) s2). cbn [fst snd] in *. now rewrite !filter_app, IH. }
  assert (Other : forall j f, i <> j -> act C a = on_task j f -> local j f ->
    filter (about i) (snd (acts C (a :: acs) s)) = filter (about i) (snd (acts C (filter (concerns_call i) acs) s'))).
  { intros j f Ne Ea Lo. cbn [acts]. rewrite Ea. pose proof (on_task_length j f s) as L1. pose proof (on_task_other i j f s Ne) as N1. pose proof (filter_about i j f s Lo Ne) as F1.
    destruct (on_task j f s) as [s1 o1]. cbn [fst snd] in *. specialize (IH s1 s' (eq_trans N1 E) (eq_trans L1 L)).
    destruct (acts C acs s1). cbn [fst snd] in *. now rewrite filter_app, F1, IH. }
  destruct a as [c|j r|j n a|j n]; cbn [concerns_call] in *.
  - cbn [acts act]. rewrite <- L. assert (En : nth_error (s ++ [mkTask (Ready (ffi_prog C c)) []]) i = nth_error (s' ++ [mkTask (Ready (ffi_prog C c)) []]) i).
    { destruct (Nat.lt_ge_cases i (List.length s)) as [Lt|Ge]; [rewrite !nth_error_app1 by congruence; auto|rewrite !nth_error_app2 by congruence; now rewrite L]. }
    specialize (IH _ _ En ltac:(rewrite !app_length; congruence)). cbn [acts act].
    destruct (acts C acs _), (acts C (filter (concerns_call i) acs) _). cbn [fst snd] in *. now rewrite !filter_app, IH.
  - destruct (Nat.eqb_spec j i) as [->|Ne]; [apply (Same (poll i r)); auto|apply (Other j (poll j r)); auto; apply local_poll].
  - destruct (Nat.eqb_spec j i) as [->|Ne]; [apply (Same (reply i n a)); auto|apply (Other j (reply j n a)); auto; apply local_reply].
  - destruct (Nat.eqb_spec j i) as [->|Ne]; [apply (Same (release i n)); auto|apply (Other j (release j n)); auto; apply local_release].
Qed.
End Good.
