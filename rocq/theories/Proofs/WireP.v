(** The decoders, in terms of member names. *)
From Verif.Model Require Import Prelude Utf8 Base64 Json Serde DidDoc Crypto Keys Effects Jws Jwe Message FromPrior.
From Verif.Spec Require Import Codec Small Names World Wire.
From Verif.Proofs Require Import Lib Base64P JsonP JsonDec SerdeP CodecP NamesP.

(** ** Values *)
Lemma tree_wf fp v : forall d, json_tree fp d v -> wfv fp v /\ depth v <= d.
Proof.
  induction v as [| b | n | s | l IH | l IH] using value_ind'; intros d H; inversion H; subst.
  - split; [exact I|cbn; lia].
  - split; [exact I|cbn; lia].
  - split; [|cbn; lia]. now apply json_number_ok.
  - split; [assumption|cbn; lia].
  - rename d0 into e. assert (A : Forall (fun x => wfv fp x /\ depth x <= e) l).
    { rewrite Forall_forall in *. intros x I. eauto. }
    split.
    + apply wfv_arr. eapply Forall_impl; [|exact A]. cbn beta. tauto.
    + assert (depth (VArr l) < S (S e)); [|lia]. apply depth_arr. split; [lia|]. eapply Forall_impl; [|exact A]. cbn. intros x (_ & K). lia.
  - rename d0 into e. assert (A : Forall (fun kv => (utf8 (fst kv) = true /\ wfv fp (snd kv)) /\ depth (snd kv) <= e) l).
    { rewrite Forall_forall in *. intros [k x] I. cbn. destruct (H2 k x I) as [U J]. destruct (IH _ I _ J). tauto. }
    split.
    + apply wfv_obj. eapply Forall_impl; [|exact A]. cbn beta. tauto.
    + assert (depth (VObj l) < S (S e)); [|lia]. apply depth_obj. split; [lia|]. eapply Forall_impl; [|exact A]. cbn. intros x (_ & K). lia.
Qed.

Lemma none_cons k v l n : none ((k, v) :: l) n <-> k <> n /\ none l n.
Proof. unfold none. cbn. intuition. Qed.
Lemma none_dec l k : none l k \/ ~ none l k.
Proof. unfold none. destruct (in_dec (list_eq_dec ascii_dec) k (map fst l)); tauto. Qed.
Lemma last_cons k v l n w : last_of ((k, v) :: l) n w <-> last_of l n w \/ k = n /\ v = w /\ none l n.
Proof.
  split.
  - intros (l1 & l2 & E & N). destruct l1 as [|[k1 v1] l1]; cbn in E; injection E as -> -> ->; auto. left. now exists l1, l2.
  - intros [(l1 & l2 & -> & N)|(<- & <- & N)]; [now exists ((k, v) :: l1), l2|now exists [], l].
Qed.
Lemma last_nil n w : ~ last_of [] n w.
Proof. intros (l1 & l2 & E & _). now destruct l1. Qed.
Lemma last_some l n : ~ none l n -> exists w, last_of l n w.
Proof.
  induction l as [|[k v] l IH]; intros H; [destruct H; now intros []|]. rewrite none_cons in H.
  destruct (none_dec l n) as [N|N].
  - exists v. apply last_cons. right. split; [|auto]. destruct (list_eq_dec ascii_dec k n); tauto.
  - apply IH in N as [w N]. exists w. apply last_cons. auto.
Qed.
Lemma last_none l n w : last_of l n w -> ~ none l n.
Proof. intros (l1 & l2 & -> & _) N. apply N. rewrite map_app. apply in_app_iff. right. now left. Qed.
Lemma last_fun l n w w' : last_of l n w -> last_of l n w' -> w = w'.
Proof.
  induction l as [|[k v] l IH]; [intros H; now apply last_nil in H|]. rewrite !last_cons.
  intros [H|(-> & <- & N)] [H'|(E & <- & N')]; auto; exfalso; [apply (last_none _ _ _ H N')|apply (last_none _ _ _ H' N)].
Qed.

Lemma insert_in k v m n w : keys_sorted m -> (In (n, w) (btree_insert k v m) <-> n = k /\ w = v \/ n <> k /\ In (n, w) m).
Proof.
  induction m as [|[k1 v1] m IH]; intros S.
  { cbn. split; [intros [H|[]]; injection H as -> ->; auto|intros [[-> ->]|[_ []]]; auto]. }
  assert (LT : forall n w, In (n, w) m -> bcmp k1 n = Lt).
  { clear -S. revert k1 v1 S. induction m as [|[k2 v2] m IH]; intros k1 v1 S n w [].
    - injection H as -> ->. apply S.
    - destruct S as [S1 S2]. eapply bcmp_trans; [exact S1|]. eapply IH; eauto. }
  assert (S' : keys_sorted m) by (destruct m as [|[] m]; cbn in *; tauto).
  assert (NE : forall a b, bcmp a b <> Eq -> a <> b).
  { intros a b H ->. apply H. now apply bcmp_eq. }
  cbn [btree_insert]. destruct (bcmp k k1) eqn:E.
  - apply bcmp_eq in E. subst k1. cbn [In]. split.
    + intros [H|H]; [injection H as -> ->; auto|]. right. split; auto. apply LT in H. apply NE. rewrite bcmp_antisym, H. discriminate.
    + intros [[-> ->]|[N [H|H]]]; auto. injection H as -> ->. congruence.
  - cbn [In]. split.
    + intros [H|[H|H]]; [injection H as -> ->; auto|injection H as -> ->|].
      * right. split; auto. apply NE. rewrite bcmp_antisym, E. discriminate.
      * right. split; auto. apply LT in H. apply NE. rewrite bcmp_antisym, (bcmp_trans _ _ _ E H). discriminate.
    + intros [[-> ->]|[N [H|H]]]; auto.
  - cbn [In]. rewrite (IH S'). split.
    + intros [H|[[-> ->]|[N H]]]; auto. injection H as -> ->. right. split; auto. apply NE. rewrite bcmp_antisym, E. discriminate.
    + intros [[-> ->]|[N [H|H]]]; auto.
Qed.
Lemma btree_in l n w : In (n, w) (btree_of l) <-> last_of l n w.
Proof.
  unfold btree_of. enough (G : forall m, keys_sorted m -> (In (n, w) (fold_left (fun m kv => btree_insert (fst kv) (snd kv) m) l m) <-> last_of l n w \/ none l n /\ In (n, w) m)).
  { rewrite (G [] I). cbn. tauto. }
  induction l as [|[k v] l IH]; intros m S.
  { cbn. split; [right; split; [intros []|auto]|]. intros [H|[_ H]]; auto. now apply last_nil in H. }
  cbn [fold_left fst snd]. rewrite IH by (apply (btree_insert_sorted (fun _ => None)); exact S). rewrite insert_in by auto. rewrite last_cons, none_cons.
  split.
  - intros [H|(N & [[-> ->]|[N' H]])]; auto.
  - intros [[H|(-> & -> & N)]|((N & N') & H)]; auto.
Qed.
Lemma sorted_eq (l l' : list (bytes * value)) : keys_sorted l -> keys_sorted l' -> (forall n w, In (n, w) l <-> In (n, w) l') -> l = l'.
Proof.
  assert (LT : forall k1 v1 m, keys_sorted ((k1, v1) :: m) -> forall n (w : value), In (n, w) m -> bcmp k1 n = Lt).
  { intros k1 v1 m. revert k1 v1. induction m as [|[k2 v2] m IH]; intros k1 v1 S n w [].
    - injection H as -> ->. apply S.
    - destruct S as [S1 S2]. eapply bcmp_trans; [exact S1|]. eapply IH; eauto. }
  assert (TL : forall a m, keys_sorted (a :: m) -> keys_sorted m) by (intros [] [|[] m]; cbn; tauto).
  revert l'. induction l as [|[k v] l IH]; intros [|[k' v'] l'] S S' H; auto.
  - exfalso. apply (proj2 (H k' v')). now left.
  - exfalso. apply (proj1 (H k v)). now left.
  - assert (E : (k, v) = (k', v')).
    { destruct (proj1 (H k v) (or_introl eq_refl)) as [E|I1]; auto.
      destruct (proj2 (H k' v') (or_introl eq_refl)) as [E|I2]; auto.
      apply (LT _ _ _ S') in I1. apply (LT _ _ _ S) in I2. rewrite bcmp_antisym, I2 in I1. discriminate. }
    injection E as <- <-. f_equal. apply IH; eauto. intros n w. split; intros I.
    + destruct (proj1 (H n w) (or_intror I)) as [E|]; auto. injection E as <- <-. apply (LT _ _ _ S) in I. assert (k = k) as X by auto. apply bcmp_eq in X. congruence.
    + destruct (proj2 (H n w) (or_intror I)) as [E|]; auto. injection E as <- <-. apply (LT _ _ _ S') in I. assert (k = k) as X by auto. apply bcmp_eq in X. congruence.
Qed.
Lemma keys_names l : keys_sorted l -> sorted_names (map fst l).
Proof. induction l as [|[k v] [|[k' v'] l] IH]; cbn; intros H; constructor; tauto. Qed.

Lemma last_map l n w : last_of (map (fun kv => (fst kv, norm (snd kv))) l) n w <-> exists v, last_of l n v /\ w = norm v.
Proof.
  induction l as [|[k v] l IH].
  - split; [intros H; now apply last_nil in H|intros (v & H & _); now apply last_nil in H].
  - cbn [map fst snd]. rewrite last_cons, IH. assert (NN : none (map (fun kv => (fst kv, norm (snd kv))) l) n <-> none l n).
    { unfold none. now rewrite map_map. }
    rewrite NN. split.
    + intros [(u & H & ->)|(-> & <- & N)]; [exists u|exists v]; split; auto; apply last_cons; auto.
    + intros (u & H & ->). apply last_cons in H as [H|(-> & -> & N)]; eauto.
Qed.
Lemma last_in l n v : last_of l n v -> In (n, v) l.
Proof. intros (l1 & l2 & -> & _). apply in_app_iff. right. now left. Qed.
Lemma value_read_norm v : forall b, value_read v b <-> b = norm v.
Proof.
  induction v as [| b | n | s | l IH | l IH] using value_ind'; intros c.
  1-4: split; [inversion 1; auto|intros ->; constructor].
  - rewrite Forall_forall in IH. split.
    + inversion 1 as [| | | |l0 m L R|]; subst. cbn. f_equal. clear H. revert m L R. induction l as [|x l IHl]; intros [|y m] L R; auto; try discriminate. cbn. f_equal.
      * apply (IH x (or_introl eq_refl)). apply (R 0); auto.
      * apply IHl; [intros z I; apply IH; now right|cbn in L; congruence|]. intros i. apply (R (S i)).
    + intros ->. cbn. constructor; [now rewrite map_length|]. intros i x y E1 E2. rewrite (map_nth_error norm _ _ E1) in E2. injection E2 as <-.
      apply IH; auto. eapply nth_error_In; eauto.
  - rewrite Forall_forall in IH.
    assert (K : forall n v, last_of l n v -> forall b, value_read v b <-> b = norm v).
    { intros n v H. apply last_in in H. apply (IH _ H). }
    split.
    + inversion 1 as [| | | | |l0 m S R T]; subst. cbn. f_equal. apply sorted_eq; [now apply sorted_keys|apply (btree_of_sorted' (fun _ => None))|].
      intros n w. rewrite btree_in, last_map. split.
      * intros I. destruct (R _ _ I) as (v & L & V). exists v. split; auto. now apply (K n v L).
      * intros (v & L & ->). assert (I : In n (map fst m)) by exact (T _ (in_map fst _ _ (last_in _ _ _ L))).
        apply in_map_iff in I as ([n' w'] & E & I). cbn in E. subst n'. destruct (R _ _ I) as (v' & L' & V).
        rewrite (last_fun _ _ _ _ L L') in *. apply (K n v' L') in V. now subst.
    + intros ->. cbn. constructor; [apply keys_names, (btree_of_sorted' (fun _ => None))| |].
      * intros k b I. apply btree_in, last_map in I as (v & L & ->). exists v. split; auto. now apply (K k v L).
      * intros k I. destruct (last_some l k) as [w L]; [auto|]. apply in_map_iff. exists (k, norm w). split; auto. apply btree_in, last_map. eauto.
Qed.

(** ** Fields of objects *)
Lemma one_cons k v l n w : one ((k, v) :: l) n w <-> k = n /\ v = w /\ none l n \/ k <> n /\ one l n w.
Proof.
  split.
  - intros (l1 & l2 & E & N1 & N2). destruct l1 as [|[k1 v1] l1]; cbn in E; injection E as -> -> ->; auto.
    apply none_cons in N1 as [N N1]. right. split; auto. now exists l1, l2.
  - intros [(<- & <- & N)|(N & l1 & l2 & -> & N1 & N2)].
    + exists [], l. repeat split; auto. now intros [].
    + exists ((k, v) :: l1), l2. repeat split; auto. apply none_cons. auto.
Qed.
Lemma one_nil n w : ~ one [] n w.
Proof. intros (l1 & l2 & E & _). now destruct l1. Qed.
Lemma one_last l n w : one l n w -> last_of l n w.
Proof. intros (l1 & l2 & E & _ & N). now exists l1, l2. Qed.
Lemma one_fun l n w w' : one l n w -> one l n w' -> w = w'.
Proof. intros H H'. eapply last_fun; eapply one_last; eauto. Qed.

(** What the members [l] do to a field read by [f]. *)
Definition slot {A} (f : value -> res A) (k : bytes) (l : members) (o o' : option A) : Prop :=
  none l k /\ o' = o \/ o = None /\ exists w a, one l k w /\ f w = Ok a /\ o' = Some a.
Lemma slot_nil {A} (f : value -> res A) k o o' : slot f k [] o o' <-> o' = o.
Proof.
  split; [|intros ->; left; split; [intros []|auto]].
  intros [[_ H]|(_ & w & a & H & _)]; auto. now apply one_nil in H.
Qed.
Lemma slot_hit {A} (f : raw -> res A) k v l o o' :
  slot (fun v => f (raw_of v)) k ((k, v) :: l) o o' <-> exists o1, once o f (raw_of v) = Ok o1 /\ slot (fun v => f (raw_of v)) k l o1 o'.
Proof.
  unfold slot. rewrite none_cons. split.
  - intros [[[N _] _]|(-> & w & a & H & F & ->)]; [congruence|]. apply one_cons in H as [(_ & -> & N)|(N & _)]; [|congruence].
    exists (Some a). cbn. rewrite F. auto.
  - intros (o1 & H & S). destruct o as [x|]; [discriminate|]. cbn in H. destruct (f (raw_of v)) as [a| |] eqn:F; try discriminate.
    injection H as <-. destruct S as [[N ->]|(E & _)]; [|discriminate]. right. split; auto. exists v, a.
    rewrite one_cons. auto.
Qed.
Lemma slot_miss {A} (f : value -> res A) k n v l o o' : n <> k -> slot f k ((n, v) :: l) o o' <-> slot f k l o o'.
Proof.
  intros N. unfold slot. rewrite none_cons. split.
  - intros [[[_ H] E]|(-> & w & a & H & F & ->)]; auto. apply one_cons in H as [(H & _)|[_ H]]; [congruence|]. right. split; auto. eauto.
  - intros [[H E]|(-> & w & a & H & F & ->)]; auto. right. split; auto. exists w, a. rewrite one_cons. auto.
Qed.

(** ** Reading *)
Section Reads.
Context (fp : bytes -> option bytes).

Lemma num_is n : wfv fp (VNum n) -> exists neg i fe, num_raw n = RNum neg i fe /\ num_of fp neg i fe = Ok n.
Proof. intros H. exact (raw_num fp n H). Qed.
Lemma skip_raw v : wfv fp v -> skip (raw_of v) = Ok tt.
Proof.
  induction v as [| b | n | s | l IH | l IH] using value_ind'; auto.
  - intros H. destruct (raw_num fp n H) as (neg & i & fe & E & _). change (raw_of (VNum n)) with (num_raw n) in E. cbn [raw_of]. now rewrite E.
  - rewrite wfv_arr. intros H. cbn [raw_of skip]. induction IH as [|x l H1 _ IH]; auto. inversion H; subst. cbn [map]. rewrite H1 by auto. cbn [rbind]. auto.
  - rewrite wfv_obj. intros H. cbn [raw_of skip]. induction IH as [|[k x] l H1 _ IH]; auto. inversion H; subst. cbn [map fst snd] in *. rewrite H1 by tauto. cbn [rbind]. auto.
Qed.
Lemma raw_null v : wfv fp v -> raw_of v = RNull -> v = VNull.
Proof. destruct v; try discriminate; auto. cbn [raw_of]. intros H. destruct (num_is n H) as (neg & i & fe & -> & _). discriminate. Qed.

Lemma tree_up d v : json_tree fp d v -> json_tree fp (S d) v.
Proof.
  revert d. induction v as [| b | n | s | l IH | l IH] using value_ind'; intros d H; inversion H; subst; constructor; auto.
  - rewrite Forall_forall in IH. auto.
  - rewrite Forall_forall in IH. intros k x I. match goal with H : forall k x, In _ _ -> _ |- _ => destruct (H k x I) end. split; auto. apply (IH _ I). auto.
Qed.

(** [f] reads JSON nested at most [d] deep as [rd] says. *)
Definition reads {A} (d : nat) (f : raw -> res A) (rd : value -> A -> Prop) : Prop :=
  forall w, json_tree fp d w -> forall a, f (raw_of w) = Ok a <-> rd w a.
Lemma reads_up {A} (f : raw -> res A) rd : (forall d, reads (S d) f rd) -> forall d, reads d f rd.
Proof. intros H d w T. apply (H d). now apply tree_up. Qed.

Lemma wf_of d v : json_tree fp d v -> wfv fp v. Proof. intros H. eapply tree_wf; eauto. Qed.

Lemma reads_string d : reads d de_string str_read.
Proof.
  intros w T a. apply wf_of in T. unfold str_read. destruct w; cbn [raw_of]; try (split; discriminate).
  - destruct (num_is n T) as (neg & i & fe & -> & _). split; discriminate.
  - cbn. split; [intros H; injection H as <-; auto|congruence].
Qed.
Lemma plain_iff s : existsb must_escape s = false <-> ~ escaped s.
Proof.
  split.
  - intros H E. apply escaped_plain in E. unfold plain in E. now rewrite H in E.
  - intros H. apply not_true_is_false. intros E. apply H. apply existsb_exists in E as (c & I & M). exists c. split; auto.
    unfold must_escape in M. apply orb_prop in M as [M|M]; [apply orb_prop in M as [M|M]; [left; now apply N.ltb_lt|]|]; right; apply N.eqb_eq in M; rewrite <- (ascii_N_embedding c), M; auto.
Qed.
Lemma reads_borrowed d : reads d de_borrowed plain_read.
Proof.
  intros w T a. apply wf_of in T. unfold plain_read. destruct w; cbn [raw_of]; try (split; [discriminate|intros [H _]; discriminate]).
  - destruct (num_is n T) as (neg & i & fe & -> & _). split; [discriminate|intros [H _]; discriminate].
  - pose proof (plain_iff s) as K. cbn. destruct (existsb must_escape s); cbn.
    + split; [discriminate|]. intros [H N]. injection H as <-. apply K in N. discriminate.
    + split; [intros H; injection H as <-; split; auto; now apply K|intros [H _]; injection H as <-; auto].
Qed.
Lemma reads_u64 d : reads d (de_u64 fp) num_read.
Proof.
  intros w T a. apply wf_of in T. unfold num_read. destruct w; cbn [raw_of]; try (split; discriminate).
  destruct (num_is n T) as (neg & i & fe & -> & E). cbn [de_u64]. rewrite E. destruct n; split; try discriminate; intros H; injection H as <-; auto.
Qed.
Lemma reads_value d d' : d < d' -> reads d (to_value fp d') value_read.
Proof.
  intros L w T a. apply tree_wf in T as [W D]. unfold to_value. rewrite (to_content_raw fp) by (auto; lia). cbn [rbind]. rewrite value_read_norm.
  split; [intros H; injection H as <-; auto|intros ->; auto].
Qed.
Definition opt_read {A} (rd : value -> A -> Prop) (w : value) (o : option A) : Prop :=
  match o with None => w = VNull | Some a => w <> VNull /\ rd w a end.
Lemma reads_option {A} d (f : raw -> res A) rd : reads d f rd -> reads d (de_option f) (opt_read rd).
Proof.
  intros R w T o. specialize (R w T). pose proof (raw_null w (wf_of _ _ T)) as N. unfold opt_read.
  assert (K : raw_of w = RNull \/ de_option f (raw_of w) = let? a := f (raw_of w) in Ok (Some a)).
  { unfold de_option. destruct (raw_of w); auto. }
  destruct K as [K|K].
  - rewrite K. rewrite (N K) in *. cbn. destruct o; split; try discriminate; auto. intros [[] _]. auto.
  - rewrite K. destruct (f (raw_of w)) as [a| |] eqn:E; cbn [rbind].
    + assert (w <> VNull). { intros ->. discriminate K. }
      destruct o as [b|]; split; try discriminate; try tauto.
      * intros X. injection X as <-. split; auto. now apply R.
      * intros [_ X]. apply R in X. injection X as ->. auto.
    + assert (w <> VNull). { intros ->. discriminate K. }
      destruct o as [b|]; split; try discriminate; try tauto. intros [_ X]. apply R in X. discriminate.
    + assert (w <> VNull). { intros ->. discriminate K. }
      destruct o as [b|]; split; try discriminate; try tauto. intros [_ X]. apply R in X. discriminate.
Qed.
Lemma reads_vec {A} d (f : raw -> res A) rd : reads d f rd -> reads (S d) (de_vec f) (list_read rd).
Proof.
  intros R w T o. unfold list_read. destruct w; cbn [raw_of]; try (split; [discriminate|intros (vs & H & _); discriminate]).
  - destruct (num_is n (wf_of _ _ T)) as (neg & i & fe & -> & _). split; [discriminate|intros (vs & H & _); discriminate].
  - assert (J : forall x, In x l -> json_tree fp d x) by (now inversion T; subst).
    unfold de_vec, close. assert (K : rmap f (map raw_of l) = Ok o <-> Forall2 rd l o).
    { clear T. revert o. induction l as [|x l IH]; intros o; cbn.
      - split; [intros H; injection H as <-; constructor|inversion 1; auto].
      - assert (Rx := R x (J x (or_introl eq_refl))). assert (IH' := IH (fun y I => J y (or_intror I))). clear IH.
        split.
        + destruct (f (raw_of x)) as [b| |] eqn:E; try discriminate. cbn. destruct (rmap f (map raw_of l)) as [m| |] eqn:E'; try discriminate.
          cbn. intros H. injection H as <-. constructor; [now apply Rx|now apply IH'].
        + inversion 1; subst. rewrite (proj2 (Rx _)) by eassumption. cbn. rewrite (proj2 (IH' _)) by eassumption. reflexivity. }
    split.
    + intros H. exists l. split; auto. apply K. destruct (rmap f (map raw_of l)); cbn in *; congruence.
    + intros (vs & E & H). injection E as <-. apply K in H. rewrite H. reflexivity.
Qed.
Lemma reads_map {A B} d (f : raw -> res A) rd (g : A -> B) (rd' : value -> B -> Prop) :
  reads d f rd -> (forall w b, rd' w b <-> exists a, rd w a /\ b = g a) -> reads d (fun r => let? a := f r in Ok (g a)) rd'.
Proof.
  intros R H w T b. specialize (R w T). rewrite H. destruct (f (raw_of w)) as [a| |]; cbn; split; try discriminate.
  - intros E. injection E as <-. exists a. split; auto. now apply R.
  - intros (a' & E & ->). apply R in E. injection E as ->. auto.
  - intros (a' & E & _). apply R in E. discriminate.
  - intros (a' & E & _). apply R in E. discriminate.
Qed.

(** A field of an object. *)
Definition mems_ok (d : nat) (l : members) : Prop := forall k x, In (k, x) l -> utf8 k = true /\ json_tree fp d x.
Notation slot' f := (slot (fun v => f (raw_of v))).
Lemma one_in l k w : one l k w -> In (k, w) l.
Proof. intros (l1 & l2 & -> & _). apply in_app_iff. right. now left. Qed.
Lemma req_obj {A} d (f : raw -> res A) rd n l i k a : reads d f rd -> mems_ok d l ->
  (slot' f (B k) l None (Some a) <-> req rd n (VObj l) i k a).
Proof.
  intros R M. split.
  - intros [[_ H]|(_ & w & b & H & F & E)]; [discriminate|]. injection E as <-. exists w. split; [left; eauto|].
    apply R; auto. apply one_in, M in H. tauto.
  - intros (w & [(l' & E & H)|(vs & E & _)] & F); [|discriminate]. injection E as <-. right. split; auto. exists w, a.
    repeat split; auto. apply R; auto. apply one_in, M in H. tauto.
Qed.
Lemma maybe_obj {A} d (f : raw -> res A) rd n l i k o : reads d f rd -> mems_ok d l ->
  ((exists o', slot' (de_option f) (B k) l None o' /\ flat o' = o) <-> maybe rd n (VObj l) i k o).
Proof.
  intros R M. apply reads_option in R. split.
  - intros (o' & [[H ->]|(_ & w & b & H & F & ->)] & <-); [left; exists l; auto|]. cbn [flat].
    apply R in F; [|apply one_in, M in H; tauto]. destruct b as [b|]; cbn in *.
    + exists w. split; [left; eauto|tauto].
    + subst w. right. left. eauto.
  - destruct o as [a|]; cbn.
    + intros (w & [(l' & E & H)|(vs & E & _)] & N & F); [|discriminate]. injection E as <-. exists (Some (Some a)). split; auto. right. split; auto.
      exists w, (Some a). repeat split; auto. apply R; [apply one_in, M in H; tauto|]. split; auto.
    + intros [(l' & E & H)|[(l' & E & H)|(vs & E & _)]]; [| |discriminate]; injection E as <-.
      * exists None. split; auto. left. auto.
      * exists (Some None). split; auto. right. split; auto. exists VNull, None. repeat split; auto.
Qed.

(** A field of an array. *)
Lemma req_arr {A} d (f : raw -> res A) rd n vs i k a : List.length vs = n -> reads d f rd -> (forall x, In x vs -> json_tree fp d x) ->
  (req rd n (VArr vs) i k a <-> exists w, nth_error vs i = Some w /\ f (raw_of w) = Ok a).
Proof.
  intros L R M. split.
  - intros (w & [(l' & E & _)|(vs' & E & _ & H)] & F); [discriminate|]. injection E as <-. exists w. split; auto. apply R; auto. eapply M, nth_error_In; eauto.
  - intros (w & H & F). exists w. split; [right; eauto|]. apply R; auto. eapply M, nth_error_In; eauto.
Qed.
Lemma maybe_arr {A} d (f : raw -> res A) rd n vs i k o : List.length vs = n -> reads d f rd -> (forall x, In x vs -> json_tree fp d x) ->
  (maybe rd n (VArr vs) i k o <-> exists w, nth_error vs i = Some w /\ de_option f (raw_of w) = Ok o).
Proof.
  intros L R M. apply reads_option in R. split.
  - destruct o as [a|]; cbn.
    + intros (w & [(l' & E & _)|(vs' & E & _ & H)] & F); [discriminate|]. injection E as <-. exists w. split; auto. apply R; auto. eapply M, nth_error_In; eauto.
    + intros [(l' & E & _)|[(l' & E & _)|(vs' & E & _ & H)]]; try discriminate. injection E as <-. exists VNull. split; auto.
  - intros (w & H & F). apply R in F; [|eapply M, nth_error_In; eauto]. destruct o as [a|]; cbn in *.
    + exists w. split; [right; eauto|auto].
    + subst w. right. right. eauto.
Qed.
Lemma req_other {A} (rd : value -> A -> Prop) n v i k a : req rd n v i k a -> (exists l, v = VObj l) \/ exists vs, v = VArr vs /\ List.length vs = n.
Proof. intros (w & [(l & E & _)|(vs & E & L & _)] & _); eauto. Qed.
End Reads.
