(** Decoding JSON trees: [to_content], [to_value] and their round trips. *)
From Verif.Model Require Import Prelude Utf8 Json.
From Verif.Proofs Require Import Lib JsonP.

Section Dec.
Variable fparse : bytes -> option bytes.

(** A number as serde_json holds it: its printed form reads back as itself. *)
Definition num_ok (n : number) : Prop :=
  exists neg i fe, pnum (print_number n) = (RNum neg i fe, Some []) /\ num_of fparse neg i fe = Ok n.
Lemma num_ok_pos n : (n < u64_lim)%N -> num_ok (PosInt n).
Proof.
  intros H. exists false, (print_N n), []. split; [apply print_N_pnum|].
  unfold num_of. destruct (print_N_ok n) as (_ & -> & _). apply N.ltb_lt in H. now rewrite H.
Qed.
Lemma num_ok_neg n : (0 < n)%N -> (n <= i64_lim)%N -> num_ok (NegInt n).
Proof.
  intros H H'. exists true, (print_N n), []. split; [apply print_neg_pnum|].
  unfold num_of. destruct (print_N_ok n) as (_ & -> & _).
  replace (n =? 0)%N with false by (symmetry; apply N.eqb_neq; lia).
  replace (i64_lim <? n)%N with false by (symmetry; apply N.ltb_ge; lia). reflexivity.
Qed.
(** Floats print as a complete lexeme with fraction or exponent, which reads back. *)
Definition fparse_ok : Prop := forall lex l, fparse lex = Some l -> num_ok (Float l).

Fixpoint wfv (v : value) : Prop :=
  match v with
  | VNum n => num_ok n
  | VStr s => utf8 s = true
  | VArr l => fold_right (fun x P => wfv x /\ P) True l
  | VObj l => fold_right (fun kv P => (utf8 (fst kv) = true /\ wfv (snd kv)) /\ P) True l
  | _ => True
  end.
Lemma wfv_arr l : wfv (VArr l) <-> Forall wfv l.
Proof. apply fold_and. Qed.
Lemma wfv_obj l : wfv (VObj l) <-> Forall (fun kv => utf8 (fst kv) = true /\ wfv (snd kv)) l.
Proof. cbn. apply (fold_and (fun kv : bytes * value => utf8 (fst kv) = true /\ wfv (snd kv))). Qed.
Lemma wfv_printable v : wfv v -> printable v.
Proof.
  induction v as [| b | n | s | l IH | l IH] using value_ind'; auto.
  - cbn. intros (neg & i & fe & H & _). unfold num_lex. now rewrite H.
  - rewrite wfv_arr, printable_arr. intros H. induction IH; inversion H; subst; constructor; auto.
  - rewrite wfv_obj, printable_obj. intros H. induction IH; inversion H; subst; constructor; intuition.
Qed.

Fixpoint depth (v : value) : nat :=
  match v with
  | VArr l => S (fold_right (fun x m => Nat.max (depth x) m) 0 l)
  | VObj l => S (fold_right (fun kv m => Nat.max (depth (snd kv)) m) 0 l)
  | _ => 0
  end.
Lemma depth_arr l d : depth (VArr l) < S d <-> 1 <= d /\ Forall (fun x => depth x < d) l.
Proof.
  cbn [depth]. split.
  - intros H. split; [lia|]. induction l; constructor; cbn in H.
    + lia.
    + apply IHl. lia.
  - intros [H1 H]. assert (fold_right (fun x m => Nat.max (depth x) m) 0 l < d); [|lia].
    induction H; cbn; lia.
Qed.
Lemma depth_obj l d : depth (VObj l) < S d <-> 1 <= d /\ Forall (fun kv => depth (snd kv) < d) l.
Proof.
  cbn [depth]. split.
  - intros H. split; [lia|]. induction l; constructor; cbn in H.
    + lia.
    + apply IHl. lia.
  - intros [H1 H]. assert (fold_right (fun kv m => Nat.max (depth (snd kv)) m) 0 l < d); [|lia].
    induction H; cbn; lia.
Qed.

(** The inner loops of [to_content]. *)
Fixpoint c_arr (d : nat) (l : list raw) : res (list value) :=
  match l with
  | [] => Ok []
  | x :: l' => let? v := to_content fparse d x in let? vs := c_arr d l' in Ok (v :: vs)
  end.
Fixpoint c_obj (d : nat) (l : list ((jerr + bytes) * raw)) : res (list (bytes * value)) :=
  match l with
  | [] => Ok []
  | (k, x) :: l' => let? k := rd_str k in let? v := to_content fparse d x in
                    let? vs := c_obj d l' in Ok ((k, v) :: vs)
  end.
Definition c_enter (d : nat) : res nat := match d with O | S O => Err Malformed | S d' => Ok d' end.
Definition c_close {A} (tl : option jerr) (x : A) : res A := match tl with None => Ok x | Some e => Err (jkind e) end.
Lemma to_content_arr d l tl : to_content fparse d (RArr l tl) =
  let? d := c_enter d in let? vs := c_arr d l in c_close tl (VArr vs).
Proof. reflexivity. Qed.
Lemma to_content_obj d l tl : to_content fparse d (RObj l tl) =
  let? d := c_enter d in let? vs := c_obj d l in c_close tl (VObj vs).
Proof. reflexivity. Qed.

Lemma raw_num n : num_ok n -> exists neg i fe, raw_of (VNum n) = RNum neg i fe /\ num_of fparse neg i fe = Ok n.
Proof.
  intros (neg & i & fe & H & E). cbn. unfold num_raw. rewrite H. cbn. eauto.
Qed.

Lemma c_arr_ok d l vs : c_arr d l = Ok vs <-> Forall2 (fun x v => to_content fparse d x = Ok v) l vs.
Proof.
  revert vs; induction l as [|x l IH]; intros vs; cbn.
  - split; [injection 1 as <-; constructor|now inversion 1].
  - rewrite rbind_Ok. split.
    + intros (v & H1 & H). apply rbind_Ok in H as (vs' & H2 & H). injection H as <-. constructor; auto. now apply IH.
    + inversion 1 as [|? v ? vs' H1 H2]; subst. exists v. split; auto. apply IH in H2. now rewrite H2.
Qed.

Theorem to_content_raw v d : wfv v -> depth v < d -> to_content fparse d (raw_of v) = Ok v.
Proof.
  revert d; induction v as [| b | n | s | l IH | l IH] using value_ind'; intros d W D; auto.
  - apply raw_num in W as (neg & i & fe & E & H). rewrite E. cbn. now rewrite H.
  - cbn [raw_of]. rewrite to_content_arr. destruct d as [|d]; [lia|]. apply depth_arr in D as [D1 D].
    destruct d as [|d]; [lia|]. cbn [c_enter rbind]. apply wfv_arr in W.
    enough (c_arr (S d) (map raw_of l) = Ok l) as -> by reflexivity.
    apply c_arr_ok. clear D1. induction IH; inversion W; inversion D; subst; constructor; auto.
  - cbn [raw_of]. rewrite to_content_obj. destruct d as [|d]; [lia|]. apply depth_obj in D as [D1 D].
    destruct d as [|d]; [lia|]. cbn [c_enter rbind]. apply wfv_obj in W.
    enough (c_obj (S d) (map (fun kv => (inr (fst kv), raw_of (snd kv))) l) = Ok l) as -> by reflexivity.
    clear D1. induction IH as [|[k x] l H IH IH']; inversion W; inversion D; subst; auto.
    cbn [map c_obj fst snd rd_str rbind] in *. rewrite H by (auto; tauto). cbn [rbind].
    rewrite IH' by auto. reflexivity.
Qed.

(** ** Canonical values: what [serde_json::Value] can hold *)
Fixpoint keys_sorted (l : list (bytes * value)) : Prop :=
  match l with
  | (k, _) :: (((k', _) :: _) as l') => bcmp k k' = Lt /\ keys_sorted l'
  | _ => True
  end.
Fixpoint canon (v : value) : Prop :=
  match v with
  | VArr l => fold_right (fun x P => canon x /\ P) True l
  | VObj l => keys_sorted l /\ fold_right (fun kv P => canon (snd kv) /\ P) True l
  | _ => True
  end.
Lemma canon_arr l : canon (VArr l) <-> Forall canon l.
Proof. apply fold_and. Qed.
Lemma canon_obj l : canon (VObj l) <-> keys_sorted l /\ Forall (fun kv => canon (snd kv)) l.
Proof. cbn. rewrite (fold_and (fun kv : bytes * value => canon (snd kv))). reflexivity. Qed.

Lemma btree_insert_last k v m : keys_sorted (m ++ [(k, v)]) -> btree_insert k v m = m ++ [(k, v)].
Proof.
  induction m as [|[k1 v1] m IH]; auto. intros H.
  assert (L : bcmp k1 k = Lt /\ keys_sorted (m ++ [(k, v)])).
  { clear IH. revert k1 v1 H. induction m as [|[k2 v2] m IH]; intros k1 v1 H; cbn in H; auto.
    destruct H as [H1 H2]. split; [|apply H2].
      destruct (IH k2 v2 H2) as [H3 _]. eapply bcmp_trans; eauto. }
  destruct L as [L1 L2]. cbn. rewrite bcmp_antisym, L1. cbn. now rewrite IH.
Qed.
Lemma btree_of_sorted l : keys_sorted l -> btree_of l = l.
Proof.
  unfold btree_of. assert (G : forall m, keys_sorted (m ++ l) ->
    fold_left (fun m kv => btree_insert (fst kv) (snd kv) m) l m = m ++ l).
  { induction l as [|[k v] l IH]; intros m H; cbn; [now rewrite app_nil_r|].
    rewrite btree_insert_last.
    - rewrite IH; rewrite <- app_assoc; auto.
    - clear IH. induction m as [|[k1 v1] m IHm]; cbn; auto.
      destruct m as [|[k2 v2] m]; cbn in *; tauto. }
  intros H. now apply (G []).
Qed.
Lemma norm_canon v : canon v -> norm v = v.
Proof.
  induction v as [| b | n | s | l IH | l IH] using value_ind'; auto.
  - rewrite canon_arr. cbn. intros H. f_equal. induction IH; inversion H; subst; cbn; f_equal; auto.
  - rewrite canon_obj. cbn. intros [S H]. f_equal.
    replace (map (fun kv => (fst kv, norm (snd kv))) l) with l; [now apply btree_of_sorted|].
    clear S. induction IH as [|[k x] l Hx IH IH']; inversion H; subst; cbn in *; f_equal; auto.
    now rewrite Hx.
Qed.

(** btree_insert preserves sortedness and only adds the given pair. *)
Lemma btree_insert_sorted k v m : keys_sorted m -> keys_sorted (btree_insert k v m).
Proof.
  induction m as [|[k1 v1] m IH]; cbn [btree_insert]; auto; intros H.
  destruct (bcmp k k1) eqn:E.
  - destruct m as [|[k2 v2] m]; cbn in *; auto.
  - cbn [keys_sorted]. auto.
  - assert (H' : keys_sorted m) by (destruct m as [|[] m]; cbn in *; tauto).
    specialize (IH H'). destruct m as [|[k2 v2] m].
    + cbn. rewrite bcmp_antisym, E. auto.
    + cbn [btree_insert] in *. destruct H as [H1 H2].
      destruct (bcmp k k2) eqn:E2; cbn [keys_sorted] in *; auto.
      rewrite bcmp_antisym, E. auto.
Qed.
Lemma btree_insert_Forall (P : bytes * value -> Prop) k v m :
  (forall k', k' = k -> P (k', v)) -> Forall P m -> Forall P (btree_insert k v m).
Proof.
  intros Pk H. induction H as [|[k1 v1] m H1 H2 IH]; cbn.
  - constructor; auto.
  - destruct (bcmp k k1) eqn:E; constructor; auto.
    apply Pk. apply bcmp_eq in E. auto.
Qed.
Lemma btree_of_sorted' l : keys_sorted (btree_of l).
Proof.
  unfold btree_of. generalize (I : keys_sorted []). generalize (@nil (bytes * value)).
  induction l as [|[k v] l IH]; intros m H; cbn; auto. apply IH. now apply btree_insert_sorted.
Qed.
Lemma btree_of_Forall (P : bytes * value -> Prop) l : Forall P l -> Forall P (btree_of l).
Proof.
  intros H. unfold btree_of. assert (G : Forall P []) by constructor. revert G.
  generalize (@nil (bytes * value)). induction H as [|[k v] l H1 H2 IH]; intros m G; cbn; auto.
  apply IH, btree_insert_Forall; auto. intros ? ->. auto.
Qed.
Lemma norm_wf v : wfv v -> wfv (norm v) /\ canon (norm v) /\ depth (norm v) <= depth v.
Proof.
  induction v as [| b | n | s | l IH | l IH] using value_ind'; intros W; cbn [norm].
  all: try (repeat split; auto; cbn; lia).
  - apply wfv_arr in W. rewrite wfv_arr, canon_arr. rewrite <- Nat.lt_succ_r.
    assert (Q : forall d, Forall (fun x => depth x < d) l -> Forall (fun x => depth x < d) (map norm l)).
    { intros d. induction IH; cbn; auto. inversion W; inversion 1; subst. constructor; auto.
      apply H in H2 as (_ & _ & H2). lia. }
    repeat split.
    + clear Q. induction IH; inversion W; subst; constructor; auto. now apply H.
    + clear Q. induction IH; inversion W; subst; constructor; auto. now apply H.
    + apply depth_arr. pose proof (Nat.lt_succ_diag_r (depth (VArr l))) as H. apply depth_arr in H as [H1 H].
      auto.
  - apply wfv_obj in W. rewrite wfv_obj, canon_obj. rewrite <- Nat.lt_succ_r.
    repeat split.
    + apply btree_of_Forall. induction IH; inversion W; subst; constructor; auto. cbn. intuition.
    + apply btree_of_sorted'.
    + apply btree_of_Forall. induction IH; inversion W; subst; constructor; auto. cbn. intuition.
    + apply depth_obj. pose proof (Nat.lt_succ_diag_r (depth (VObj l))) as H. apply depth_obj in H as [H1 H].
      split; auto. apply btree_of_Forall. revert H. generalize (depth (VObj l)). intros d H. clear H1.
      induction IH; inversion W; inversion H; subst; constructor; auto.
      cbn. assert (depth (norm (snd x)) <= depth (snd x)) by (apply H0; tauto). lia.
Qed.

(** Printing and reading back a value. *)
Theorem to_value_raw v d : wfv v -> canon v -> depth v < d -> to_value fparse d (raw_of v) = Ok v.
Proof.
  intros W K D. unfold to_value. rewrite to_content_raw by auto. cbn. now rewrite norm_canon.
Qed.
Theorem json_roundtrip v d : wfv v -> canon v -> depth v < d ->
  from_json (to_value fparse d) (print v) = Ok v.
Proof.
  intros W K D. rewrite from_json_print by now apply wfv_printable. now apply to_value_raw.
Qed.

(** ** What the parser produces is well formed *)
Definition rd_ok (rd : jerr + bytes) : Prop := match rd with inr s => utf8 s = true | inl _ => True end.
Fixpoint raw_ok (r : raw) : Prop :=
  match r with
  | RStr _ rd => rd_ok rd
  | RArr l _ => fold_right (fun x P => raw_ok x /\ P) True l
  | RObj l _ => fold_right (fun kv P => (rd_ok (fst kv) /\ raw_ok (snd kv)) /\ P) True l
  | _ => True
  end.
Definition raws_ok (l : list raw) := fold_right (fun x P => raw_ok x /\ P) True l.
Definition mems_ok (l : list ((jerr + bytes) * raw)) :=
  fold_right (fun kv P => (rd_ok (fst kv) /\ raw_ok (snd kv)) /\ P) True l.

Lemma read_utf8_ok s : rd_ok (read_utf8 s).
Proof. unfold read_utf8. destruct (read_str s); cbn; auto. destruct (utf8 b) eqn:E; cbn; auto. Qed.
Lemma pstring_ok s e rd k : pstring s = (e, rd, k) -> rd_ok rd.
Proof. unfold pstring. destruct (skip_str s). injection 1 as <- <- <-. apply read_utf8_ok. Qed.
Lemma pnum_ok s r k : pnum s = (r, k) -> raw_ok r.
Proof.
  unfold pnum, pnum_body, rfail.
  repeat match goal with
  | |- context [match ?x with _ => _ end] => destruct x
  | |- context [if ?x then _ else _] => destruct x
  end; injection 1 as <- <-; cbn; auto.
Qed.

Ltac crush_parse :=
  repeat match goal with
  | H : (_, _) = (_, _) |- _ => injection H as; subst
  | H : (_, _, _) = (_, _, _) |- _ => injection H as; subst
  | H : context [match ?x with _ => _ end] |- _ => destruct x eqn:?
  end.

Lemma p_ok fuel :
  (forall s r k, pval fuel s = (r, k) -> raw_ok r)
  /\ (forall b s l tl k, parr fuel b s = (l, tl, k) -> raws_ok l)
  /\ (forall b s l tl k, pobj fuel b s = (l, tl, k) -> mems_ok l).
Proof.
  induction fuel as [|f (IH1 & IH2 & IH3)].
  { cbn. unfold rfail. repeat split; intros; crush_parse; cbn; auto. }
  split; [|split].
  - intros s r k H. cbn [pval] in H. unfold rfail in H. crush_parse; cbn; auto.
    all: try (match goal with E : pstring _ = _ |- _ => now apply pstring_ok in E end).
    all: try (match goal with E : pobj _ _ _ = _ |- _ => now apply IH3 in E end).
    all: try (match goal with E : parr _ _ _ = _ |- _ => now apply IH2 in E end).
    all: try (eapply pnum_ok; eauto).
  - intros b s l tl k H. cbn [parr] in H. crush_parse; cbn; auto; repeat match goal with
         | E : pval _ _ = _ |- _ => apply IH1 in E
         | E : parr _ _ _ = _ |- _ => apply IH2 in E
         end; auto.
  - intros b s l tl k H. cbn [pobj] in H. crush_parse; cbn; auto; repeat match goal with
         | E : pval _ _ = _ |- _ => apply IH1 in E
         | E : pobj _ _ _ = _ |- _ => apply IH3 in E
         | E : pstring _ = _ |- _ => apply pstring_ok in E
         end; auto.
Qed.
Lemma parse_ok s : raw_ok (fst (parse s)).
Proof.
  unfold parse. destruct (pval (S (List.length s + List.length s)) s) as [r k] eqn:E.
  apply p_ok in E. destruct k; cbn; auto. destruct (skip_ws b); cbn; auto.
Qed.

Lemma raw_ind' (P : raw -> Prop) :
  P RNull -> (forall b, P (RBool b)) -> (forall n i f, P (RNum n i f)) -> (forall e s, P (RStr e s)) ->
  (forall l tl, Forall P l -> P (RArr l tl)) ->
  (forall l tl, Forall (fun kv => P (snd kv)) l -> P (RObj l tl)) ->
  (forall a b, P (RErr a b)) -> forall r, P r.
Proof.
  intros H1 H2 H3 H4 H5 H6 H7. fix IH 1. intros [|b|n i f|e s|l tl|l tl|a b].
  - exact H1.
  - apply H2.
  - apply H3.
  - apply H4.
  - apply H5. induction l as [|x l IHl]; constructor; [apply IH | exact IHl].
  - apply H6. induction l as [|x l IHl]; constructor; [apply IH | exact IHl].
  - apply H7.
Qed.

Lemma num_of_ok neg i fe n : fparse_ok -> num_of fparse neg i fe = Ok n -> num_ok n.
Proof.
  intros F. unfold num_of.
  assert (K : forall lex, match fparse lex with Some l => Ok (Float l) | None => Err Malformed end = Ok n -> num_ok n).
  { intros lex. destruct (fparse lex) eqn:E; try congruence. injection 1 as <-. eauto. }
  destruct fe; [|apply K].
  destruct neg.
  - destruct ((dec_val i =? 0) || (i64_lim <? dec_val i))%N eqn:E; [apply K|].
    injection 1 as <-. apply orb_false_iff in E as [E1 E2]. apply N.eqb_neq in E1. apply N.ltb_ge in E2.
    apply num_ok_neg; lia.
  - destruct (N.ltb_spec (dec_val i) u64_lim); [|apply K]. injection 1 as <-. now apply num_ok_pos.
Qed.

Lemma to_content_wf d r v : fparse_ok -> raw_ok r -> 1 <= d -> to_content fparse d r = Ok v ->
  wfv v /\ depth v < d.
Proof.
  intros F. revert d v; induction r as [| b | n i f | e s | l tl IH | l tl IH | a b] using raw_ind';
    intros d v R D H.
  - injection H as <-. cbn. auto.
  - injection H as <-. cbn. auto.
  - cbn in H. apply rbind_Ok in H as (m & H & E). injection E as <-. split; [|cbn; lia].
    cbn. eapply num_of_ok; eauto.
  - cbn in H. destruct s; cbn in H; try congruence. injection H as <-. cbn in *. auto.
  - rewrite to_content_arr in H. apply rbind_Ok in H as (d' & E & H).
    assert (d = S d' /\ 1 <= d') as [-> D'].
    { destruct d as [|[|d]]; cbn in E; try congruence. injection E as <-. split; [auto|lia]. }
    apply rbind_Ok in H as (vs & H & H'). destruct tl; cbn in H'; try congruence. injection H' as <-.
    apply c_arr_ok in H. rewrite wfv_arr, depth_arr.
    assert (G : Forall wfv vs /\ Forall (fun x => depth x < d') vs); [|tauto].
    cbn in R. change (raws_ok l) in R. clear E D. induction H; inversion IH; subst; cbn in *; auto.
    destruct R as [R1 R2]. destruct (H3 d' _ R1 D' H) as [W1 D1].
    destruct (IHForall2 H4 R2) as [W2 D2]. auto.
  - rewrite to_content_obj in H. apply rbind_Ok in H as (d' & E & H).
    assert (d = S d' /\ 1 <= d') as [-> D'].
    { destruct d as [|[|d]]; cbn in E; try congruence. injection E as <-. split; [auto|lia]. }
    apply rbind_Ok in H as (vs & H & H'). destruct tl; cbn in H'; try congruence. injection H' as <-.
    rewrite wfv_obj, depth_obj.
    assert (G : Forall (fun kv => utf8 (fst kv) = true /\ wfv (snd kv)) vs /\ Forall (fun kv => depth (snd kv) < d') vs); [|tauto].
    cbn in R. change (mems_ok l) in R. clear E D. revert vs H.
    induction IH as [|[k x] l Hx IH IH']; intros vs H; cbn in H.
    + injection H as <-. auto.
    + cbn in R. destruct R as [[R1 R2] R3].
      apply rbind_Ok in H as (k' & Hk & H). apply rbind_Ok in H as (v' & Hv & H).
      apply rbind_Ok in H as (vs' & Hvs & H). injection H as <-.
      destruct (Hx d' _ R2 D' Hv) as [W1 D1]. destruct (IH' R3 _ Hvs) as [W2 D2].
      destruct k; cbn in Hk; try congruence. injection Hk as <-. cbn in R1.
      split; constructor; auto.
  - cbn in H. congruence.
Qed.
Lemma to_value_wf d r v : fparse_ok -> raw_ok r -> 1 <= d -> to_value fparse d r = Ok v ->
  wfv v /\ canon v /\ depth v < d.
Proof.
  intros F R D H. unfold to_value in H. apply rbind_Ok in H as (w & H & E). injection E as <-.
  destruct (to_content_wf _ _ _ F R D H) as [W Dw]. destruct (norm_wf _ W) as (W' & K & D').
  repeat split; auto. lia.
Qed.
(** A JSON text read into a [Value], printed and read again: unchanged. *)
Theorem json_reprint s d v : fparse_ok -> 1 <= d -> from_json (to_value fparse d) s = Ok v ->
  from_json (to_value fparse d) (print v) = Ok v.
Proof.
  intros F D H. unfold from_json in H. pose proof (parse_ok s) as R. destruct (parse s) as [r e]. cbn in R.
  apply rbind_Ok in H as (w & H & E). destruct e; try congruence. injection E as ->.
  destruct (to_value_wf _ _ _ F R D H) as (W & K & D'). now apply json_roundtrip.
Qed.
End Dec.
