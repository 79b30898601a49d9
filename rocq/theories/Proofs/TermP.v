(** Unpacking ends: each forwarded message that is unwrapped holds less text than the
    envelope it came in. *)
From Verif.Model Require Import Prelude Utf8 Base64 Json Serde DidDoc Crypto Keys Effects Jws Jwe Message FromPrior Pack Routing Unpack.
From Verif.Spec Require Import Small Codec Events Bounds.
From Verif.Proofs Require Import Lib Base64P JsonP JsonDec CodecP Wp UnpackInv.

(** The bytes held in strings, and one for each array and object (names of members do not
    count). *)
Definition rd_weight (rd : jerr + bytes) : nat := match rd with inr s => List.length s | inl _ => 0 end.
Definition sum {A} (f : A -> nat) (l : list A) : nat := fold_right (fun x n => f x + n) 0 l.
Fixpoint rweight (r : raw) : nat :=
  match r with
  | RStr _ rd => rd_weight rd
  | RArr l _ => S (fold_right (fun x n => rweight x + n) 0 l)
  | RObj l _ => S (fold_right (fun kv n => rweight (snd kv) + n) 0 l)
  | _ => 0
  end.
Fixpoint vweight (v : value) : nat :=
  match v with
  | VStr s => List.length s
  | VArr l => S (fold_right (fun x n => vweight x + n) 0 l)
  | VObj l => S (fold_right (fun kv n => vweight (snd kv) + n) 0 l)
  | _ => 0
  end.
Definition raws_weight (l : list raw) : nat := fold_right (fun x n => rweight x + n) 0 l.
Definition mems_weight (l : list ((jerr + bytes) * raw)) : nat := fold_right (fun kv n => rweight (snd kv) + n) 0 l.
Definition rest_len (k : option bytes) : nat := match k with Some r => List.length r | None => 0 end.

(** ** Reading text *)
Lemma encode_len n : List.length (encode_char n) <= 4.
Proof. unfold encode_char. destruct (n <? 128)%N, (n <? 2048)%N, (n <? 65536)%N; cbn; lia. Qed.

Lemma str_len n : forall s x r, List.length s <= n -> read_str s = inr x -> snd (skip_str s) = inr r ->
  List.length x + List.length r + 1 <= List.length s.
Proof.
  induction n as [|n IH]; intros s x r L R K; destruct s as [|c t]; cbn [read_str] in R; try discriminate; cbn [List.length] in *; try lia.
  cbn [skip_str] in K. destruct (is_quote c).
  { injection R as <-. cbn in K. injection K as <-. cbn. lia. }
  destruct (is_bslash c).
  - destruct t as [|e t1]; [discriminate|]. cbn [List.length] in *. destruct (simple_escape e) as [ch|].
    + cbn [is_some snd] in K. destruct (read_str t1) eqn:E; cbn in R; [discriminate|]. injection R as <-.
      specialize (IH t1 b r ltac:(lia) E K). cbn. lia.
    + cbn [is_some] in K. destruct (Ascii.eqb e "u"); [|discriminate].
      destruct t1 as [|a [|b [|y [|z t2]]]]; try discriminate. cbn [List.length] in *.
      destruct (hex4 a b y z) as [m|]; [|discriminate]. cbn [is_some snd] in K.
      destruct ((56320 <=? m) && (m <=? 57343))%N; [discriminate|].
      destruct ((55296 <=? m) && (m <=? 56319))%N.
      * destruct t2 as [|p t3]; [discriminate|]. destruct (is_bslash p) eqn:P; [|discriminate]. cbn [negb] in R.
        destruct t3 as [|q t4]; [discriminate|]. destruct (Ascii.eqb q "u") eqn:Q; [|discriminate]. cbn [negb] in R.
        destruct t4 as [|a' [|b' [|y' [|z' t5]]]]; try discriminate. cbn [List.length] in *.
        destruct (hex4 a' b' y' z') as [m'|] eqn:X; [|discriminate].
        destruct ((56320 <=? m') && (m' <=? 57343))%N; [|discriminate].
        destruct (read_str t5) eqn:E; cbn in R; [discriminate|]. injection R as <-.
        cbn [skip_str] in K. assert (NQ : is_quote p = false).
        { unfold is_bslash in P. apply Ascii.eqb_eq in P. subst p. reflexivity. }
        rewrite NQ, P in K. apply Ascii.eqb_eq in Q. subst q. cbn [simple_escape] in K.
        change (simple_escape "u") with (@None ascii) in K. cbn [is_some] in K. change (Ascii.eqb "u" "u") with true in K. cbv iota in K.
        rewrite X in K. cbn [is_some snd] in K. specialize (IH t5 b0 r ltac:(lia) E K). rewrite app_length.
        match goal with |- context [encode_char ?z] => pose proof (encode_len z) end. lia.
      * destruct (read_str t2) eqn:E; cbn in R; [discriminate|]. injection R as <-.
        specialize (IH t2 b0 r ltac:(lia) E K). rewrite app_length. pose proof (encode_len m). lia.
  - destruct (is_ctrl c); [discriminate|]. destruct (read_str t) eqn:E; cbn in R; [discriminate|]. injection R as <-.
    specialize (IH t b r ltac:(lia) E K). cbn. lia.
Qed.
Lemma skip_len n : forall s r, List.length s <= n -> snd (skip_str s) = inr r -> List.length r + 1 <= List.length s.
Proof.
  induction n as [|n IH]; intros s r L K; destruct s as [|c t]; cbn in K; try discriminate; cbn [List.length] in *; try lia.
  destruct (is_quote c). { cbn in K. injection K as <-. lia. }
  destruct (is_bslash c).
  - destruct t as [|e t1]; [discriminate|]. cbn [List.length] in *. destruct (is_some (simple_escape e)).
    + cbn in K. apply IH in K; lia.
    + destruct (Ascii.eqb e "u"); [|discriminate]. destruct t1 as [|a [|b [|y [|z t2]]]]; try discriminate. cbn [List.length] in *.
      destruct (is_some (hex4 a b y z)); [|discriminate]. cbn in K. apply IH in K; lia.
  - destruct (is_ctrl c); [discriminate|]. apply IH in K; lia.
Qed.
Lemma pstring_weight s e rd r : pstring s = (e, rd, inr r) -> rd_weight rd + List.length r + 1 <= List.length s.
Proof.
  unfold pstring. destruct (skip_str s) as [e' k] eqn:K. injection 1 as <- <- ->.
  assert (K' : snd (skip_str s) = inr r) by now rewrite K. unfold read_utf8. destruct (read_str s) eqn:E; cbn.
  - apply skip_len with (n := List.length s) in K'; auto.
  - destruct (utf8 b); cbn; [eapply str_len; eauto|]. apply skip_len with (n := List.length s) in K'; auto.
Qed.
Lemma span_len s : forall a b, span_digits s = (a, b) -> List.length b <= List.length s.
Proof.
  induction s as [|c t IH]; cbn; intros a b; [injection 1 as <- <-; auto|]. destruct (is_digit c).
  - destruct (span_digits t) as [x y]. injection 1 as <- <-. specialize (IH _ _ eq_refl). lia.
  - injection 1 as <- <-. cbn. lia.
Qed.
Lemma pexp_len s x r : pexp s = inr (x, r) -> List.length r <= List.length s.
Proof.
  unfold pexp, psign. destruct s as [|c t]; [discriminate|].
  destruct (_ || _); [destruct t as [|d t]; [discriminate|]|];
  match goal with |- context [span_digits ?z] => destruct (span_digits z) as [[|y ys] b] eqn:E end; try discriminate;
  injection 1 as _ <-; apply span_len in E; cbn in *; lia.
Qed.
Lemma pfrac_len s x r : pfrac s = inr (x, r) -> List.length r <= List.length s.
Proof.
  unfold pfrac. destruct s as [|c t]; [discriminate|].
  match goal with |- context [span_digits ?z] => destruct (span_digits z) as [[|y ys] b] eqn:E end; try discriminate;
  injection 1 as _ <-; apply span_len in E; cbn in *; lia.
Qed.
Lemma popt_len s acc x r : popt_exp s acc = inr (x, r) -> List.length r <= List.length s.
Proof.
  unfold popt_exp. destruct s as [|c t]; [injection 1 as <- <-; auto|]. destruct (_ || _).
  - destruct (pexp t) as [|[y z]] eqn:E; [discriminate|]. injection 1 as <- <-. apply pexp_len in E. cbn. lia.
  - injection 1 as <- <-. auto.
Qed.
Lemma pfe_len s x r : pfe s = inr (x, r) -> List.length r <= List.length s.
Proof.
  unfold pfe. destruct s as [|c t]; [injection 1 as <- <-; auto|]. destruct (Ascii.eqb c ".").
  - destruct (pfrac t) as [|[y z]] eqn:E; [discriminate|]. intros H. apply popt_len in H. apply pfrac_len in E. cbn. lia.
  - apply popt_len.
Qed.
Lemma pnum_weight s r k : pnum s = (r, k) -> rweight r = 0 /\ rest_len k <= List.length s.
Proof.
  assert (B : forall neg s r k, pnum_body neg s = (r, k) -> rweight r = 0 /\ rest_len k <= List.length s).
  { clear. intros neg s r k. unfold pnum_body. destruct s as [|c t]; [injection 1 as <- <-; cbn; auto|].
    destruct (negb (is_digit c)); [injection 1 as <- <-; cbn; split; auto; lia|].
    destruct (Ascii.eqb c "0").
    - destruct t as [|d u]; [injection 1 as <- <-; cbn; auto|]. destruct (is_digit d); [injection 1 as <- <-; cbn; split; auto; lia|].
      destruct (pfe (d :: u)) as [|[x y]] eqn:E; injection 1 as <- <-; cbn [rweight rest_len]; split; auto; [lia|]. apply pfe_len in E. cbn in *. lia.
    - destruct (span_digits (c :: t)) as [a b] eqn:S. apply span_len in S.
      destruct (pfe b) as [|[x y]] eqn:E; injection 1 as <- <-; cbn [rweight rest_len]; split; auto; [lia|]. apply pfe_len in E. lia. }
  unfold pnum. destruct s as [|c t]; [injection 1 as <- <-; cbn; auto|]. destruct (Ascii.eqb c "-"); intros H; apply B in H as [H1 H2]; split; auto. cbn. lia.
Qed.
Lemma pident_len id : forall s r, pident id s = inr r -> List.length r <= List.length s.
Proof.
  induction id as [|x id IH]; cbn; intros s r; [injection 1 as <-; auto|]. destruct s as [|c t]; [discriminate|].
  destruct (Ascii.eqb c x); [|discriminate]. intros H. apply IH in H. cbn. lia.
Qed.
Lemma skip_ws_len s : List.length (skip_ws s) <= List.length s.
Proof. induction s as [|c t IH]; cbn; auto. destruct (is_ws c); cbn; lia. Qed.

Lemma p_weight fuel :
  (forall s r k, pval fuel s = (r, k) -> rweight r + rest_len k <= List.length s)
  /\ (forall b s l tl k, parr fuel b s = (l, tl, k) -> raws_weight l + rest_len k <= List.length s)
  /\ (forall b s l tl k, pobj fuel b s = (l, tl, k) -> mems_weight l + rest_len k <= List.length s).
Proof.
  induction fuel as [|f (IH1 & IH2 & IH3)].
  { split; [|split].
    - intros s r k H. injection H as <- <-. cbn. lia.
    - intros b s l tl k H. injection H as <- <- <-. cbn. lia.
    - intros b s l tl k H. injection H as <- <- <-. cbn. lia. }
  split; [|split].
  - intros s r k H. assert (G : rweight r + rest_len k <= List.length (skip_ws s)).
    { cbn [pval] in H. unfold rfail in H. destruct (skip_ws s) as [|c t]; [injection H as <- <-; cbn; auto|].
      destruct (is_quote c).
      { destruct (pstring t) as [[e rd] [j|x]] eqn:E; injection H as <- <-; cbn; [lia|]. apply pstring_weight in E. lia. }
      destruct (Ascii.eqb c "{"). { destruct (pobj f true t) as [[l tl] k'] eqn:E. injection H as <- <-. apply IH3 in E. cbn. fold (mems_weight l). lia. }
      destruct (Ascii.eqb c "["). { destruct (parr f true t) as [[l tl] k'] eqn:E. injection H as <- <-. apply IH2 in E. cbn. fold (raws_weight l). lia. }
      destruct (Ascii.eqb c "n"). { destruct (pident _ t) eqn:E; injection H as <- <-; cbn; [lia|]. apply pident_len in E. lia. }
      destruct (Ascii.eqb c "t"). { destruct (pident _ t) eqn:E; injection H as <- <-; cbn; [lia|]. apply pident_len in E. lia. }
      destruct (Ascii.eqb c "f"). { destruct (pident _ t) eqn:E; injection H as <- <-; cbn; [lia|]. apply pident_len in E. lia. }
      destruct (_ || _); [|injection H as <- <-; cbn; lia].
      unfold pnum in H. destruct (Ascii.eqb c "-") eqn:M.
      - assert (P : pnum ("-"%char :: "-"%char :: t) = pnum ("-"%char :: "-"%char :: t)) by reflexivity.
        assert (Q : pnum ("-"%char :: t) = (r, k)) by exact H. apply pnum_weight in Q as [-> Q]. cbn in Q |- *.
        enough (rest_len k <= List.length t) by lia. clear Q P.
        revert H. unfold pnum_body, rfail. destruct t as [|d u]; [injection 1 as <- <-; cbn; auto|].
        destruct (negb (is_digit d)); [injection 1 as <- <-; cbn; lia|].
        destruct (Ascii.eqb d "0").
        + destruct u as [|d' u]; [injection 1 as <- <-; cbn; auto|]. destruct (is_digit d'); [injection 1 as <- <-; cbn; lia|].
          destruct (pfe (d' :: u)) as [|[x y]] eqn:E; injection 1 as <- <-; cbn [rest_len]; [lia|]. apply pfe_len in E. cbn in *. lia.
        + destruct (span_digits (d :: u)) as [a b] eqn:S. apply span_len in S.
          destruct (pfe b) as [|[x y]] eqn:E; injection 1 as <- <-; cbn [rest_len]; [lia|]. apply pfe_len in E. lia.
      - revert H. unfold pnum_body, rfail. destruct (is_digit c) eqn:D; cbn [negb]; [|injection 1 as <- <-; cbn; lia].
        destruct (Ascii.eqb c "0").
        + destruct t as [|d' u]; [injection 1 as <- <-; cbn; lia|]. destruct (is_digit d'); [injection 1 as <- <-; cbn; lia|].
          destruct (pfe (d' :: u)) as [|[x y]] eqn:E; injection 1 as <- <-; cbn [rweight rest_len]; [cbn; lia|]. apply pfe_len in E. cbn in *. lia.
        + cbn [span_digits]. rewrite D. destruct (span_digits t) as [a b] eqn:S. apply span_len in S.
          destruct (pfe b) as [|[x y]] eqn:E; injection 1 as <- <-; cbn [rweight rest_len]; [cbn; lia|]. apply pfe_len in E. cbn. lia. }
    pose proof (skip_ws_len s). lia.
  - intros b s l tl k H. pose proof (skip_ws_len s) as W. cbn [parr] in H. destruct (skip_ws s) as [|c t]; [injection H as <- <- <-; cbn; lia|].
    assert (E : forall s', (let '(r, k0) := pval f s' in match k0 with Some k0 => let '(l0, tl0, k') := parr f false k0 in (r :: l0, tl0, k') | None => ([r], Some JSyn, None) end) = (l, tl, k) ->
       raws_weight l + rest_len k <= List.length s').
    { intros s' E. destruct (pval f s') as [r [k0|]] eqn:V.
      - destruct (parr f false k0) as [[l0 tl0] k'] eqn:P. injection E as <- <- <-. apply IH1 in V. apply IH2 in P. cbn in *. fold (raws_weight l0). lia.
      - injection E as <- <- <-. apply IH1 in V. cbn in *. lia. }
    destruct (Ascii.eqb c "]"); [injection H as <- <- <-; cbn in *; lia|]. destruct b.
    + enough (raws_weight l + rest_len k <= List.length (c :: t)) by lia. apply E. rewrite <- H. destruct (pval f (c :: t)) as [r [k0|]]; auto.
    + destruct (Ascii.eqb c ","); [|injection H as <- <- <-; cbn in *; lia]. destruct (skip_ws t) as [|d u] eqn:T; [injection H as <- <- <-; cbn in *; lia|].
      destruct (Ascii.eqb d "]"); [injection H as <- <- <-; cbn in *; lia|].
      enough (raws_weight l + rest_len k <= List.length t) by (cbn in W; lia). apply E. rewrite <- H. destruct (pval f t) as [r [k0|]]; auto.
  - intros b s l tl k H. pose proof (skip_ws_len s) as W. cbn [pobj] in H. destruct (skip_ws s) as [|c t]; [injection H as <- <- <-; cbn; lia|].
    assert (E : forall s', match skip_ws s' with
            | [] => ([], Some JEof, None)
            | q :: t' =>
                if negb (is_quote q) then ([], Some JSyn, None)
                else match pstring t' with
                | (_, rd, inl e) => ([(inl (err_of e rd), RErr e e)], Some e, None)
                | (_, rd, inr r) =>
                    match skip_ws r with
                    | [] => ([(rd, RErr JEof JEof)], Some JEof, None)
                    | d :: r' =>
                        if negb (Ascii.eqb d ":") then ([(rd, RErr JSyn JSyn)], Some JSyn, None)
                        else match pval f r' with
                        | (v, None) => ([(rd, v)], Some JSyn, None)
                        | (v, Some k) =>
                            match pobj f false k with (l, tl, k') => ((rd, v) :: l, tl, k') end
                        end
                    end
                end
            end = (l, tl, k) -> mems_weight l + rest_len k <= List.length s').
    { intros s' E. pose proof (skip_ws_len s') as W'. destruct (skip_ws s') as [|q t']; [injection E as <- <- <-; cbn; lia|].
      destruct (negb (is_quote q)); [injection E as <- <- <-; cbn; lia|].
      destruct (pstring t') as [[es rd] [j|r]] eqn:P; [injection E as <- <- <-; cbn; lia|]. apply pstring_weight in P.
      pose proof (skip_ws_len r) as W2. destruct (skip_ws r) as [|d r']; [injection E as <- <- <-; cbn; lia|].
      destruct (negb (Ascii.eqb d ":")); [injection E as <- <- <-; cbn; lia|]. cbn [List.length] in *.
      destruct (pval f r') as [v [k0|]] eqn:V.
      - destruct (pobj f false k0) as [[l0 tl0] k'] eqn:Q. injection E as <- <- <-. apply IH1 in V. apply IH3 in Q. cbn in *. fold (mems_weight l0). lia.
      - injection E as <- <- <-. apply IH1 in V. cbn in *. lia. }
    destruct (Ascii.eqb c "}"); [injection H as <- <- <-; cbn in *; lia|]. destruct b.
    + enough (mems_weight l + rest_len k <= List.length (c :: t)) by lia. apply E. exact H.
    + destruct (Ascii.eqb c ","); [|injection H as <- <- <-; cbn in *; lia]. destruct (skip_ws t) as [|d u] eqn:T; [injection H as <- <- <-; cbn in *; lia|].
      destruct (Ascii.eqb d "}"); [injection H as <- <- <-; cbn in *; lia|].
      enough (mems_weight l + rest_len k <= List.length t) by (cbn in W; lia). apply E. rewrite T. exact H.
Qed.
Lemma parse_weight s : rweight (fst (parse s)) <= List.length s.
Proof.
  unfold parse. destruct (pval (S (List.length s + List.length s)) s) as [r k] eqn:E. apply p_weight in E.
  destruct k as [k|]; [destruct (skip_ws k)|]; cbn [fst rest_len] in *; lia.
Qed.

(** ** Reading trees *)
Lemma raw_of_weight v : rweight (raw_of v) = vweight v.
Proof.
  induction v as [| b | n | s | l IH | l IH] using value_ind'; auto.
  - cbn. unfold num_raw. destruct (pnum (print_number n)) as [r k] eqn:E. now apply pnum_weight in E.
  - cbn. induction IH as [|x l H _ IH]; cbn; auto.
  - cbn. induction IH as [|x l H _ IH]; cbn; auto.
Qed.
Section Decode.
Variable fp : bytes -> option bytes.
Lemma content_weight r : forall d v, to_content fp d r = Ok v -> vweight v <= rweight r.
Proof.
  induction r as [| b | n i f | e s | l tl IH | l tl IH | a b] using raw_ind'; intros d v H.
  - injection H as <-. auto.
  - injection H as <-. auto.
  - cbn in H. apply rbind_Ok in H as (m & H & E). injection E as <-. auto.
  - cbn in H. destruct s; cbn in H; try congruence. injection H as <-. auto.
  - rewrite to_content_arr in H. apply rbind_Ok in H as (d' & E & H). apply rbind_Ok in H as (vs & H & H').
    destruct tl; cbn in H'; try congruence. injection H' as <-. apply c_arr_ok in H. clear E.
    cbn. induction H; inversion IH; subst; cbn; auto. specialize (IHForall2 H4). apply H3 in H. lia.
  - rewrite to_content_obj in H. apply rbind_Ok in H as (d' & E & H). apply rbind_Ok in H as (vs & H & H').
    destruct tl; cbn in H'; try congruence. injection H' as <-. clear E. revert vs H.
    induction IH as [|[k x] l Hx IH IH']; intros vs H; cbn in H.
    + injection H as <-. auto.
    + apply rbind_Ok in H as (k' & Hk & H). apply rbind_Ok in H as (v' & Hv & H).
      apply rbind_Ok in H as (vs' & Hvs & H). injection H as <-. apply IH' in Hvs. apply Hx in Hv. cbn in *. lia.
  - cbn in H. congruence.
Qed.
Definition mweight (l : list (bytes * value)) : nat := fold_right (fun kv n => vweight (snd kv) + n) 0 l.
Lemma insert_weight k v m : mweight (btree_insert k v m) <= vweight v + mweight m.
Proof. unfold mweight. induction m as [|[k' v'] m IH]; cbn; auto. destruct (bcmp k k'); cbn in *; lia. Qed.
Lemma btree_weight l : mweight (btree_of l) <= mweight l.
Proof.
  unfold btree_of. enough (G : forall m, mweight (fold_left (fun m kv => btree_insert (fst kv) (snd kv) m) l m) <= mweight l + mweight m).
  { specialize (G []). cbn in G. lia. }
  induction l as [|[k v] l IH]; intros m; [auto|]. cbn [fold_left fst snd]. change (mweight ((k, v) :: l)) with (vweight v + mweight l). pose proof (insert_weight k v m). specialize (IH (btree_insert k v m)). lia.
Qed.
Lemma norm_weight v : vweight (norm v) <= vweight v.
Proof.
  induction v as [| b | n | s | l IH | l IH] using value_ind'; auto.
  - cbn. induction IH as [|x l H _ IH]; cbn; auto. lia.
  - cbn [norm vweight]. apply le_n_S. etransitivity; [apply btree_weight|]. unfold mweight. induction IH as [|x l H _ IH]; cbn; auto. lia.
Qed.

(** The JSON of an attachment. *)
Definition dweight (d : attachment_data) : nat := match d with AJson v _ => S (vweight v) | _ => 0 end.
Definition ows {A} (f : A -> nat) (o : option A) : nat := match o with Some a => f a | None => 0 end.
Lemma walk_weight {S} (step : S -> bytes -> raw -> res S) (pot : S -> nat) :
  (forall s k v s', step s k v = Ok s' -> pot s' <= pot s + rweight v) ->
  forall l s tl s', walk step s l tl = Ok s' -> pot s' <= pot s + mems_weight l.
Proof.
  intros K. induction l as [|[k v] l IH]; intros s tl s' H; cbn in H.
  - destruct tl; cbn in H; [discriminate|]. injection H as <-. cbn. lia.
  - apply rbind_Ok in H as (k' & _ & H). apply rbind_Ok in H as (s1 & H1 & H). apply K in H1. apply IH in H. change (mems_weight ((k, v) :: l)) with (rweight v + mems_weight l). lia.
Qed.
Lemma field_weight k l v : c_field k l = Ok (Some v) -> vweight v <= mweight l.
Proof.
  unfold c_field. destruct (filter _ l) as [|[k0 w] [|]] eqn:E; try discriminate. injection 1 as ->.
  assert (I : In (k0, v) l) by (apply (proj1 (filter_In (fun kv => beq (fst kv) (B k)) (k0, v) l)); rewrite E; now left).
  clear E. unfold mweight. induction l as [|[k' v'] l IH]; cbn in *; [easy|]. destruct I as [I|I]; [injection I as -> ->; lia|]. apply IH in I. lia.
Qed.
Lemma adata_weight r d : de_adata fp r = Ok d -> dweight d <= rweight r.
Proof.
  unfold de_adata. intros H. apply rbind_Ok in H as (c & Hc & H). apply content_weight in Hc. etransitivity; [|exact Hc]. clear Hc.
  destruct c as [| | | | |l]; try discriminate. cbn [de_adata_content] in H. cbn [vweight]. fold (mweight l).
  destruct (de_base64 l) as [d0| |] eqn:E1.
  { injection H as <-. unfold de_base64 in E1. apply rbind_Ok in E1 as (? & _ & E1). apply rbind_Ok in E1 as (? & _ & E1). apply rbind_Ok in E1 as (? & _ & E1). injection E1 as <-. cbn. lia. }
  all: destruct (de_json l) as [d0| |] eqn:E2.
  all: try (injection H as <-; unfold de_json in E2; apply rbind_Ok in E2 as (o & F & E2); apply rbind_Ok in E2 as (v & V & E2);
    apply rbind_Ok in E2 as (? & _ & E2); injection E2 as <-; destruct o as [w|]; cbn in V; [|discriminate]; injection V as <-;
    apply field_weight in F; cbn; pose proof (norm_weight w); lia).
  all: destruct (de_links l) as [d0| |] eqn:E3; try discriminate; injection H as <-; unfold de_links in E3;
    apply rbind_Ok in E3 as (? & _ & E3); apply rbind_Ok in E3 as (? & _ & E3); apply rbind_Ok in E3 as (? & _ & E3);
    apply rbind_Ok in E3 as (? & _ & E3); apply rbind_Ok in E3 as (? & _ & E3); injection E3 as <-; cbn; lia.
Qed.
Lemma once_weight {A} (f : raw -> res A) (w : A -> nat) cur v cur' :
  (forall a, f v = Ok a -> w a <= rweight v) -> once cur f v = Ok cur' -> ows w cur' <= ows w cur + rweight v.
Proof.
  intros K. unfold once. destruct cur; [discriminate|]. intros H. apply rbind_Ok in H as (a & H & E). injection E as <-. apply K in H. cbn. lia.
Qed.
Lemma att_weight r a : de_attachment fp r = Ok a -> dweight (att_data a) <= rweight r.
Proof.
  destruct r as [| | |e rd|l tl|l tl|]; try discriminate; [destruct rd; discriminate| |]; cbn [de_attachment].
  - intros H. destruct l as [|x l]; [destruct tl; discriminate|]. cbn [elem] in H.
    apply rbind_Ok in H as ([d l'] & H1 & H). apply rbind_Ok in H1 as (d' & H1 & E). injection E as -> ->. apply adata_weight in H1.
    repeat (apply rbind_Ok in H as ([? ?] & _ & H)). apply rbind_Ok in H as (? & _ & H). injection H as <-. cbn. lia.
  - intros H. apply rbind_Ok in H as (s & H1 & H). destruct s as [d i de f m fo lt b]. apply rbind_Ok in H as (d0 & H2 & H). injection H as <-.
    apply (walk_weight _ (fun s => ows dweight (as_data s))) in H1.
    + cbn [as_data ows] in H1. destruct d; cbn in H2; [|discriminate]. injection H2 as <-. cbn [ows att_data] in *. cbn [rweight]. fold (mems_weight l). lia.
    + intros [d1 i1 de1 f1 m1 fo1 lt1 b1] k v s' S. unfold att_step in S.
      destruct (beq k (B "data")).
      { apply rbind_Ok in S as (d2 & S & E). injection E as <-. cbn. eapply once_weight; eauto. apply adata_weight. }
      repeat (destruct (beq k _); [apply rbind_Ok in S as (? & _ & E); injection E as <-; cbn; lia|]).
      apply rbind_Ok in S as (? & _ & E). injection E as <-. cbn. lia.
Qed.
Definition atts_weight (l : list attachment) : nat := fold_right (fun a n => dweight (att_data a) + n) 0 l.
Lemma atts_vec r l : de_option (de_vec (de_attachment fp)) r = Ok l -> ows atts_weight l <= rweight r.
Proof.
  unfold de_option. destruct r as [| | |e rd|rs tl|rs tl|] eqn:R; try (intros H; apply rbind_Ok in H as (? & H & _); try discriminate; destruct rd; discriminate); [injection 1 as <-; cbn; auto|].
  intros H. apply rbind_Ok in H as (xs & H & E). injection E as <-. cbn [de_vec] in H. apply rbind_Ok in H as (ys & H & E).
  destruct tl; cbn in E; [discriminate|]. injection E as <-. cbn. clear R. revert ys H. induction rs as [|x rs IH]; intros ys H; cbn in H.
  - injection H as <-. auto.
  - apply rbind_Ok in H as (y & H1 & H). apply rbind_Ok in H as (zs & H2 & H). injection H as <-. apply IH in H2. apply att_weight in H1. cbn. unfold atts_weight in *. lia.
Qed.
Lemma message_weight r m : de_message fp r = Ok m -> ows atts_weight (msg_attachments m) < rweight r.
Proof.
  destruct r as [| | |e rd|l tl|l tl|]; try discriminate; [destruct rd; discriminate|]. cbn [de_message]. intros H. apply rbind_Ok in H as (s & H1 & H).
  assert (E : ows atts_weight (msg_attachments m) = ows (ows atts_weight) (m_att s)).
  { destruct s as [i ty t b f to th pt x c e p a]. cbn in H. repeat (apply rbind_Ok in H as (? & _ & H)). injection H as <-. cbn. now destruct a. }
  rewrite E. apply (walk_weight _ (fun s => ows (ows atts_weight) (m_att s))) in H1; [cbn in *; fold (mems_weight l); lia|].
  intros [i ty t b f to th pt x c e p a] k v s' S. unfold msg_step in S.
  repeat match type of S with
  | (if beq k (B "attachments") then _ else _) = _ => fail 1
  | (if beq k _ then _ else _) = _ => destruct (beq k _); [apply rbind_Ok in S as (? & _ & S'); injection S' as <-; cbn; lia|]
  end.
  destruct (beq k (B "attachments")).
  - apply rbind_Ok in S as (a' & S & S'). injection S' as <-. cbn. eapply once_weight; eauto. apply atts_vec.
  - apply rbind_Ok in S as (? & _ & S'). injection S' as <-. cbn. lia.
Qed.

(** The JSON of an attachment prints. *)
Definition dprints (d : attachment_data) : Prop := match d with AJson v _ => printable v | _ => True end.
Definition oall {A} (P : A -> Prop) (o : option A) : Prop := match o with Some a => P a | None => True end.
Hypothesis FP : fparse_ok fp.
Lemma walk_keeps {S} (step : S -> bytes -> raw -> res S) (I : S -> Prop) :
  (forall s k v s', raw_ok v -> step s k v = Ok s' -> I s -> I s') ->
  forall l s tl s', mems_ok l -> walk step s l tl = Ok s' -> I s -> I s'.
Proof.
  intros K. induction l as [|[k v] l IH]; intros s tl s' M H Is; cbn in H.
  - destruct tl; cbn in H; [discriminate|]. injection H as <-. auto.
  - apply rbind_Ok in H as (k' & _ & H). apply rbind_Ok in H as (s1 & H1 & H). cbn in M. destruct M as [[_ M1] M2].
    eapply IH; eauto.
Qed.
Lemma adata_prints r d : raw_ok r -> de_adata fp r = Ok d -> dprints d.
Proof.
  unfold de_adata. intros R H. apply rbind_Ok in H as (c & Hc & H). apply to_content_wf in Hc as [W _]; auto; [|unfold max_depth; cbn; lia].
  destruct c as [| | | | |l]; try discriminate. cbn [de_adata_content] in H. apply wfv_obj in W.
  destruct (de_base64 l) as [d0| |] eqn:E1.
  { injection H as <-. unfold de_base64 in E1. apply rbind_Ok in E1 as (? & _ & E1). apply rbind_Ok in E1 as (? & _ & E1). apply rbind_Ok in E1 as (? & _ & E1). injection E1 as <-. exact I. }
  all: destruct (de_json l) as [d0| |] eqn:E2.
  all: try (injection H as <-; unfold de_json in E2; apply rbind_Ok in E2 as (o & F & E2); apply rbind_Ok in E2 as (v & V & E2);
    apply rbind_Ok in E2 as (? & _ & E2); injection E2 as <-; destruct o as [w|]; cbn in V; [|discriminate]; injection V as <-;
    cbn; eapply (wfv_printable fp), norm_wf; unfold c_field in F; destruct (filter _ l) as [|[k0 w'] [|]] eqn:E; try discriminate; injection F as ->;
    assert (In (k0, w) l) as IN by (apply (proj1 (filter_In (fun kv => beq (fst kv) (B "json")) (k0, w) l)); rewrite E; now left);
    rewrite Forall_forall in W; now apply W in IN).
  all: destruct (de_links l) as [d0| |] eqn:E3; try discriminate; injection H as <-; unfold de_links in E3;
    apply rbind_Ok in E3 as (? & _ & E3); apply rbind_Ok in E3 as (? & _ & E3); apply rbind_Ok in E3 as (? & _ & E3);
    apply rbind_Ok in E3 as (? & _ & E3); apply rbind_Ok in E3 as (? & _ & E3); injection E3 as <-; exact I.
Qed.
Lemma once_keeps {A} (f : raw -> res A) (P : A -> Prop) cur v cur' :
  (forall a, f v = Ok a -> P a) -> once cur f v = Ok cur' -> oall P cur'.
Proof. intros K. unfold once. destruct cur; [discriminate|]. intros H. apply rbind_Ok in H as (a & H & E). injection E as <-. now apply K. Qed.
Lemma att_prints r a : raw_ok r -> de_attachment fp r = Ok a -> dprints (att_data a).
Proof.
  intros R. destruct r as [| | |e rd|l tl|l tl|]; try discriminate; [destruct rd; discriminate| |]; cbn [de_attachment].
  - intros H. destruct l as [|x l]; [destruct tl; discriminate|]. cbn [elem] in H.
    apply rbind_Ok in H as ([d l'] & H1 & H). apply rbind_Ok in H1 as (d' & H1 & E). injection E as -> ->. apply adata_prints in H1; [|cbn in R; tauto].
    repeat (apply rbind_Ok in H as ([? ?] & _ & H)). apply rbind_Ok in H as (? & _ & H). injection H as <-. exact H1.
  - intros H. apply rbind_Ok in H as (s & H1 & H). destruct s as [d i de f m fo lt b]. apply rbind_Ok in H as (d0 & H2 & H). injection H as <-.
    apply (walk_keeps _ (fun s => oall dprints (as_data s))) in H1; [|..|exact R|exact I].
    + cbn [as_data] in H1. destruct d; cbn in H2; [|discriminate]. injection H2 as <-. exact H1.
    + intros [d1 i1 de1 f1 m1 fo1 lt1 b1] k v s' Rv S P. unfold att_step in S.
      destruct (beq k (B "data")).
      { apply rbind_Ok in S as (d2 & S & E). injection E as <-. cbn. eapply once_keeps; eauto. intros a. now apply adata_prints. }
      repeat (destruct (beq k _); [apply rbind_Ok in S as (? & _ & E); injection E as <-; exact P|]).
      apply rbind_Ok in S as (? & _ & E). injection E as <-. exact P.
Qed.
Lemma atts_prints r l : raw_ok r -> de_option (de_vec (de_attachment fp)) r = Ok l -> oall (Forall (fun a => dprints (att_data a))) l.
Proof.
  unfold de_option. destruct r as [| | |e rd|rs tl|rs tl|] eqn:R; try (intros _ H; apply rbind_Ok in H as (? & H & _); try discriminate; destruct rd; discriminate); [injection 2 as <-; exact I|].
  intros K H. apply rbind_Ok in H as (xs & H & E). injection E as <-. cbn [de_vec] in H. apply rbind_Ok in H as (ys & H & E).
  destruct tl; cbn in E; [discriminate|]. injection E as <-. cbn. clear R. revert ys H. induction rs as [|x rs IH]; intros ys H; cbn in H.
  - injection H as <-. auto.
  - cbn in K. destruct K as [K1 K2]. apply rbind_Ok in H as (y & H1 & H). apply rbind_Ok in H as (zs & H2 & H). injection H as <-. apply IH in H2; auto. apply att_prints in H1; auto.
Qed.
Lemma message_prints r m : raw_ok r -> de_message fp r = Ok m -> oall (Forall (fun a => dprints (att_data a))) (msg_attachments m).
Proof.
  intros R. destruct r as [| | |e rd|l tl|l tl|]; try discriminate; [destruct rd; discriminate|]. cbn [de_message]. intros H. apply rbind_Ok in H as (s & H1 & H).
  assert (E : msg_attachments m = match m_att s with Some a => a | None => None end).
  { destruct s as [i ty t b f to th pt x c e p a]. cbn in H. repeat (apply rbind_Ok in H as (? & _ & H)). injection H as <-. cbn. now destruct a. }
  rewrite E. apply (walk_keeps _ (fun s => oall (oall (Forall (fun a => dprints (att_data a)))) (m_att s))) in H1; [|..|exact R|exact I]; [now destruct (m_att s)|].
  intros [i ty t b f to th pt x c e p a] k v s' Rv S P. unfold msg_step in S.
  repeat match type of S with
  | (if beq k (B "attachments") then _ else _) = _ => fail 1
  | (if beq k _ then _ else _) = _ => destruct (beq k _); [apply rbind_Ok in S as (? & _ & S'); injection S' as <-; exact P|]
  end.
  destruct (beq k (B "attachments")).
  - apply rbind_Ok in S as (a' & S & S'). injection S' as <-. cbn. eapply once_keeps; eauto. intros l'. now apply atts_prints.
  - apply rbind_Ok in S as (? & _ & S'). injection S' as <-. exact P.
Qed.
End Decode.

(** The text of an envelope holds its ciphertext and tag. *)
Lemma borrowed_weight r s : de_borrowed r = Ok s -> List.length s <= rweight r.
Proof. destruct r as [| | |e [|]| | |]; try discriminate; destruct e; try discriminate; cbn; injection 1 as <-; auto. Qed.
Lemma elem_weight {A} (f : raw -> res A) w l tl a l' : (forall r a, f r = Ok a -> w a <= rweight r) -> elem f l tl = Ok (a, l') -> w a + raws_weight l' <= raws_weight l.
Proof. intros K E. destruct l; [destruct tl; discriminate|]. cbn in E. apply rbind_Ok in E as (a' & E & E'). injection E' as -> ->. apply K in E. cbn. unfold raws_weight. lia. Qed.
Lemma kid_weight r k : de_kid_header r = Ok k -> 1 <= rweight r.
Proof. destruct r as [| | |e rd|l tl|l tl|]; try discriminate; [destruct rd; discriminate| |]; intros _; cbn; lia. Qed.
Lemma recipient_weight r x : de_recipient r = Ok x -> 2 <= rweight r.
Proof.
  destruct r as [| | |e rd|l tl|l tl|]; try discriminate; [destruct rd; discriminate| |]; cbn [de_recipient]; intros H.
  - apply rbind_Ok in H as ([h l1] & H1 & H). apply (elem_weight _ (fun _ => 1)) in H1; [|exact kid_weight]. cbn. fold (raws_weight l). lia.
  - apply rbind_Ok in H as ([h e] & H1 & H). apply (walk_weight _ (fun '(h, _) => ows (fun _ : bytes => 1) h)) in H1.
    + apply rbind_Ok in H as (h' & H & _). destruct h; [|discriminate]. cbn in *. fold (mems_weight l). lia.
    + intros [h0 e0] k v s' S. destruct (beq k (B "header")).
      { apply rbind_Ok in S as (x' & S & E). injection E as <-. eapply once_weight; eauto. intros. eapply kid_weight; eauto. }
      destruct (beq k _); apply rbind_Ok in S as (x' & S & E); injection E as <-; lia.
Qed.
Lemma recipients_weight r l : de_vec de_recipient r = Ok l -> 1 + 2 * List.length l <= rweight r.
Proof.
  destruct r as [| | |e rd|rs tl|rs tl|]; try discriminate; [destruct rd; discriminate|]. cbn [de_vec]. intros H.
  apply rbind_Ok in H as (ys & H & E). destruct tl; cbn in E; [discriminate|]. injection E as <-. cbn [rweight]. fold (raws_weight rs).
  enough (2 * List.length ys <= raws_weight rs) by lia. revert ys H. induction rs as [|x rs IH]; intros ys H; cbn in H.
  - injection H as <-. auto.
  - apply rbind_Ok in H as (y & H1 & H). apply rbind_Ok in H as (zs & H2 & H). injection H as <-. apply IH in H2. apply recipient_weight in H1. cbn. unfold raws_weight in *. lia.
Qed.
Lemma jwe_weight r j : de_jwe r = Ok j ->
  2 + 2 * List.length (jwe_recipients j) + List.length (jwe_ciphertext j) + List.length (jwe_tag j) <= rweight r.
Proof.
  destruct r as [| | |e rd|l tl|l tl|]; try discriminate; [destruct rd; discriminate| |]; cbn [de_jwe]; intros H.
  - apply rbind_Ok in H as ([p l1] & H1 & H). apply (elem_weight _ (fun _ => 0)) in H1; [|intros; lia].
    apply rbind_Ok in H as ([rs l2] & H2 & H). apply (elem_weight _ (fun rs => 1 + 2 * List.length rs)) in H2; [|exact recipients_weight].
    apply rbind_Ok in H as ([i l3] & H3 & H). apply (elem_weight _ (fun _ => 0)) in H3; [|intros; lia].
    apply rbind_Ok in H as ([c l4] & H4 & H). apply (elem_weight _ (@List.length _)) in H4; [|exact borrowed_weight].
    apply rbind_Ok in H as ([t l5] & H5 & H). apply (elem_weight _ (@List.length _)) in H5; [|exact borrowed_weight].
    apply rbind_Ok in H as (? & _ & H). injection H as <-. cbn [jwe_recipients jwe_ciphertext jwe_tag rweight]. fold (raws_weight l). lia.
  - apply rbind_Ok in H as ([[[[p rs] i] c] t] & H1 & H).
    apply (walk_weight _ (fun '(_, rs, _, c, t) => ows (fun rs : list recipient => 1 + 2 * List.length rs) rs + ows (@List.length ascii) c + ows (@List.length ascii) t)) in H1.
    + repeat (apply rbind_Ok in H as (? & ? & H)). injection H as <-. destruct rs, c, t; try discriminate. cbn [jwe_recipients jwe_ciphertext jwe_tag rweight ows need ok_or] in *.
      repeat match goal with E : Ok _ = Ok _ |- _ => injection E as <- end. fold (mems_weight l). lia.
    + intros [[[[p0 rs0] i0] c0] t0] k v s' S.
      destruct (beq k _); [apply rbind_Ok in S as (x & S & E); injection E as <-; lia|].
      destruct (beq k _).
      { apply rbind_Ok in S as (x & S & E); injection E as <-. apply (once_weight _ (fun rs : list recipient => 1 + 2 * List.length rs)) in S; [|exact (recipients_weight v)]. lia. }
      repeat (destruct (beq k _); [apply rbind_Ok in S as (x & S & E); injection E as <-; try (apply (once_weight _ (@List.length ascii)) in S; [|exact (borrowed_weight v)]); lia|]).
      apply rbind_Ok in S as (? & _ & E). injection E as <-. lia.
Qed.
Lemma jws_weight r j : de_jws r = Ok j -> 1 + List.length (jws_payload j) <= rweight r.
Proof.
  destruct r as [| | |e rd|l tl|l tl|]; try discriminate; [destruct rd; discriminate| |]; cbn [de_jws]; intros H.
  - apply rbind_Ok in H as ([p l1] & H1 & H). apply (elem_weight _ (fun _ => 0)) in H1; [|intros; lia].
    apply rbind_Ok in H as ([c l4] & H4 & H). apply (elem_weight _ (@List.length _)) in H4; [|exact borrowed_weight].
    apply rbind_Ok in H as (? & _ & H). injection H as <-. cbn [jws_payload rweight]. fold (raws_weight l). lia.
  - apply rbind_Ok in H as ([sg p] & H1 & H).
    apply (walk_weight _ (fun '(_, p) => ows (@List.length ascii) p)) in H1.
    + repeat (apply rbind_Ok in H as (? & ? & H)). injection H as <-. destruct p; try discriminate. cbn [jws_payload rweight ows need ok_or] in *.
      repeat match goal with E : Ok _ = Ok _ |- _ => injection E as <- end. fold (mems_weight l). lia.
    + intros [sg0 p0] k v s' S.
      destruct (beq k _); [apply rbind_Ok in S as (x & S & E); injection E as <-; lia|].
      destruct (beq k _); [apply rbind_Ok in S as (x & S & E); injection E as <-; apply (once_weight _ (@List.length ascii)) in S; [|exact (borrowed_weight v)]; lia|].
      apply rbind_Ok in S as (? & _ & E). injection E as <-. lia.
Qed.

Section Term.
Variable C : crypto.
Hypothesis Sh : aead_shrinks C.
Hypothesis Fl : floats_stable (fparse C).

Definition msg_weight (s : bytes) : nat := rweight (fst (parse s)).

Lemma opened_weight text j h ce ka sender kid k pt : envelope C text j h -> opened C ce ka j h sender kid k pt -> List.length pt <= msg_weight text.
Proof.
  intros [E _] (cek & iv & ct & tag & _ & _ & B1 & B2 & A). apply Sh in A. rewrite app_length in A.
  apply b64dec_length in B1, B2. unfold jwe_from_str, from_json in E. unfold msg_weight. destruct (parse text) as [r e].
  apply rbind_Ok in E as (j' & E & E'). destruct e; [discriminate|]. injection E' as ->. apply jwe_weight in E. cbn [fst]. lia.
Qed.
Lemma anon_weight tr all text j alg pt : anon_opened C tr all text j alg pt -> List.length pt <= msg_weight text.
Proof.
  intros (h & apv & found & ce & En & _ & _ & _ & _ & _ & _ & _ & _ & T). unfold tried in T. destruct all.
  - destruct T as (l & kid & _ & (sec & ka & k & _ & _ & _ & O) & _). eapply opened_weight; eauto.
  - destruct T as (kid & l & _ & sec & ka & k & _ & _ & _ & O). eapply opened_weight; eauto.
Qed.
Lemma forward_weight pt next v : forward_to C pt next v -> msg_weight (print v) < List.length pt.
Proof.
  intros (m & body & att & rest & js & M & _ & _ & _ & A & D). unfold message_from_str, from_json in M.
  pose proof (parse_ok pt) as R. pose proof (parse_weight pt) as W. destruct (parse pt) as [r e] eqn:E. cbn [fst] in *.
  apply rbind_Ok in M as (m' & M & E'). destruct e; [discriminate|]. injection E' as ->.
  pose proof (message_weight _ _ _ M) as X. apply message_prints in M; [|now apply floats_stable_ok|auto].
  rewrite A in M, X. inversion M; subst. rewrite D in *. cbn in H1. unfold msg_weight. rewrite parse_print by auto. cbn [fst].
  rewrite raw_of_weight. cbn in X. rewrite D in X. cbn in X. lia.
Qed.

Lemma loop_ends fuel : forall text o md tr x, msg_weight text < fuel -> exec (unpack_loop C fuel text o md) tr x -> x <> None.
Proof.
  induction fuel as [|f IH]; intros text o md tr x L H; [lia|]. cbn [unpack_loop] in H.
  apply exec_bind in H as (tr1 & tr2 & r & -> & H1 & H2). destruct r as [[[pt md']|]| |]; try (destruct H2 as [_ ->]; discriminate).
  - apply try_anoncrypt_Some in H1 as (j & alg & A & _). apply anon_weight in A. destruct (uo_unwrap o).
    + apply exec_bind in H2 as (tr3 & tr4 & u & -> & H2 & H3). destruct u as [[fwd|]| |]; try (destruct H3 as [_ ->]; discriminate).
      * apply try_unwrap_Ok in H2 as (next & v & kid & found & F & _ & ->). apply forward_weight in F. eapply IH; [|exact H3]. lia.
      * apply exec_bind in H3 as (? & ? & ? & _ & _ & [_ ->]). discriminate.
    + apply exec_bind in H2 as (? & ? & ? & _ & _ & [_ ->]). discriminate.
  - apply exec_bind in H2 as (? & ? & ? & _ & _ & [_ ->]). discriminate.
Qed.
Lemma unpack_ends fuel text o tr x : List.length text < fuel -> exec (unpack C fuel text o) tr x -> x <> None.
Proof. intros L. apply loop_ends. pose proof (parse_weight text) as W. unfold msg_weight. lia. Qed.

Lemma first_layer fuel text o md tr x : 0 < fuel -> (forall j, jwe_from_str text = Ok j -> List.length (jwe_ciphertext j) + List.length (jwe_tag j) < fuel) ->
  exec (unpack_loop C fuel text o md) tr x -> x <> None.
Proof.
  destruct fuel as [|f]; [lia|]. intros _ J H. cbn [unpack_loop] in H.
  apply exec_bind in H as (tr1 & tr2 & r & -> & H1 & H2). destruct r as [[[pt md']|]| |]; try (destruct H2 as [_ ->]; discriminate).
  - apply try_anoncrypt_Some in H1 as (j & alg & A & _).
    assert (L : List.length pt < S f).
    { destruct A as (h & apv & found & ce & [En _] & _ & _ & _ & _ & _ & _ & _ & _ & T). apply J in En.
      assert (O : exists ka kid k, opened C ce ka j h None kid k pt).
      { unfold tried in T. destruct (uo_all_keys o).
        - destruct T as (l & kid & _ & (sec & ka & k & _ & _ & _ & O) & _). eauto.
        - destruct T as (kid & l & _ & sec & ka & k & _ & _ & _ & O). eauto. }
      destruct O as (ka & kid & k & cek & iv & ct & tag & _ & _ & B1 & B2 & A). apply Sh in A. rewrite app_length in A.
      apply b64dec_length in B1, B2. lia. }
    destruct (uo_unwrap o).
    + apply exec_bind in H2 as (tr3 & tr4 & u & -> & H2 & H3). destruct u as [[fwd|]| |]; try (destruct H3 as [_ ->]; discriminate).
      * apply try_unwrap_Ok in H2 as (next & v & kid & found & F & _ & ->). apply forward_weight in F. eapply loop_ends; [|exact H3]. lia.
      * apply exec_bind in H3 as (? & ? & ? & _ & _ & [_ ->]). discriminate.
    + apply exec_bind in H2 as (? & ? & ? & _ & _ & [_ ->]). discriminate.
  - apply exec_bind in H2 as (? & ? & ? & _ & _ & [_ ->]). discriminate.
Qed.
Lemma layers_bounded fuel text o tr x : 0 < fuel -> (forall j, jwe_from_str text = Ok j -> List.length (jwe_ciphertext j) + List.length (jwe_tag j) < fuel) ->
  exec (unpack C fuel text o) tr x -> x <> None.
Proof. intros P J H. unfold unpack in H. revert P J H. apply first_layer. Qed.
End Term.

Lemma loop_more C fuel : forall text o md tr x fuel', fuel <= fuel' -> exec (unpack_loop C fuel text o md) tr (Some x) ->
  exec (unpack_loop C fuel' text o md) tr (Some x).
Proof.
  induction fuel as [|f IH]; intros text o md tr x [|f'] L H; try lia; try (destruct H; discriminate). cbn [unpack_loop] in *.
  apply exec_bind in H as (tr1 & tr2 & r & -> & H1 & H2). apply exec_bind. exists tr1, tr2, r. split; auto. split; auto.
  destruct r as [[[pt md']|]| |]; auto. destruct (uo_unwrap o); auto.
  apply exec_bind in H2 as (tr3 & tr4 & u & -> & H2 & H3). apply exec_bind. exists tr3, tr4, u. split; auto. split; auto.
  destruct u as [[fwd|]| |]; auto. eapply IH; eauto. lia.
Qed.
Lemma unpack_more C fuel fuel' text o tr x : fuel <= fuel' -> exec (unpack C fuel text o) tr (Some x) -> exec (unpack C fuel' text o) tr (Some x).
Proof. unfold unpack. apply loop_more. Qed.
