(** The JSON printer and parser are inverse to each other. *)
From Verif.Model Require Import Prelude Utf8 Json.
From Verif.Proofs Require Import Lib.

Lemma value_ind' (P : value -> Prop) :
  P VNull -> (forall b, P (VBool b)) -> (forall n, P (VNum n)) -> (forall s, P (VStr s)) ->
  (forall l, Forall P l -> P (VArr l)) ->
  (forall l, Forall (fun kv => P (snd kv)) l -> P (VObj l)) -> forall v, P v.
Proof.
  intros H1 H2 H3 H4 H5 H6. fix IH 1. intros [|b|n|s|l|l].
  - exact H1.
  - apply H2.
  - apply H3.
  - apply H4.
  - apply H5. induction l as [|x l IHl]; constructor; [apply IH | exact IHl].
  - apply H6. induction l as [|x l IHl]; constructor; [apply IH | exact IHl].
Qed.

(** ** Characters and strings *)
Lemma esc_cases c :
  (must_escape c = false /\ esc_char c = [c] /\ is_quote c = false /\ is_bslash c = false /\ is_ctrl c = false)
  \/ (must_escape c = true /\ exists e, esc_char c = ["\"%char; e] /\ simple_escape e = Some c)
  \/ (must_escape c = true /\ exists x y, esc_char c = ["\"; "u"; "0"; "0"; x; y]%char
        /\ hex4 "0" "0" x y = Some (N_of_ascii c) /\ encode_char (N_of_ascii c) = [c]
        /\ (N_of_ascii c < 32)%N).
Proof.
  destruct c as [[] [] [] [] [] [] [] []];
  first
   [ left; repeat split; reflexivity
   | right; left; split; [reflexivity|]; eexists; split; reflexivity
   | right; right; split; [reflexivity|]; do 2 eexists; repeat split; reflexivity ].
Qed.

Lemma skip_str_esc c t : skip_str (esc_char c ++ t) =
  (must_escape c || fst (skip_str t), snd (skip_str t)).
Proof.
  destruct (esc_cases c) as [(M & -> & Q & Bs & Ct)|[(M & e & -> & E)|(M & x & y & -> & Hx & _ & _)]]; rewrite M.
  - cbn [app skip_str]. rewrite Q, Bs, Ct. now destruct (skip_str t).
  - cbn [app skip_str]. cbn [is_quote is_bslash Ascii.eqb]. cbn. rewrite E. reflexivity.
  - cbn [app skip_str]. cbn. cbn in Hx. now rewrite Hx.
Qed.
Lemma skip_str_print s rest :
  skip_str (esc_str s ++ """"%char :: rest) = (existsb must_escape s, inr rest).
Proof.
  induction s as [|c s IH]; [reflexivity|].
  cbn [esc_str flat_map existsb]. fold (esc_str s). rewrite <- app_assoc, skip_str_esc, IH. reflexivity.
Qed.
Lemma read_str_esc c t : read_str (esc_char c ++ t) = rcons [c] (read_str t).
Proof.
  destruct (esc_cases c) as [(M & -> & Q & Bs & Ct)|[(M & e & -> & E)|(M & x & y & -> & Hx & He & Hn)]].
  - cbn [app read_str]. rewrite Q, Bs, Ct. reflexivity.
  - cbn [app read_str]. cbn [is_quote is_bslash Ascii.eqb]. cbn. rewrite E. reflexivity.
  - cbn [app read_str].
    change (is_quote "\") with false. change (is_bslash "\") with true. change (simple_escape "u") with (@None ascii).
    change (("u" =? "u")%char) with true. cbv iota beta. rewrite Hx, <- He at 1.
    replace (56320 <=? N_of_ascii c)%N with false by (symmetry; apply N.leb_gt; lia).
    replace (55296 <=? N_of_ascii c)%N with false by (symmetry; apply N.leb_gt; lia).
    cbn [andb]. now rewrite He.
Qed.
Lemma read_str_print s rest : read_str (esc_str s ++ """"%char :: rest) = inr s.
Proof.
  induction s as [|c s IH]; [reflexivity|].
  cbn [esc_str flat_map]. fold (esc_str s). rewrite <- app_assoc, read_str_esc, IH. reflexivity.
Qed.
Lemma pstring_print s rest : utf8 s = true ->
  pstring (esc_str s ++ """"%char :: rest) = (existsb must_escape s, inr s, inr rest).
Proof.
  intros U. unfold pstring, read_utf8. now rewrite skip_str_print, read_str_print, U.
Qed.

(** ** Numbers *)
Lemma size_nat_bound n : (n < 2 ^ N.of_nat (N.size_nat n))%N.
Proof.
  replace (N.of_nat (N.size_nat n)) with (N.size n); [apply N.size_gt|].
  destruct n as [|p]; [reflexivity|]. cbn. induction p; cbn; lia.
Qed.

Definition digits (ds : bytes) : Prop := forallb is_digit ds = true.
Lemma digit_ok n : (n < 10)%N -> is_digit (digit n) = true /\ (N_of_ascii (digit n) - 48 = n)%N.
Proof.
  intros H. unfold is_digit, byte_in, digit. rewrite N_of_ascii_of_N by lia.
  split; [|lia]. apply andb_true_intro. split; apply N.leb_le; lia.
Qed.
Lemma dec_val_app a b : dec_val (a ++ b) = fold_left (fun acc c => acc * 10 + (N_of_ascii c - 48))%N b (dec_val a).
Proof. unfold dec_val. now rewrite fold_left_app. Qed.

(** no leading zero *)
Definition lead_ok (ds : bytes) : Prop := exists c t, ds = c :: t /\ (Ascii.eqb c "0" = true -> t = []).

Lemma dec_digits_ok fuel n : (n < 2 ^ N.of_nat fuel)%N -> fuel <> O ->
  let ds := dec_digits fuel n in
  digits ds /\ dec_val ds = n /\ lead_ok ds /\ (n <> 0 -> forall c t, ds = c :: t -> Ascii.eqb c "0" = false)%N.
Proof.
  revert n; induction fuel as [|f IH]; intros n Hn Hf; [congruence|]. clear Hf. cbn [dec_digits].
  destruct (N.ltb_spec n 10).
  - destruct (digit_ok n H) as [D V]. cbn zeta. repeat split.
    + unfold digits. cbn. now rewrite D.
    + unfold dec_val. cbn [fold_left]. lia.
    + exists (digit n), []. auto.
    + intros Hz c t [= <- <-]. apply Ascii.eqb_neq. intros E. rewrite E in V. cbn in V. lia.
  - destruct f as [|f].
    { exfalso. change (2 ^ N.of_nat 1)%N with 2%N in Hn. lia. }
    assert (Hd : (n / 10 < 2 ^ N.of_nat (S f))%N).
    { rewrite Nnat.Nat2N.inj_succ, N.pow_succ_r' in Hn. apply N.div_lt_upper_bound; lia. }
    assert (Hp : (n / 10 <> 0)%N).
    { intros E. apply N.div_small_iff in E; lia. }
    destruct (IH (n / 10)%N Hd ltac:(congruence)) as (D & V & (c & t & E & _) & Z).
    destruct (digit_ok (n mod 10)) as [D2 V2]; [apply N.mod_lt; lia|].
    cbn zeta. repeat split.
    + unfold digits in *. rewrite forallb_app, D. cbn. now rewrite D2.
    + rewrite dec_val_app, V. cbn [fold_left]. rewrite V2. rewrite (N.div_mod' n 10) at 3. lia.
    + exists c, (t ++ [digit (n mod 10)]). rewrite E. split; auto.
      intros K. specialize (Z Hp c t E). congruence.
    + intros Hz c' t' E'. rewrite E in E'. injection E' as <- <-. eauto.
Qed.
Lemma print_N_ok n : let ds := print_N n in
  digits ds /\ dec_val ds = n /\ lead_ok ds /\ (n <> 0 -> forall c t, ds = c :: t -> Ascii.eqb c "0" = false)%N.
Proof.
  apply dec_digits_ok; [|congruence]. rewrite Nnat.Nat2N.inj_succ, N.pow_succ_r'.
  pose proof (size_nat_bound n). lia.
Qed.

Lemma span_digits_app ds rest : digits ds ->
  match rest with c :: _ => is_digit c = false | [] => True end ->
  span_digits (ds ++ rest) = (ds, rest).
Proof.
  intros D R. induction ds as [|c ds IH]; cbn.
  - destruct rest as [|c r]; cbn; auto. now rewrite R.
  - unfold digits in D. cbn in D. apply andb_prop in D as [-> D]. now rewrite IH.
Qed.
Lemma span_digits_spec s a b : span_digits s = (a, b) ->
  s = a ++ b /\ digits a /\ match b with c :: _ => is_digit c = false | [] => True end.
Proof.
  revert a b; induction s as [|c s IH]; cbn; intros a b.
  - injection 1 as <- <-. repeat split.
  - destruct (is_digit c) eqn:E.
    + destruct (span_digits s) as [a' b']. injection 1 as <- <-.
      destruct (IH a' b' eq_refl) as (-> & D & R). repeat split; auto. unfold digits; cbn. now rewrite E.
    + injection 1 as <- <-. repeat split; auto.
Qed.

(** What may follow a complete number: nothing that would extend it. *)
Definition follow (rest : bytes) : Prop :=
  match rest with
  | c :: _ => is_digit c = false /\ Ascii.eqb c "." = false /\ Ascii.eqb c "e" = false /\ Ascii.eqb c "E" = false
  | [] => True
  end.
Lemma follow_digit rest : follow rest -> match rest with c :: _ => is_digit c = false | [] => True end.
Proof. destruct rest; cbn; tauto. Qed.
Lemma pfe_follow rest : follow rest -> pfe rest = inr ([], rest).
Proof.
  destruct rest as [|c r]; cbn; auto. intros (D & P & E1 & E2). unfold popt_exp. now rewrite P, E1, E2.
Qed.

Lemma pexp_app s x r rest : pexp s = inr (x, r) -> (r = [] -> follow rest) -> pexp (s ++ rest) = inr (x, r ++ rest).
Proof.
  unfold pexp. intros H F. destruct (psign s) as [sg s1] eqn:E.
  assert (E' : psign (s ++ rest) = (sg, s1 ++ rest) /\ s1 <> []).
  { destruct s1; try congruence. split; [|congruence].
    destruct s as [|c t]; cbn in E |- *; try congruence.
    destruct ((c =? "+") || (c =? "-"))%char; inversion E; subst; auto. }
  destruct E' as [-> N]. destruct s1 as [|c s1]; [congruence|]. cbn [app].
  change (c :: s1 ++ rest) with ((c :: s1) ++ rest).
  destruct (span_digits (c :: s1)) as [[|d ds] r'] eqn:S; try congruence.
  injection H as <- <-. apply span_digits_spec in S as (-> & D & R).
  rewrite <- app_assoc, span_digits_app; auto.
  destruct r'; cbn; auto. now apply follow_digit, F.
Qed.
Lemma popt_exp_app s acc x r rest : popt_exp s acc = inr (x, r) -> (r = [] -> follow rest) ->
  popt_exp (s ++ rest) acc = inr (x, r ++ rest).
Proof.
  unfold popt_exp. intros H F. destruct s as [|c t].
  - injection H as <- <-. cbn [app]. specialize (F eq_refl). destruct rest as [|c r]; auto.
    destruct F as (_ & _ & -> & ->). reflexivity.
  - cbn [app]. destruct ((c =? "e") || (c =? "E"))%char.
    + destruct (pexp t) as [|[y r']] eqn:E; try congruence. injection H as <- <-.
      erewrite pexp_app; eauto.
    + injection H as <- <-. reflexivity.
Qed.
Lemma pfrac_app s x r rest : pfrac s = inr (x, r) -> (r = [] -> follow rest) -> pfrac (s ++ rest) = inr (x, r ++ rest).
Proof.
  unfold pfrac. intros H F. destruct s as [|c t]; try congruence. cbn [app].
  change (c :: t ++ rest) with ((c :: t) ++ rest).
  destruct (span_digits (c :: t)) as [[|d ds] r'] eqn:S; try congruence.
  injection H as <- <-. apply span_digits_spec in S as (-> & D & R).
  rewrite <- app_assoc, span_digits_app; auto.
  destruct r'; cbn; auto. now apply follow_digit, F.
Qed.
Lemma pfe_app s x r rest : pfe s = inr (x, r) -> (r = [] -> follow rest) -> pfe (s ++ rest) = inr (x, r ++ rest).
Proof.
  intros H F. unfold pfe in H. destruct s as [|c t].
  - injection H as <- <-. cbn [app]. now apply pfe_follow, F.
  - cbn [app pfe]. destruct (c =? ".")%char.
    + destruct (pfrac t) as [|[y r']] eqn:E; try congruence.
      destruct r' as [|d r''].
      * cbn in H. injection H as <- <-. rewrite (pfrac_app _ _ _ rest E) by auto. cbn [app].
        exact (popt_exp_app [] _ _ [] rest eq_refl F).
      * rewrite (pfrac_app _ _ _ rest E) by congruence. now apply popt_exp_app.
    + change (c :: t ++ rest) with ((c :: t) ++ rest). now apply popt_exp_app.
Qed.
Lemma pnum_body_app neg s r k rest : pnum_body neg s = (r, Some k) -> (k = [] -> follow rest) ->
  pnum_body neg (s ++ rest) = (r, Some (k ++ rest)).
Proof.
  unfold pnum_body. destruct s as [|c t]; [unfold rfail; congruence|]. cbn [app].
  destruct (is_digit c) eqn:D; cbn [negb]; [|unfold rfail; congruence].
  destruct (c =? "0")%char eqn:Z; intros H F.
  - destruct t as [|d t].
    + injection H as <- <-. cbn [app]. specialize (F eq_refl). destruct rest as [|d r']; auto.
      pose proof F as (-> & _). now rewrite (pfe_follow _ F).
    + cbn [app]. destruct (is_digit d); [unfold rfail in H; congruence|].
      destruct (pfe (d :: t)) as [|[fe r']] eqn:E; [unfold rfail in H; congruence|].
      injection H as <- <-. change (d :: t ++ rest) with ((d :: t) ++ rest). now rewrite (pfe_app _ _ _ _ E).
  - change (c :: t ++ rest) with ((c :: t) ++ rest).
    destruct (span_digits (c :: t)) as [ds r'] eqn:S. apply span_digits_spec in S as (E & D' & R).
    rewrite E. destruct (pfe r') as [|[fe r'']] eqn:G; [unfold rfail in H; congruence|].
    injection H as <- <-. destruct r' as [|d r'].
    + cbn in G. injection G as <- <-. specialize (F eq_refl). rewrite app_nil_r.
      rewrite span_digits_app; [|auto|now apply follow_digit]. now rewrite (pfe_follow _ F).
    + rewrite <- app_assoc, span_digits_app; auto. now rewrite (pfe_app _ _ _ _ G).
Qed.
Lemma pnum_app s r k rest : pnum s = (r, Some k) -> (k = [] -> follow rest) ->
  pnum (s ++ rest) = (r, Some (k ++ rest)).
Proof.
  unfold pnum. destruct s as [|c t]; [unfold rfail; congruence|]. cbn [app].
  destruct (c =? "-")%char; intros; [now apply pnum_body_app|].
  change (c :: t ++ rest) with ((c :: t) ++ rest). now apply pnum_body_app.
Qed.

Lemma pnum_body_digits neg ds : digits ds -> lead_ok ds -> pnum_body neg ds = (RNum neg ds [], Some []).
Proof.
  intros D (c & t & -> & Z). unfold pnum_body. pose proof D as D'. unfold digits in D'. cbn in D'.
  apply andb_prop in D' as [Dc Dt]. rewrite Dc. cbn [negb].
  destruct (c =? "0")%char.
  - rewrite (Z eq_refl). reflexivity.
  - pose proof (span_digits_app (c :: t) [] D I) as E. rewrite app_nil_r in E. rewrite E. reflexivity.
Qed.
Lemma digit_not_minus c : is_digit c = true -> Ascii.eqb c "-" = false.
Proof. destruct c as [[] [] [] [] [] [] [] []]; vm_compute; congruence. Qed.
Lemma print_N_pnum n : pnum (print_N n) = (RNum false (print_N n) [], Some []).
Proof.
  destruct (print_N_ok n) as (D & _ & L & _). pose proof L as (c & t & E & _).
  rewrite <- (pnum_body_digits false _ D L). rewrite E in *. unfold pnum.
  unfold digits in D. cbn in D. apply andb_prop in D as [D _]. now rewrite (digit_not_minus _ D).
Qed.
Lemma print_neg_pnum n : pnum ("-"%char :: print_N n) = (RNum true (print_N n) [], Some []).
Proof.
  destruct (print_N_ok n) as (D & _ & L & _). cbn [pnum]. cbn. now apply pnum_body_digits.
Qed.

(** ** Trees and texts *)

(** The lazy tree of a printed number, string, value. *)
Definition num_raw (n : number) : raw := fst (pnum (print_number n)).
Fixpoint raw_of (v : value) : raw :=
  match v with
  | VNull => RNull
  | VBool b => RBool b
  | VNum n => num_raw n
  | VStr s => RStr (existsb must_escape s) (inr s)
  | VArr l => RArr (map raw_of l) None
  | VObj l => RObj (map (fun kv => (inr (fst kv), raw_of (snd kv))) l) None
  end.

(** A number that prints as a complete number lexeme. *)
Definition num_lex (n : number) : Prop := snd (pnum (print_number n)) = Some [].
Fixpoint printable (v : value) : Prop :=
  match v with
  | VNum n => num_lex n
  | VStr s => utf8 s = true
  | VArr l => fold_right (fun x P => printable x /\ P) True l
  | VObj l => fold_right (fun kv P => (utf8 (fst kv) = true /\ printable (snd kv)) /\ P) True l
  | _ => True
  end.
Lemma fold_and {A} (P : A -> Prop) l : fold_right (fun x Q => P x /\ Q) True l <-> Forall P l.
Proof.
  induction l; cbn; [split; auto|]. rewrite IHl. split; [intros []; auto | inversion 1; auto].
Qed.
Lemma printable_arr l : printable (VArr l) <-> Forall printable l.
Proof. apply fold_and. Qed.
Lemma printable_obj l : printable (VObj l) <->
  Forall (fun kv => utf8 (fst kv) = true /\ printable (snd kv)) l.
Proof. cbn. apply (fold_and (fun kv : bytes * value => utf8 (fst kv) = true /\ printable (snd kv))). Qed.

Lemma num_lex_int n : num_lex (PosInt n) /\ num_lex (NegInt n).
Proof. unfold num_lex. cbn [print_number]. now rewrite print_N_pnum, print_neg_pnum. Qed.

(** First characters. *)
Definition starts (f : ascii -> bool) (s : bytes) : Prop := exists c t, s = c :: t /\ f c = true.
Lemma pnum_start s r k : pnum s = (r, Some k) -> starts (fun c => Ascii.eqb c "-" || is_digit c) s.
Proof.
  unfold pnum, pnum_body, rfail. destruct s as [|c t]; [congruence|]. intros H. exists c, t. split; auto.
  destruct (c =? "-")%char; auto. cbn. destruct (is_digit c); auto. cbn in H. congruence.
Qed.
Definition num_start (c : ascii) : bool := Ascii.eqb c "-" || is_digit c.
Lemma num_start_facts c : num_start c = true ->
  is_ws c = false /\ is_quote c = false /\ Ascii.eqb c "{" = false /\ Ascii.eqb c "[" = false
  /\ Ascii.eqb c "n" = false /\ Ascii.eqb c "t" = false /\ Ascii.eqb c "f" = false
  /\ Ascii.eqb c "]" = false /\ Ascii.eqb c "}" = false.
Proof. destruct c as [[] [] [] [] [] [] [] []]; vm_compute; try congruence; repeat split. Qed.

Lemma print_start v : printable v ->
  starts (fun c => negb (is_ws c) && negb (Ascii.eqb c "]") && negb (Ascii.eqb c "}")) (print v).
Proof.
  intros W. destruct v as [|[]|n|s|l|l]; try (do 2 eexists; split; reflexivity).
  cbn in W. unfold num_lex in W. destruct (pnum (print_number n)) as [r k] eqn:E. cbn in W. subst k.
  apply pnum_start in E as (c & t & E & H). cbn [print]. exists c, t. split; auto.
  apply num_start_facts in H as (-> & _ & _ & _ & _ & _ & _ & -> & ->). reflexivity.
Qed.
Lemma print_nonempty v : printable v -> 1 <= List.length (print v).
Proof. intros W. destruct (print_start v W) as (c & t & -> & _). cbn. lia. Qed.

Lemma skip_ws_start f s : starts f s -> (forall c, f c = true -> is_ws c = false) -> forall r, skip_ws (s ++ r) = s ++ r.
Proof. intros (c & t & -> & H) K r. cbn. now rewrite (K _ H). Qed.

Definition closes (rest : bytes) : Prop := starts (fun c => Ascii.eqb c "," || Ascii.eqb c "]" || Ascii.eqb c "}") rest.
Lemma closes_follow rest : closes rest -> follow rest.
Proof.
  intros (c & t & -> & H). cbn. revert H. destruct c as [[] [] [] [] [] [] [] []]; vm_compute; try congruence; auto.
Qed.

Lemma pident_app id t : pident id (id ++ t) = inr t.
Proof. induction id; cbn; auto. now rewrite Ascii.eqb_refl. Qed.

(** The elements of a printed array or object after the first one. *)
Definition tail_arr (l : list value) : bytes := flat_map (fun v => ","%char :: print v) l ++ ["]"%char].
Definition print_member (kv : bytes * value) : bytes := print_str (fst kv) ++ B ":" ++ print (snd kv).
Definition tail_obj (l : list (bytes * value)) : bytes :=
  flat_map (fun kv => ","%char :: print_member kv) l ++ ["}"%char].
Lemma join_tail {A} (f : A -> bytes) x l e :
  join (B ",") (map f (x :: l)) ++ e = f x ++ flat_map (fun v => ","%char :: f v) l ++ e.
Proof.
  revert x; induction l as [|y l IH]; intros x; [reflexivity|].
  change (map f (x :: y :: l)) with (f x :: map f (y :: l)).
  assert (E : forall a m, m <> [] -> join (B ",") (a :: m) = a ++ B "," ++ join (B ",") m) by (intros ? []; [congruence|reflexivity]).
  rewrite E by (cbn; congruence). rewrite <- !app_assoc, IH. cbn [flat_map]. rewrite <- app_assoc. reflexivity.
Qed.
Lemma print_arr_cons x l : print (VArr (x :: l)) = "["%char :: print x ++ tail_arr l.
Proof. cbn [print]. rewrite join_tail. reflexivity. Qed.
Lemma print_obj_cons x l : print (VObj (x :: l)) = "{"%char :: print_member x ++ tail_obj l.
Proof. cbn [print]. rewrite (join_tail print_member). reflexivity. Qed.
Lemma tail_arr_closes l r : closes (tail_arr l ++ r).
Proof. destruct l; do 2 eexists; split; reflexivity. Qed.
Lemma tail_obj_closes l r : closes (tail_obj l ++ r).
Proof. destruct l; do 2 eexists; split; reflexivity. Qed.

Definition pval_ok (v : value) : Prop :=
  printable v -> forall fuel rest, follow rest -> List.length (print v) < fuel ->
  pval fuel (print v ++ rest) = (raw_of v, Some rest).

Lemma parr_tail l : Forall pval_ok l -> Forall printable l -> forall fuel rest,
  List.length (tail_arr l) < fuel ->
  parr fuel false (tail_arr l ++ rest) = (map raw_of l, None, Some rest).
Proof.
  induction l as [|v l IH]; intros HP HW fuel rest HF.
  - destruct fuel; [lia|]. reflexivity.
  - inversion HP as [|? ? P1 P2]; inversion HW as [|? ? W1 W2]; subst.
    destruct fuel as [|f]; [lia|].
    unfold tail_arr in *. cbn [flat_map] in *. fold (tail_arr l) in *.
    replace ((("," :: print v)%char ++ flat_map (fun v => ("," :: print v)%char) l) ++ ["]"%char])
      with (","%char :: print v ++ tail_arr l) in * by (unfold tail_arr; cbn; now rewrite <- app_assoc).
    cbn [List.length] in HF. rewrite app_length in HF.
    cbn [app parr skip_ws]. change (is_ws ",") with false. cbv iota.
    change (("," =? "]")%char) with false. change (("," =? ",")%char) with true. cbv iota.
    rewrite <- app_assoc.
    destruct (print_start v W1) as (c & t & E & Hc). apply andb_prop in Hc as [Hc Hc3]. apply andb_prop in Hc as [Hc1 Hc2].
    apply negb_true_iff in Hc1, Hc2, Hc3.
    assert (SW : skip_ws (print v ++ tail_arr l ++ rest) = print v ++ tail_arr l ++ rest).
    { rewrite E. cbn. now rewrite Hc1. }
    rewrite SW. replace (print v ++ tail_arr l ++ rest) with (c :: t ++ tail_arr l ++ rest) at 1 by now rewrite E.
    cbn [app]. rewrite Hc2.
    rewrite P1; auto; [|now apply closes_follow, tail_arr_closes|lia].
    rewrite IH; auto. pose proof (print_nonempty v W1). lia.
Qed.

Lemma parr_print l : Forall pval_ok l -> Forall printable l -> forall fuel rest,
  List.length (print (VArr l)) <= fuel ->
  parr fuel true (tl (print (VArr l)) ++ rest) = (map raw_of l, None, Some rest).
Proof.
  intros HP HW fuel rest HF. destruct l as [|v l].
  - cbn in *. destruct fuel; [lia|]. reflexivity.
  - inversion HP as [|? ? P1 P2]; inversion HW as [|? ? W1 W2]; subst.
    rewrite print_arr_cons in *. cbn [tl]. cbn [List.length] in HF. rewrite app_length in HF.
    assert (1 <= List.length (tail_arr l)) by (unfold tail_arr; rewrite app_length; cbn; lia).
    destruct fuel as [|f]; [lia|]. cbn [parr]. rewrite <- app_assoc.
    destruct (print_start v W1) as (c & t & E & Hc). apply andb_prop in Hc as [Hc Hc3]. apply andb_prop in Hc as [Hc1 Hc2].
    apply negb_true_iff in Hc1, Hc2, Hc3.
    assert (SW : skip_ws (print v ++ tail_arr l ++ rest) = c :: t ++ tail_arr l ++ rest).
    { rewrite E. cbn. now rewrite Hc1. }
    rewrite SW, Hc2. change (c :: t ++ tail_arr l ++ rest) with ((c :: t) ++ tail_arr l ++ rest). rewrite <- E.
    rewrite P1; auto; [|now apply closes_follow, tail_arr_closes|lia].
    rewrite parr_tail; auto. pose proof (print_nonempty v W1). lia.
Qed.

Lemma print_str_app s r : print_str s ++ r = """"%char :: esc_str s ++ """"%char :: r.
Proof. unfold print_str. cbn. now rewrite <- app_assoc. Qed.

Lemma pobj_tail l : Forall (fun kv => pval_ok (snd kv)) l ->
  Forall (fun kv => utf8 (fst kv) = true /\ printable (snd kv)) l -> forall fuel rest,
  List.length (tail_obj l) < fuel ->
  pobj fuel false (tail_obj l ++ rest) = (map (fun kv => (inr (fst kv), raw_of (snd kv))) l, None, Some rest).
Proof.
  induction l as [|[k v] l IH]; intros HP HW fuel rest HF.
  - destruct fuel; [lia|]. reflexivity.
  - inversion HP as [|? ? P1 P2]; inversion HW as [|? ? [U1 W1] W2]; subst. cbn [fst snd] in *.
    destruct fuel as [|f]; [lia|].
    assert (ET : tail_obj ((k, v) :: l) = ","%char :: print_str k ++ ":"%char :: print v ++ tail_obj l).
    { unfold tail_obj, print_member. cbn. now rewrite <- !app_assoc. }
    rewrite ET in *. cbn [List.length] in HF. rewrite app_length in HF. cbn [List.length] in HF. rewrite app_length in HF.
    assert (2 <= List.length (print_str k)) by (unfold print_str; cbn; rewrite app_length; cbn; lia).
    cbn [app]. rewrite <- app_assoc, print_str_app. cbn [app].
    cbn [pobj skip_ws]. change (is_ws ",") with false. cbv iota.
    change (("," =? "}")%char) with false. change (("," =? ",")%char) with true. cbv iota.
    cbn [skip_ws]. change (is_ws """") with false. cbv iota.
    change (("""" =? "}")%char) with false. change (is_quote """") with true. cbv iota. cbn [negb].
    rewrite pstring_print by auto. cbn [skip_ws]. change (is_ws ":") with false. cbv iota.
    change ((":" =? ":")%char) with true. cbn [negb]. rewrite <- app_assoc.
    rewrite P1; auto; [|now apply closes_follow, tail_obj_closes|lia].
    rewrite IH; auto. pose proof (print_nonempty v W1). lia.
Qed.
Lemma pobj_print l : Forall (fun kv => pval_ok (snd kv)) l ->
  Forall (fun kv => utf8 (fst kv) = true /\ printable (snd kv)) l -> forall fuel rest,
  List.length (print (VObj l)) <= fuel ->
  pobj fuel true (tl (print (VObj l)) ++ rest) = (map (fun kv => (inr (fst kv), raw_of (snd kv))) l, None, Some rest).
Proof.
  intros HP HW fuel rest HF. destruct l as [|[k v] l].
  - cbn in *. destruct fuel; [lia|]. reflexivity.
  - inversion HP as [|? ? P1 P2]; inversion HW as [|? ? [U1 W1] W2]; subst. cbn [fst snd] in *.
    rewrite print_obj_cons in *. cbn [tl]. unfold print_member in *. cbn [fst snd] in *.
    cbn [List.length] in HF. rewrite !app_length in HF. cbn [List.length] in HF.
    assert (2 <= List.length (print_str k)) by (unfold print_str; cbn; rewrite app_length; cbn; lia).
    assert (1 <= List.length (tail_obj l)) by (unfold tail_obj; rewrite app_length; cbn; lia).
    destruct fuel as [|f]; [lia|]. rewrite <- !app_assoc, print_str_app.
    cbn [pobj skip_ws]. change (is_ws """") with false. cbv iota.
    change (("""" =? "}")%char) with false. cbv iota.
    cbn [skip_ws]. change (is_ws """") with false. cbv iota. change (is_quote """") with true. cbv iota. cbn [negb].
    rewrite pstring_print by auto. cbn [skip_ws app B list_ascii_of_string]. change (is_ws ":") with false. cbv iota.
    change ((":" =? ":")%char) with true. cbn [negb].
    rewrite P1; auto; [|now apply closes_follow, tail_obj_closes|lia].
    rewrite pobj_tail; auto. pose proof (print_nonempty v W1). lia.
Qed.

Theorem pval_print v : pval_ok v.
Proof.
  induction v as [| b | n | s | l IH | l IH] using value_ind'; intros W fuel rest F HF; (destruct fuel as [|f]; [lia|]).
  - reflexivity.
  - destruct b; reflexivity.
  - cbn in W. unfold num_lex in W. cbn [print raw_of]. unfold num_raw.
    destruct (pnum (print_number n)) as [r k] eqn:E. cbn in W |- *. subst k.
    pose proof (pnum_start _ _ _ E) as (c & t & E' & Hc).
    pose proof (pnum_app _ _ _ rest E (fun _ => F)) as H. cbn [app] in H.
    rewrite E' in *. cbn [app]. cbn [skip_ws].
    change ((c =? "-")%char || is_digit c) with (num_start c) in Hc.
    pose proof (num_start_facts _ Hc) as (-> & -> & -> & -> & -> & -> & -> & _ & _).
    change ((c =? "-")%char || is_digit c) with (num_start c). rewrite Hc. exact H.
  - cbn in W. cbn [print raw_of]. rewrite print_str_app. cbn [pval skip_ws]. change (is_ws """") with false. cbv iota.
    change (is_quote """") with true. cbv iota. now rewrite pstring_print.
  - assert (E : print (VArr l) = "["%char :: tl (print (VArr l))) by reflexivity.
    rewrite E. cbn [app pval skip_ws]. change (is_ws "[") with false. cbv iota.
    change (is_quote "[") with false. change (("[" =? "{")%char) with false. change (("[" =? "[")%char) with true. cbv iota.
    rewrite parr_print; auto; [now apply printable_arr | lia].
  - assert (E : print (VObj l) = "{"%char :: tl (print (VObj l))) by reflexivity.
    rewrite E. cbn [app pval skip_ws]. change (is_ws "{") with false. cbv iota.
    change (is_quote "{") with false. change (("{" =? "{")%char) with true. cbv iota.
    rewrite pobj_print; auto; [now apply printable_obj | lia].
Qed.

Theorem parse_print v : printable v -> parse (print v) = (raw_of v, None).
Proof.
  intros W. unfold parse. pose proof (pval_print v W (S (List.length (print v) + List.length (print v))) [] I ltac:(lia)) as H.
  rewrite app_nil_r in H. rewrite H. reflexivity.
Qed.
Lemma from_json_print {A} (dec : raw -> res A) v : printable v ->
  from_json dec (print v) = dec (raw_of v).
Proof.
  intros W. unfold from_json. rewrite parse_print by auto. destruct (dec (raw_of v)); reflexivity.
Qed.
