(** When the reader meets the end of input, the text is the beginning of a JSON text. *)
From Verif.Model Require Import Prelude Utf8 Json Serde.
From Verif.Spec Require Import Codec Small Text Grammar Cut.
From Verif.Proofs Require Import Lib JsonP JsonDec CodecP TextP GrammarP SpellP Errs.

Lemma begins_now (P : bytes -> Prop) s r : P (s ++ r) -> begins P s.
Proof. intros H. exists s, [], r. rewrite app_nil_r. repeat split; auto. now left. Qed.
Lemma begins_ext (P Q : bytes -> Prop) v s : begins P s -> (forall w, P w -> exists z, Q (v ++ w ++ z)) -> begins Q (v ++ s).
Proof.
  intros (u & x & r & -> & U & H) G. destruct (G _ H) as [z Z]. exists (v ++ u), x, (r ++ z). rewrite <- !app_assoc in *. split; [auto|]. split; [|exact Z].
  destruct U as [->|(L & w & ->)]; [now left|]. right. split; auto. exists (v ++ w). now rewrite <- app_assoc.
Qed.

Definition syn (e : jerr) : Prop := e = JSyn.
Definition val_text (w : bytes) : Prop := exists a l v, ws a /\ written l v /\ w = a ++ v.
Definition str_text (w : bytes) : Prop := exists cs, Forall char_ok cs /\ w = src cs ++ B """".
Definition elems_text (w : bytes) : Prop := exists ls t, elements ls t /\ w = t ++ B "]".
Definition tail_text (w : bytes) : Prop := exists b, ws b /\ (w = b ++ B "]" \/ exists t, elems_text t /\ w = b ++ B "," ++ t).
Definition arr_text (w : bytes) : Prop := elems_text w \/ exists a, ws a /\ w = a ++ B "]".
Definition fields_text (w : bytes) : Prop := exists ms t, fields ms t /\ w = t ++ B "}".
Definition mtail_text (w : bytes) : Prop := exists b, ws b /\ (w = b ++ B "}" \/ exists t, fields_text t /\ w = b ++ B "," ++ t).
Definition obj_text (w : bytes) : Prop := fields_text w \/ exists a, ws a /\ w = a ++ B "}".

(** ** Strings *)
Lemma str_step x s : char_ok x -> begins str_text s -> begins str_text (char_src x ++ s).
Proof.
  intros O H. apply (begins_ext str_text); auto. intros w (cs & F & ->). exists []. exists (x :: cs). split; [now constructor|].
  unfold src. cbn [flat_map]. rewrite <- !app_assoc. reflexivity.
Qed.
Lemma str_nil : begins str_text [].
Proof. apply (begins_now _ _ (B """")). exists []. split; [constructor|reflexivity]. Qed.
Lemma str_bslash : begins str_text ["\"%char].
Proof. apply (begins_now _ _ (B "n""")). exists [CEsc "n"]. split; [|reflexivity]. constructor; [cbn; tauto|constructor]. Qed.
Lemma zero_hex : char_ok (CHex "0" "0" "0" "0").
Proof. exists 0%N. apply hex4_iff. reflexivity. Qed.
Lemma str_short x : List.length x < 4 -> begins str_text ("\"%char :: "u"%char :: x).
Proof.
  intros L. exists (B "\u"), x, (B "0000"""). split; [reflexivity|]. split.
  - right. split; auto. now exists [].
  - exists [CHex "0" "0" "0" "0"]. split; [|reflexivity]. constructor; [exact zero_hex|constructor].
Qed.
Lemma skip_eof s : snd (skip_str s) = inl JEof -> begins str_text s.
Proof.
  induction s as [s IH] using len_ind. destruct s as [|c t]; [intros _; exact str_nil|]. cbn [skip_str].
  assert (Step : forall x s', char_ok x -> c :: t = char_src x ++ s' -> snd (skip_str s') = inl JEof -> begins str_text (c :: t)).
  { intros x s' O E H. rewrite E. apply str_step; auto. apply IH; auto. rewrite E. destruct x; cbn; lia. }
  destruct (is_quote c) eqn:Q; [discriminate|]. destruct (is_bslash c) eqn:Bs.
  - assert (c = "\"%char) as -> by (now apply Ascii.eqb_eq).
    destruct t as [|e t1]; [intros _; exact str_bslash|]. destruct (is_some (simple_escape e)) eqn:S.
    { cbn [snd]. intros H. apply (Step (CEsc e) t1); auto. now apply simple_iff. }
    destruct ((e =? "u")%char) eqn:U; [|discriminate]. apply Ascii.eqb_eq in U. subst e.
    destruct t1 as [|a [|b [|x [|y t2]]]]; try (intros _; apply str_short; cbn; lia).
    destruct (hex4 a b x y) as [n|] eqn:X; cbn [is_some]; [|discriminate]. cbn [snd]. intros H.
    apply (Step (CHex a b x y) t2); auto. exists n. now apply hex4_iff.
  - destruct (is_ctrl c) eqn:Ct; [discriminate|]. intros H. apply (Step (CPlain c) t); auto. now apply plain_iff.
Qed.
Lemma rcons_eof x r : rcons x r = inl JEof -> r = inl JEof.
Proof. destruct r; cbn; congruence. Qed.
Lemma read_eof s : read_str s = inl JEof -> begins str_text s.
Proof.
  induction s as [s IH] using len_ind. destruct s as [|c t]; [intros _; exact str_nil|]. cbn [read_str].
  assert (Step : forall x s', char_ok x -> c :: t = char_src x ++ s' -> read_str s' = inl JEof -> begins str_text (c :: t)).
  { intros x s' O E H. rewrite E. apply str_step; auto. apply IH; auto. rewrite E. destruct x; cbn; lia. }
  destruct (is_quote c) eqn:Q; [discriminate|]. destruct (is_bslash c) eqn:Bs.
  - assert (c = "\"%char) as -> by (now apply Ascii.eqb_eq).
    destruct t as [|e t1]; [intros _; exact str_bslash|]. destruct (simple_escape e) eqn:S.
    { intros H. apply rcons_eof in H. apply (Step (CEsc e) t1); auto. cbn. apply simple_iff. now rewrite S. }
    destruct ((e =? "u")%char) eqn:U; [|discriminate]. apply Ascii.eqb_eq in U. subst e.
    destruct t1 as [|a [|b [|x [|y t2]]]]; try (intros _; apply str_short; cbn; lia).
    destruct (hex4 a b x y) as [n|] eqn:X; [|discriminate].
    assert (O : char_ok (CHex a b x y)) by (exists n; now apply hex4_iff).
    destruct (_ && _)%bool; [discriminate|]. destruct (_ && _)%bool.
    2:{ intros H. apply rcons_eof in H. now apply (Step (CHex a b x y) t2). }
    assert (Step2 : begins str_text t2 -> begins str_text ("\"%char :: "u"%char :: a :: b :: x :: y :: t2)) by (intros H; now apply (str_step (CHex a b x y))).
    destruct t2 as [|p t3]; [intros _; apply Step2, str_nil|]. destruct (is_bslash p) eqn:P; cbn [negb]; [|discriminate].
    assert (p = "\"%char) as -> by (now apply Ascii.eqb_eq).
    destruct t3 as [|q t4]; [intros _; apply Step2, str_bslash|]. destruct ((q =? "u")%char) eqn:U; cbn [negb]; [|discriminate]. apply Ascii.eqb_eq in U. subst q.
    destruct t4 as [|a' [|b' [|x' [|y' t5]]]]; try (intros _; apply Step2, str_short; cbn; lia).
    destruct (hex4 a' b' x' y') as [m|] eqn:X'; [|discriminate]. destruct (_ && _)%bool; [|discriminate].
    intros H. apply rcons_eof in H. apply Step2. apply (str_step (CHex a' b' x' y')); [exists m; now apply hex4_iff|]. apply IH; auto. cbn. lia.
  - destruct (is_ctrl c) eqn:Ct; [discriminate|]. intros H. apply rcons_eof in H. apply (Step (CPlain c) t); auto. now apply plain_iff.
Qed.
Lemma pstring_eof s esc rd sk : pstring s = (esc, rd, sk) -> (clean_rd syn rd /\ clean_rd syn sk) \/ begins str_text s.
Proof.
  unfold pstring. destruct (skip_str s) as [e k] eqn:K. injection 1 as <- <- <-.
  destruct k as [[]|k].
  - right. apply skip_eof. now rewrite K.
  - destruct (read_utf8 s) as [[]|x] eqn:R; [|left; split; reflexivity|left; split; reflexivity].
    right. apply read_eof. unfold read_utf8 in R. destruct (read_str s) as [|y]; [congruence|]. destruct (utf8 y); discriminate.
  - destruct (read_utf8 s) as [[]|x] eqn:R; [|left; split; reflexivity|left; split; reflexivity].
    right. apply read_eof. unfold read_utf8 in R. destruct (read_str s) as [|y]; [congruence|]. destruct (utf8 y); discriminate.
Qed.

(** ** Numbers *)
Lemma psign_spec s sg s1 : psign s = (sg, s1) -> s = sg ++ s1 /\ (s1 = [] -> psign (s ++ B "0") = (sg, B "0")).
Proof.
  destruct s as [|c t]; cbn.
  - injection 1 as <- <-. auto.
  - destruct ((c =? "+") || (c =? "-"))%char; injection 1 as <- <-; split; auto; [|discriminate]. intros ->. reflexivity.
Qed.
Lemma pexp_eof s : pexp s = inl JEof -> exists x, pexp (s ++ B "0") = inr (x, []).
Proof.
  unfold pexp. destruct (psign s) as [sg s1] eqn:P. apply psign_spec in P as [-> P]. destruct s1 as [|c s1].
  - intros _. rewrite (P eq_refl). eexists. reflexivity.
  - destruct (span_digits (c :: s1)) as [[|]]; discriminate.
Qed.
Lemma popt_exp_eof s acc : popt_exp s acc = inl JEof -> exists x, popt_exp (s ++ B "0") acc = inr (x, []).
Proof.
  destruct s as [|c t]; [discriminate|]. cbn. destruct ((c =? "e") || (c =? "E"))%char; [|discriminate].
  destruct (pexp t) as [[]|[]] eqn:P; try discriminate. intros _. apply pexp_eof in P as [x P]. change (B "0") with ["0"%char] in P. rewrite P. eexists. reflexivity.
Qed.
Lemma popt_exp_head s acc : popt_exp s acc = inl JEof -> exists c t, s = c :: t /\ is_digit c = false.
Proof.
  destruct s as [|c t]; [discriminate|]. cbn. destruct ((c =? "e") || (c =? "E"))%char eqn:E; [|discriminate]. intros _. exists c, t. split; auto.
  apply orb_prop in E as [E|E]; apply Ascii.eqb_eq in E; subst; reflexivity.
Qed.
Lemma pfe_eof s : pfe s = inl JEof -> (exists x, pfe (s ++ B "0") = inr (x, [])) /\ exists c t, s = c :: t /\ is_digit c = false.
Proof.
  destruct s as [|c t]; [discriminate|]. cbn. destruct ((c =? ".")%char) eqn:E.
  - apply Ascii.eqb_eq in E. subst. change ["0"%char] with (B "0"). intros H. split; [|do 2 eexists; split; reflexivity]. unfold pfrac in *. destruct t as [|d t]; [eexists; reflexivity|].
    cbn [app]. destruct (span_digits (d :: t)) as [[|x ds] r] eqn:S; [discriminate|].
    destruct (popt_exp_head _ _ H) as (c' & t' & -> & D). apply popt_exp_eof in H as [y H]. apply span_digits_spec in S as (E & D1 & _).
    change (d :: t ++ B "0") with ((d :: t) ++ B "0"). rewrite E, <- app_assoc, span_digits_app by auto. rewrite H. eauto.
  - intros H. split; [exact (popt_exp_eof (c :: t) [] H)|exact (popt_exp_head (c :: t) [] H)].
Qed.
Lemma pnum_body_eof neg s : fst (pnum_body neg s) = RErr JEof JEof -> exists r, pnum_body neg (s ++ B "0") = (r, Some []).
Proof.
  unfold pnum_body, rfail. destruct s as [|c t]; [intros _; eexists; reflexivity|]. cbn [app]. destruct (is_digit c) eqn:D; [|discriminate]. cbn [negb].
  destruct ((c =? "0")%char).
  - destruct t as [|d t]; [discriminate|]. cbn [app]. destruct (is_digit d) eqn:D1; [discriminate|]. destruct (pfe (d :: t)) as [[]|[]] eqn:P; try discriminate.
    intros _. apply pfe_eof in P as [[x P] _]. cbn [app] in P. rewrite P. eauto.
  - destruct (span_digits (c :: t)) as [ds r] eqn:S. destruct (pfe r) as [[]|[]] eqn:P; try discriminate. intros _.
    apply pfe_eof in P as [[x P] (c' & t' & -> & D')]. apply span_digits_spec in S as (E & D1 & _).
    change (c :: t ++ B "0") with ((c :: t) ++ B "0"). rewrite E, <- app_assoc, span_digits_app by auto. rewrite P. eauto.
Qed.
Lemma pnum_eof s : fst (pnum s) = RErr JEof JEof -> exists r, pnum (s ++ B "0") = (r, Some []).
Proof.
  destruct s as [|c t]; [intros _; eexists; reflexivity|]. cbn. destruct ((c =? "-")%char); [apply pnum_body_eof|apply (pnum_body_eof false (c :: t))].
Qed.
Lemma pnum_kinds s : clean syn (fst (pnum s)) \/ fst (pnum s) = RErr JEof JEof.
Proof.
  assert (X : forall neg s, clean syn (fst (pnum_body neg s)) \/ fst (pnum_body neg s) = RErr JEof JEof).
  { intros neg t. unfold pnum_body, rfail. destruct t as [|c t]; [now right|]. destruct (negb _); [left; split; reflexivity|].
    destruct (Ascii.eqb _ _).
    - destruct t as [|d t]; [left; exact I|]. destruct (is_digit d); [left; split; reflexivity|]. destruct (pfe (d :: t)) as [[]|[]]; [now right|left; split; reflexivity|left; exact I].
    - destruct (span_digits (c :: t)) as [ds r]. destruct (pfe r) as [[]|[]]; [now right|left; split; reflexivity|left; exact I]. }
  destruct s as [|c t]; [now right|]. unfold pnum. destruct (Ascii.eqb c "-"); apply X.
Qed.
Lemma pident_eof id s : pident id s = inl JEof -> exists r, id = s ++ r.
Proof.
  revert s; induction id as [|x id IH]; intros s; cbn; [discriminate|]. destruct s as [|c t]; [intros _; now exists (x :: id)|].
  destruct ((c =? x)%char) eqn:E; [|discriminate]. intros H. apply Ascii.eqb_eq in E. subst. destruct (IH t H) as [r ->]. now exists r.
Qed.

(** ** Texts that are JSON *)
Lemma rcons_clean x r : clean_rd syn r -> clean_rd syn (rcons x r).
Proof. destruct r; auto. Qed.
Lemma rd_syn cs : Forall char_ok cs -> clean_rd syn (rd_chars cs).
Proof.
  unfold rd_chars. change (B """") with [""""%char].
  induction cs as [cs IH] using len_ind. intros F. destruct F as [|x cs O F]; [exact I|].
  unfold src. cbn [flat_map]. fold (src cs). rewrite <- !app_assoc.
  assert (R : clean_rd syn (read_str (src cs ++ [""""%char]))) by (apply IH; auto; cbn; lia).
  destruct x as [c|e|a b c d].
  - cbn [char_src app]. rewrite read_plain by auto. now apply rcons_clean.
  - cbn [char_ok] in O. apply simple_iff in O. destruct (simple_escape e) as [y|] eqn:E; [|discriminate].
    rewrite !(read_esc _ _ _ E). now apply rcons_clean.
  - destruct O as (n & O). apply hex4_iff in O. rewrite !(read_hex _ _ _ _ _ _ O).
    destruct ((56320 <=? n) && (n <=? 57343))%N; [reflexivity|]. destruct ((55296 <=? n) && (n <=? 56319))%N; [|now apply rcons_clean].
    destruct F as [|x' cs O' F]; [reflexivity|].
    unfold src. cbn [flat_map]. fold (src cs). rewrite <- !app_assoc.
    assert (R' : clean_rd syn (read_str (src cs ++ [""""%char]))) by (apply IH; auto; cbn; lia).
    destruct x' as [p|e|a' b' c' d']; cbn [char_src app].
    + apply plain_iff in O' as (_ & Bs & _). rewrite Bs. reflexivity.
    + change (is_bslash "\") with true. cbn [negb]. apply simple_iff in O'. destruct (simple_escape e) as [y|] eqn:E; [|discriminate].
      rewrite (simple_not_u _ _ E). reflexivity.
    + change (is_bslash "\") with true. change (("u" =? "u")%char) with true. cbn [negb].
      destruct O' as (m & O'). apply hex4_iff in O'. rewrite O'. destruct (_ && _)%bool; [now apply rcons_clean|reflexivity].
Qed.
Lemma clean_lex l : lex_ok l -> clean syn (raw_lex l).
Proof.
  assert (R : forall cs, Forall char_ok cs -> clean_rd syn (rd_utf8 cs)).
  { intros cs O. pose proof (rd_syn cs O) as X. unfold rd_utf8. destruct (rd_chars cs); auto. destruct (utf8 _); [exact I|reflexivity]. }
  induction l as [|x|n i f|cs|ls IH|ms IH] using lex_ind'; cbn [raw_lex]; try (intros; exact I); cbn [lex_ok]; intros O.
  - cbn. auto.
  - apply fold_and in O. apply clean_arr. split; [|exact I]. induction IH; inversion O; subst; constructor; auto.
  - apply (fold_and (fun m : list schar * lex => Forall char_ok (fst m) /\ lex_ok (snd m))) in O. apply clean_obj. split; [|exact I].
    induction IH; inversion O; subst; constructor; auto. destruct H2. split; cbn; auto.
Qed.

(** ** Values *)
Lemma ws_app a b : ws a -> ws b -> ws (a ++ b).
Proof. intros. apply Forall_app. auto. Qed.
Lemma w_nul : written LNull (B "null"). Proof. constructor. Qed.
Definition cl_arr (rs : list raw) (tl : option jerr) : Prop := Forall (clean syn) rs /\ clean_tl syn tl.
Definition cl_obj (ms : list ((jerr + bytes) * raw)) (tl : option jerr) : Prop := Forall (cmem syn) ms /\ clean_tl syn tl.
Lemma val_clean s r k : val_sound s r k -> clean syn r.
Proof. intros (a & l & u & _ & W & _ & ->). apply clean_lex. apply (spells_ok l u). exists [], u, []. rewrite app_nil_r. repeat split; auto using ws_nil. Qed.
Lemma lead_val a w : ws a -> val_text w -> val_text (a ++ w).
Proof. intros A (b & l & v & B0 & W & ->). exists (a ++ b), l, v. rewrite <- app_assoc. auto using ws_app. Qed.
Lemma lead_elems a w : ws a -> elems_text w -> elems_text (a ++ w).
Proof.
  intros A (ls & t & H & ->). exists ls, (a ++ t). rewrite <- app_assoc. split; auto.
  destruct H as [b l s c B0 W C|b l s c ls t B0 W C H]; rewrite !app_assoc, <- (app_assoc (a ++ b)), <- ?app_assoc; rewrite app_assoc; constructor; auto using ws_app.
Qed.
Lemma lead_fields a w : ws a -> fields_text w -> fields_text (a ++ w).
Proof.
  intros A (ls & t & H & ->). exists ls, (a ++ t). rewrite <- app_assoc. split; auto.
  destruct H; rewrite (app_assoc a); constructor; auto using ws_app.
Qed.
Lemma nul_val : val_text (B "null").
Proof. exists [], LNull, (B "null"). auto using ws_nil, w_nul. Qed.
Lemma val_elems w : val_text w -> elems_text (w ++ B "]").
Proof. intros (a & l & v & A & W & ->). exists [l], (a ++ v ++ []). split; [constructor; auto using ws_nil|]. now rewrite app_nil_r. Qed.
Lemma elem_eof f s rs tl k :
  (forall s r k, pval f s = (r, k) -> clean syn r \/ begins val_text s) ->
  (forall s rs tl k, parr f false s = (rs, tl, k) -> cl_arr rs tl \/ begins tail_text s) ->
  elem_of f s = (rs, tl, k) -> cl_arr rs tl \/ begins elems_text s.
Proof.
  intros HV HT. unfold elem_of. destruct (pval f s) as [r [k'|]] eqn:P.
  - apply (proj1 (sound_all f)) in P. pose proof (val_clean _ _ _ P) as Cl. destruct (parr f false k') as [[l tl'] k2] eqn:Q. injection 1 as <- <- <-.
    destruct (HT _ _ _ _ Q) as [[H1 H2]|H]; [left; split; auto|]. right. destruct P as (a & l' & u & A & W & -> & _).
    rewrite app_assoc. apply (begins_ext tail_text); auto. intros w (b & B0 & [->|(t & (ls & t' & E & ->) & ->)]); exists []; rewrite app_nil_r.
    + exists [l'], (a ++ u ++ b). split; [now constructor|]. now rewrite <- !app_assoc.
    + exists (l' :: ls), (a ++ u ++ b ++ B "," ++ t'). split; [now constructor|]. now rewrite <- !app_assoc.
  - injection 1 as <- <- <-. destruct (HV _ _ _ P) as [H|H]; [left; split; [now constructor|reflexivity]|]. right.
    apply (begins_ext val_text elems_text [] s H). intros w V. exists (B "]"). now apply val_elems.
Qed.
Lemma key_val k b c w : Forall char_ok k -> ws b -> ws c -> val_text w -> fields_text (quoted k ++ b ++ B ":" ++ c ++ w ++ B "}").
Proof.
  intros K B0 C (a & l & v & A & W & ->). exists [(k, l)], ([] ++ quoted k ++ b ++ B ":" ++ (c ++ a) ++ v ++ []).
  split; [constructor; auto using ws_nil, ws_app|]. rewrite app_nil_r. now rewrite <- !app_assoc.
Qed.
Lemma member_eof f s rs tl k :
  (forall s r k, pval f s = (r, k) -> clean syn r \/ begins val_text s) ->
  (forall s rs tl k, pobj f false s = (rs, tl, k) -> cl_obj rs tl \/ begins mtail_text s) ->
  member_of f s = (rs, tl, k) -> cl_obj rs tl \/ begins fields_text s.
Proof.
  intros HV HT. unfold member_of. destruct (skip_ws_spec s) as (a & E & A & _). destruct (skip_ws s) as [|q t'].
  { intros _. right. rewrite E, app_nil_r. apply (begins_now _ _ (B """"":null}")). apply lead_fields; auto.
    apply (key_val [] [] [] (B "null")); auto using ws_nil, nul_val. }
  destruct (is_quote q) eqn:Q; cbn [negb]; [|injection 1 as <- <- <-; left; split; [constructor|reflexivity]].
  apply Ascii.eqb_eq in Q. subst q. destruct (pstring t') as [[esc rd] sk] eqn:P.
  assert (L : begins fields_text ([""""%char] ++ t') -> begins fields_text s).
  { intros H. rewrite E. apply (begins_ext fields_text); auto. intros w F. exists []. rewrite app_nil_r. now apply lead_fields. }
  destruct (pstring_eof _ _ _ _ P) as [[C1 C2]|H].
  2:{ intros _. right. apply L. apply (begins_ext str_text); auto. intros w (cs & F & ->). exists (B ":null}").
      replace ([""""%char] ++ (src cs ++ B """") ++ B ":null}") with (quoted cs ++ [] ++ B ":" ++ [] ++ B "null" ++ B "}").
      - apply key_val; auto using ws_nil, nul_val.
      - unfold quoted, src. rewrite <- !app_assoc. reflexivity. }
  destruct sk as [e|r].
  { injection 1 as <- <- <-. cbn in C2. hnf in C2. subst e. left. split; [constructor; [|constructor]|reflexivity]. split; [|split; reflexivity].
    destruct rd as [[]|]; cbn in *; auto; reflexivity. }
  apply pstring_sound in P as (cs & O & -> & -> & ->).
  assert (L2 : forall r', begins fields_text ((quoted cs) ++ r') -> begins fields_text ([""""%char] ++ src cs ++ """"%char :: r')).
  { intros r'. rewrite quoted_app. auto. }
  destruct (skip_ws_spec r) as (b & Eb & B0 & _). destruct (skip_ws r) as [|d r'].
  { intros _. right. apply L, L2. rewrite Eb, app_nil_r. apply (begins_now _ _ (B ":null}")). rewrite <- app_assoc.
    apply (key_val cs b [] (B "null")); auto using ws_nil, nul_val. }
  destruct ((d =? ":")%char) eqn:K; cbn [negb]; [|injection 1 as <- <- <-; left; split; [constructor; [split; [auto|split; reflexivity]|constructor]|reflexivity]].
  apply Ascii.eqb_eq in K. subst d.
  destruct (pval f r') as [v [k'|]] eqn:PV.
  - apply (proj1 (sound_all f)) in PV. pose proof (val_clean _ _ _ PV) as Cl. destruct (pobj f false k') as [[l tl'] k2] eqn:QO. injection 1 as <- <- <-.
    destruct (HT _ _ _ _ QO) as [[H1 H2]|H]; [left; split; auto; constructor; [split; auto|auto]|]. right. apply L, L2. destruct PV as (c & l' & u & C & W & -> & _).
    rewrite Eb. replace (quoted cs ++ b ++ ":"%char :: c ++ u ++ k') with ((quoted cs ++ b ++ B ":" ++ c ++ u) ++ k') by (rewrite <- !app_assoc; reflexivity).
    apply (begins_ext mtail_text); auto. intros w (x & X & [->|(t & (ls & t' & Ef & ->) & ->)]); exists []; rewrite app_nil_r.
    + exists [(cs, l')], ([] ++ quoted cs ++ b ++ B ":" ++ c ++ u ++ x). split; [constructor; auto using ws_nil|]. cbn [app]. now rewrite <- !app_assoc.
    + exists ((cs, l') :: ls), ([] ++ quoted cs ++ b ++ B ":" ++ c ++ u ++ x ++ B "," ++ t'). split; [constructor; auto using ws_nil|]. cbn [app]. now rewrite <- !app_assoc.
  - injection 1 as <- <- <-. destruct (HV _ _ _ PV) as [H|H]; [left; split; [constructor; [split; auto|constructor]|reflexivity]|]. right. apply L, L2.
    rewrite Eb. replace (quoted cs ++ b ++ ":"%char :: r') with ((quoted cs ++ b ++ B ":") ++ r') by (rewrite <- !app_assoc; reflexivity).
    apply (begins_ext val_text); auto. intros w V. exists (B "}"). pose proof (key_val cs b [] w O B0 ws_nil V) as X. rewrite <- !app_assoc. exact X.
Qed.
Lemma eof_all f :
  (forall s r k, pval f s = (r, k) -> clean syn r \/ begins val_text s)
  /\ (forall s rs tl k, parr f true s = (rs, tl, k) -> cl_arr rs tl \/ begins arr_text s)
  /\ (forall s rs tl k, parr f false s = (rs, tl, k) -> cl_arr rs tl \/ begins tail_text s)
  /\ (forall s rs tl k, pobj f true s = (rs, tl, k) -> cl_obj rs tl \/ begins obj_text s)
  /\ (forall s rs tl k, pobj f false s = (rs, tl, k) -> cl_obj rs tl \/ begins mtail_text s).
Proof.
  induction f as [|f (HV & HA & HT & HO & HM)].
  { unfold rfail. split; [|split; [|split; [|split]]]; intros; left; cbn in H; unfold rfail in H; injection H as <- <-; subst; repeat split; constructor. }
  split; [|split; [|split; [|split]]].
  - intros s r k. cbn [pval]. destruct (skip_ws_spec s) as (a & E & A & _). destruct (skip_ws s) as [|c t] eqn:SK.
    { intros _. right. rewrite E, app_nil_r. apply (begins_now _ _ (B "null")). apply lead_val; auto using nul_val. }
    assert (Go : begins val_text (c :: t) -> begins val_text s).
    { intros H. rewrite E. apply (begins_ext val_text); auto. intros w V. exists []. rewrite app_nil_r. now apply lead_val. }
    assert (Val : forall l u, written l u -> val_text u) by (intros l u W; exists [], l, u; auto using ws_nil).
    assert (Id : forall x ch id l, written l (ch :: id) -> pident id t = inl x -> c = ch -> clean syn (fst (rfail x)) \/ begins val_text s).
    { intros x ch id l W P ->. destruct x; [|left; split; reflexivity]. right. apply Go. apply pident_eof in P as (r' & ->).
      apply (begins_now _ _ r'). now apply (Val l). }
    destruct (is_quote c) eqn:Q.
    { apply Ascii.eqb_eq in Q. subst c. destruct (pstring t) as [[esc rd] sk] eqn:P. destruct (pstring_eof _ _ _ _ P) as [[C1 C2]|H].
      - left. destruct sk as [e|r']; injection H as <- <-; [|exact C1]. cbn in C2. hnf in C2. subst e. split; [|reflexivity].
        destruct rd as [[]|]; cbn in *; auto; reflexivity.
      - intros _. right. apply Go. apply (begins_ext str_text _ [""""%char]); auto. intros w (cs & F & ->). exists []. rewrite app_nil_r. apply (Val (LStr cs)). now constructor. }
    destruct ((c =? "{")%char) eqn:K1.
    { apply Ascii.eqb_eq in K1. subst c. destruct (pobj f true t) as [[l tl] k'] eqn:P. injection 1 as <- <-.
      destruct (HO _ _ _ _ P) as [H|H]; [left; now apply clean_obj|]. right. apply Go. apply (begins_ext obj_text _ (B "{")); auto.
      intros w [(ms & u & F & ->)|(b & B0 & ->)]; exists []; rewrite app_nil_r; [exact (Val _ _ (w_obj _ _ F))|exact (Val _ _ (w_obj0 _ B0))]. }
    destruct ((c =? "[")%char) eqn:K2.
    { apply Ascii.eqb_eq in K2. subst c. destruct (parr f true t) as [[l tl] k'] eqn:P. injection 1 as <- <-.
      destruct (HA _ _ _ _ P) as [H|H]; [left; now apply clean_arr|]. right. apply Go. apply (begins_ext arr_text _ (B "[")); auto.
      intros w [(ms & u & F & ->)|(b & B0 & ->)]; exists []; rewrite app_nil_r; [exact (Val _ _ (w_arr _ _ F))|exact (Val _ _ (w_arr0 _ B0))]. }
    destruct ((c =? "n")%char) eqn:K3.
    { apply Ascii.eqb_eq in K3. destruct (pident (B "ull") t) eqn:P; injection 1 as <- <-; [|left; exact I]. apply (Id _ _ _ _ w_nul P K3). }
    destruct ((c =? "t")%char) eqn:K4.
    { apply Ascii.eqb_eq in K4. destruct (pident (B "rue") t) eqn:P; injection 1 as <- <-; [|left; exact I]. apply (Id _ _ _ _ w_true P K4). }
    destruct ((c =? "f")%char) eqn:K5.
    { apply Ascii.eqb_eq in K5. destruct (pident (B "alse") t) eqn:P; injection 1 as <- <-; [|left; exact I]. apply (Id _ _ _ _ w_false P K5). }
    destruct ((c =? "-")%char || is_digit c); [|injection 1 as <- <-; left; split; reflexivity].
    intros P. destruct (pnum_kinds (c :: t)) as [H|H]; rewrite P in H; [now left|]. right. apply Go. apply (begins_now _ _ (B "0")).
    assert (H0 : fst (pnum (c :: t)) = RErr JEof JEof) by (rewrite P; exact H). apply pnum_eof in H0 as (r2 & H0).
    apply pnum_inv in H0 as (neg & i & fr & e & -> & E' & J & Fr & Ex). rewrite app_nil_r in E'. rewrite E'.
    apply (Val (LNum neg i (fr ++ e))). now constructor.
  - intros s rs tl k. rewrite parr_S. destruct (skip_ws_spec s) as (a & E & A & _). destruct (skip_ws s) as [|c t] eqn:SK.
    { intros _. right. rewrite E, app_nil_r. apply (begins_now _ _ (B "]")). right. eauto. }
    destruct ((c =? "]")%char) eqn:K1; [injection 1 as <- <- <-; left; split; [constructor|exact I]|].
    intros H. destruct (elem_eof _ _ _ _ _ HV HT H) as [H1|H1]; auto. right. rewrite E. apply (begins_ext elems_text); auto.
    intros w W. exists []. rewrite app_nil_r. left. now apply lead_elems.
  - intros s rs tl k. rewrite parr_S. destruct (skip_ws_spec s) as (a & E & A & _). destruct (skip_ws s) as [|c t] eqn:SK.
    { intros _. right. rewrite E, app_nil_r. apply (begins_now _ _ (B "]")). exists a. auto. }
    destruct ((c =? "]")%char) eqn:K1; [injection 1 as <- <- <-; left; split; [constructor|exact I]|].
    destruct ((c =? ",")%char) eqn:K2; [|injection 1 as <- <- <-; left; split; [constructor|reflexivity]]. apply Ascii.eqb_eq in K2. subst c.
    assert (Go : begins elems_text t -> begins tail_text s).
    { intros H. rewrite E. change (","%char :: t) with (B "," ++ t). rewrite app_assoc. apply (begins_ext elems_text); auto. intros w W. exists []. rewrite app_nil_r.
      exists a. split; auto. right. exists w. split; auto. now rewrite <- app_assoc. }
    destruct (skip_ws_spec t) as (b & Eb & B0 & _). destruct (skip_ws t) as [|d t'] eqn:SK'.
    { intros _. right. apply Go. rewrite Eb, app_nil_r. apply (begins_now _ _ (B "null" ++ B "]")). apply lead_elems, val_elems; auto using nul_val. }
    destruct ((d =? "]")%char); [injection 1 as <- <- <-; left; split; [constructor|reflexivity]|].
    intros H. destruct (elem_eof _ _ _ _ _ HV HT H) as [H1|H1]; auto.
  - intros s rs tl k. rewrite pobj_S. destruct (skip_ws_spec s) as (a & E & A & _). destruct (skip_ws s) as [|c t] eqn:SK.
    { intros _. right. rewrite E, app_nil_r. apply (begins_now _ _ (B "}")). right. eauto. }
    destruct ((c =? "}")%char) eqn:K1; [injection 1 as <- <- <-; left; split; [constructor|exact I]|].
    intros H. destruct (member_eof _ _ _ _ _ HV HM H) as [H1|H1]; auto. right. rewrite E. apply (begins_ext fields_text); auto.
    intros w W. exists []. rewrite app_nil_r. left. now apply lead_fields.
  - intros s rs tl k. rewrite pobj_S. destruct (skip_ws_spec s) as (a & E & A & _). destruct (skip_ws s) as [|c t] eqn:SK.
    { intros _. right. rewrite E, app_nil_r. apply (begins_now _ _ (B "}")). exists a. auto. }
    destruct ((c =? "}")%char) eqn:K1; [injection 1 as <- <- <-; left; split; [constructor|exact I]|].
    destruct ((c =? ",")%char) eqn:K2; [|injection 1 as <- <- <-; left; split; [constructor|reflexivity]]. apply Ascii.eqb_eq in K2. subst c.
    assert (Go : begins fields_text t -> begins mtail_text s).
    { intros H. rewrite E. change (","%char :: t) with (B "," ++ t). rewrite app_assoc. apply (begins_ext fields_text); auto. intros w W. exists []. rewrite app_nil_r.
      exists a. split; auto. right. exists w. split; auto. now rewrite <- app_assoc. }
    destruct (skip_ws_spec t) as (b & Eb & B0 & _). destruct (skip_ws t) as [|d t'] eqn:SK'.
    { intros _. right. apply Go. rewrite Eb, app_nil_r. apply (begins_now _ _ (B """"":null}")). apply lead_fields; auto.
      apply (key_val [] [] [] (B "null")); auto using ws_nil, nul_val. }
    destruct ((d =? "}")%char); [injection 1 as <- <- <-; left; split; [constructor|reflexivity]|].
    intros H. destruct (member_eof _ _ _ _ _ HV HM H) as [H1|H1]; auto.
Qed.
Lemma parse_eof t r e : parse t = (r, e) -> clean syn r /\ e <> Some JEof \/ begins json_syntax t.
Proof.
  unfold parse. destruct (pval _ t) as [r' k] eqn:P. intros H. assert (r = r' /\ e <> Some JEof) as [-> N].
  { destruct k as [k|]; [destruct (skip_ws k)|]; injection H as <- <-; split; congruence. }
  destruct (proj1 (eof_all _) _ _ _ P) as [C|C]; auto. right. apply (begins_ext val_text _ []); auto. intros w (a & l & v & A & W & ->).
  exists []. rewrite app_nil_r. exists l, a, v, []. rewrite app_nil_r. auto using ws_nil.
Qed.

(** Reading JSON never ends with InvalidState. *)
Lemma read_malformed {A} (dec : raw -> res A) t k : (forall r, clean syn r -> errs (fun k => k = Malformed) (dec r)) ->
  from_json dec t = Err k -> json_syntax t -> k = Malformed.
Proof.
  intros H E (l & S). rewrite (from_json_lex dec l t S) in E. specialize (H _ (clean_lex l (spells_ok _ _ S))). rewrite E in H. exact H.
Qed.
Lemma syn_kind : forall e, syn e -> (fun k => k = Malformed) (jkind e).
Proof. intros e ->. reflexivity. Qed.
Lemma json_cut {A} (dec : raw -> res A) t : (forall r, clean syn r -> errs (fun k => k = Malformed) (dec r)) -> errs json_kind (from_json dec t) ->
  forall k, from_json dec t = Err k -> k = Malformed \/ k = InvalidState /\ cut_off t.
Proof.
  intros H J k E. rewrite E in J. destruct J as [->| ->]; auto. right. split; auto. split; [intros S; discriminate (read_malformed dec t _ H E S)|].
  unfold from_json in E. destruct (parse t) as [r e] eqn:P. destruct (parse_eof _ _ _ P) as [[C N]|X]; auto. exfalso. specialize (H r C).
  destruct (dec r) as [x|k|]; cbn in E; [|injection E as ->; discriminate H|discriminate]. destruct e as [[]|]; try discriminate. now apply N.
Qed.

