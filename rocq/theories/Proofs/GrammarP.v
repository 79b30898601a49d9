(** The parser accepts exactly the JSON grammar. *)
From Verif.Model Require Import Prelude Utf8 Json.
From Verif.Spec Require Import Codec Small Text Grammar.
From Verif.Proofs Require Import Lib JsonP JsonDec CodecP TextP.

(** ** White space *)
Lemma ws_iff s : ws s <-> forallb is_ws s = true.
Proof.
  unfold ws. rewrite forallb_forall, Forall_forall.
  assert (K : forall c, In c [" "%char; ascii_of_nat 9; ascii_of_nat 10; ascii_of_nat 13] <-> is_ws c = true).
  { intros c. destruct c as [[] [] [] [] [] [] [] []]; vm_compute; split; intros H; try congruence; try tauto;
      repeat (destruct H as [H|H]; try discriminate); auto 20. }
  split; intros H c I; apply K; auto.
Qed.
Lemma skip_ws_app a s : ws a -> skip_ws (a ++ s) = skip_ws s.
Proof.
  intros W. apply ws_iff in W. induction a as [|c a IH]; [reflexivity|]. cbn in W. apply andb_prop in W as [W1 W2].
  cbn. rewrite W1. auto.
Qed.
Lemma skip_ws_spec s : exists a, s = a ++ skip_ws s /\ ws a /\ match skip_ws s with c :: _ => is_ws c = false | [] => True end.
Proof.
  induction s as [|c s (a & E & W & F)].
  - exists []. repeat split. constructor.
  - cbn. destruct (is_ws c) eqn:K.
    + exists (c :: a). rewrite E at 1. repeat split; auto. apply ws_iff. cbn. rewrite K. now apply ws_iff.
    + exists []. repeat split; auto. constructor.
Qed.
Lemma skip_ws_idem s : skip_ws (skip_ws s) = skip_ws s.
Proof. destruct (skip_ws_spec s) as (a & E & W & F). destruct (skip_ws s) as [|c t]; auto. cbn. now rewrite F. Qed.
Lemma pval_ws f s : pval f (skip_ws s) = pval f s.
Proof. destruct f; [reflexivity|]. cbn [pval]. now rewrite skip_ws_idem. Qed.
Lemma skip_ws_nil s : skip_ws s = [] -> ws s.
Proof. intros H. destruct (skip_ws_spec s) as (a & E & W & _). rewrite H, app_nil_r in E. now subst. Qed.
Lemma ws_skip s : ws s -> skip_ws s = [].
Proof. intros W. rewrite <- (app_nil_r s). now rewrite skip_ws_app. Qed.
Lemma ws_nil : ws []. Proof. constructor. Qed.
Lemma ws_follow b c r : ws b -> In c [","; "]"; "}"]%char -> follow (b ++ c :: r).
Proof.
  intros W I. destruct b as [|x b]; cbn [app].
  - apply closes_follow. exists c, r. split; auto. cbn in I. destruct I as [<-|[<-|[<-|[]]]]; reflexivity.
  - apply ws_iff in W. cbn in W. apply andb_prop in W as [W _]. cbn. revert W.
    destruct x as [[] [] [] [] [] [] [] []]; vm_compute; try congruence; auto.
Qed.
Lemma ws_follow_nil b : ws b -> follow b.
Proof.
  intros W. destruct b as [|x b]; cbn; auto.
  apply ws_iff in W. cbn in W. apply andb_prop in W as [W _]. revert W.
  destruct x as [[] [] [] [] [] [] [] []]; vm_compute; try congruence; auto.
Qed.

(** ** Characters *)
Lemma hexval_iff c n : hexval c = Some n <-> hexd c n.
Proof.
  unfold hexd. split.
  - destruct c as [[] [] [] [] [] [] [] []]; vm_compute; intros H; try discriminate; injection H as <-; auto.
  - assert (K : forall l, List.length l = 16 -> nth_error l (N.to_nat n) = Some c -> (n < 16)%N).
    { intros l L H. assert (N.to_nat n < List.length l) by (apply nth_error_Some; congruence). lia. }
    intros [H|H]; (assert (N : (n < 16)%N) by (refine (K _ _ H); reflexivity)); clear K;
      (destruct n as [|p]; [vm_compute in H; injection H as <-; reflexivity|]);
      do 4 (try (destruct p as [p|p|]; [| |vm_compute in H; injection H as <-; reflexivity])); lia.
Qed.
Lemma hex4_iff a b c d n : hex4 a b c d = Some n <-> hex_code a b c d n.
Proof.
  unfold hex4, hex_code. split.
  - destruct (hexval a) as [x|] eqn:X; try discriminate. destruct (hexval b) as [y|] eqn:Y; try discriminate.
    destruct (hexval c) as [z|] eqn:Z; try discriminate. destruct (hexval d) as [w|] eqn:W; try discriminate.
    injection 1 as <-. exists [x; y; z; w]. split; [|cbn [be_value fold_left]; unfold be_value; cbn [fold_left]; lia].
    apply hexval_iff in X, Y, Z, W. repeat (constructor; [assumption|]). constructor.
  - intros (ds & F & ->). inversion F as [|? x ? ? X F1]; subst. inversion F1 as [|? y ? ? Y F2]; subst.
    inversion F2 as [|? z ? ? Z F3]; subst. inversion F3 as [|? w ? ? W F4]; subst. inversion F4; subst.
    apply hexval_iff in X, Y, Z, W. rewrite X, Y, Z, W. unfold be_value. cbn [fold_left]. reflexivity.
Qed.
Lemma simple_iff e : In e (B """\/bfnrt") <-> is_some (simple_escape e) = true.
Proof.
  destruct e as [[] [] [] [] [] [] [] []]; vm_compute; split; intros H; try congruence; try tauto;
    repeat (destruct H as [H|H]; try discriminate); auto 20.
Qed.
Lemma escapes_iff e c : In (e, c) escapes <-> simple_escape e = Some c.
Proof.
  split.
  - unfold escapes. cbn [In]. intros H. repeat (destruct H as [H|H]; [injection H as <- <-; reflexivity|]). destruct H.
  - destruct e as [[] [] [] [] [] [] [] []]; intros H; vm_compute in H; try discriminate; injection H as <-;
      unfold escapes; cbn [In]; auto 20.
Qed.
Lemma plain_iff c : (32 <= nat_of_ascii c /\ c <> """"%char /\ c <> "\"%char) <->
  is_quote c = false /\ is_bslash c = false /\ is_ctrl c = false.
Proof.
  unfold is_quote, is_bslash, is_ctrl. rewrite !Ascii.eqb_neq, N.ltb_ge. unfold nat_of_ascii.
  split; intros (A & B & C); repeat split; auto; lia.
Qed.

(** ** Strings *)
Definition src (cs : list schar) : bytes := flat_map char_src cs.
Definition is_esc (x : schar) : bool := match x with CPlain _ => false | _ => true end.
Lemma bslash_facts : is_quote "\" = false /\ is_bslash "\" = true.
Proof. split; reflexivity. Qed.
Lemma skip_str_char x s : char_ok x -> skip_str (char_src x ++ s) = (is_esc x || fst (skip_str s), snd (skip_str s)).
Proof.
  destruct x as [c|e|a b c d]; cbn [char_ok char_src app is_esc]; intros O.
  - apply plain_iff in O as (Q & Bs & Ct). cbn [skip_str]. rewrite Q, Bs, Ct. now destruct (skip_str s).
  - apply simple_iff in O. cbn [skip_str]. change (is_quote "\") with false. change (is_bslash "\") with true. cbv iota.
    rewrite O. reflexivity.
  - destruct O as (n & O). apply hex4_iff in O. cbn [skip_str]. change (is_quote "\") with false. change (is_bslash "\") with true.
    change (is_some (simple_escape "u")) with false. change (("u" =? "u")%char) with true. cbv iota. rewrite O. reflexivity.
Qed.
Lemma skip_str_src cs k : Forall char_ok cs -> skip_str (src cs ++ """"%char :: k) = (existsb is_esc cs, inr k).
Proof.
  induction 1 as [|x cs O F IH]; [reflexivity|].
  unfold src. cbn [flat_map existsb]. fold (src cs). rewrite <- app_assoc, skip_str_char, IH by auto. reflexivity.
Qed.
Lemma skip_str_sound s : forall k, snd (skip_str s) = inr k -> exists cs, Forall char_ok cs /\ s = src cs ++ """"%char :: k.
Proof.
  induction s as [s IH] using len_ind. intros k. destruct s as [|c t]; [discriminate|]. cbn [skip_str].
  assert (Step : forall x s', char_ok x -> c :: t = char_src x ++ s' -> snd (skip_str s') = inr k ->
            exists cs, Forall char_ok cs /\ c :: t = src cs ++ """"%char :: k).
  { intros x s' O E H. destruct (IH s') with (k := k) as (cs & F & ->); auto.
    { rewrite E. destruct x; cbn; lia. }
    exists (x :: cs). split; [constructor; auto|]. rewrite E. unfold src. cbn. now rewrite <- app_assoc. }
  destruct (is_quote c) eqn:Q.
  { cbn. intros [= <-]. apply Ascii.eqb_eq in Q. subst. exists []. split; [constructor|reflexivity]. }
  destruct (is_bslash c) eqn:Bs.
  - assert (c = "\"%char) as -> by (now apply Ascii.eqb_eq).
    destruct t as [|e t1]; [discriminate|]. destruct (is_some (simple_escape e)) eqn:S.
    { cbn [snd]. intros H. apply (Step (CEsc e) t1); auto. now apply simple_iff. }
    destruct ((e =? "u")%char) eqn:U; [|discriminate]. apply Ascii.eqb_eq in U. subst e.
    destruct t1 as [|a [|b [|x [|y t2]]]]; try discriminate.
    destruct (hex4 a b x y) as [n|] eqn:X; cbn [is_some]; [|discriminate]. cbn [snd]. intros H.
    apply (Step (CHex a b x y) t2); auto. exists n. now apply hex4_iff.
  - destruct (is_ctrl c) eqn:Ct; [discriminate|]. intros H. apply (Step (CPlain c) t); auto. now apply plain_iff.
Qed.
(** What the elements of a string denote for the reader. *)
Definition rd_chars (cs : list schar) : jerr + bytes := read_str (src cs ++ B """").
Lemma read_hex a b c d n s : hex4 a b c d = Some n ->
  read_str (char_src (CHex a b c d) ++ s) =
    if ((56320 <=? n) && (n <=? 57343))%N then inl JSyn
    else if ((55296 <=? n) && (n <=? 56319))%N then
      match s with
      | [] => inl JEof
      | p :: t3 =>
          if negb (is_bslash p) then inl JSyn
          else match t3 with
          | [] => inl JEof
          | q :: t4 =>
              if negb (Ascii.eqb q "u") then inl JSyn
              else match t4 with
              | a' :: b' :: x' :: y' :: t5 =>
                  match hex4 a' b' x' y' with
                  | None => inl JSyn
                  | Some m =>
                      if ((56320 <=? m) && (m <=? 57343))%N then
                        rcons (encode_char ((n - 55296) * 1024 + (m - 56320) + 65536)%N) (read_str t5)
                      else inl JSyn
                  end
              | _ => inl JEof
              end
          end
      end
    else rcons (encode_char n) (read_str s).
Proof.
  intros H. cbn [char_src app read_str]. change (is_quote "\") with false. change (is_bslash "\") with true.
  change (simple_escape "u") with (@None ascii). change (("u" =? "u")%char) with true. cbv iota. now rewrite H.
Qed.
Lemma read_plain c s : char_ok (CPlain c) -> read_str (c :: s) = rcons [c] (read_str s).
Proof. intros O. apply plain_iff in O as (Q & Bs & Ct). cbn [read_str]. now rewrite Q, Bs, Ct. Qed.
Lemma read_esc e x s : simple_escape e = Some x -> read_str (char_src (CEsc e) ++ s) = rcons [x] (read_str s).
Proof.
  intros O. cbn [char_src app read_str]. change (is_quote "\") with false. change (is_bslash "\") with true. cbv iota.
  now rewrite O.
Qed.
Lemma simple_not_u e x : simple_escape e = Some x -> (e =? "u")%char = false.
Proof. destruct e as [[] [] [] [] [] [] [] []]; vm_compute; congruence. Qed.
Lemma read_str_src cs k : Forall char_ok cs -> read_str (src cs ++ """"%char :: k) = rd_chars cs.
Proof.
  unfold rd_chars. change (B """") with [""""%char].
  induction cs as [cs IH] using len_ind. intros F. destruct F as [|x cs O F]; [reflexivity|].
  unfold src. cbn [flat_map]. fold (src cs). rewrite <- !app_assoc.
  assert (R : read_str (src cs ++ """"%char :: k) = read_str (src cs ++ [""""%char])) by (apply IH; auto; cbn; lia).
  destruct x as [c|e|a b c d].
  - cbn [char_src app]. rewrite !read_plain by auto. now rewrite R.
  - cbn [char_ok] in O. apply simple_iff in O. destruct (simple_escape e) as [y|] eqn:E; [|discriminate].
    rewrite !(read_esc _ _ _ E). now rewrite R.
  - destruct O as (n & O). apply hex4_iff in O. rewrite !(read_hex _ _ _ _ _ _ O).
    destruct ((56320 <=? n) && (n <=? 57343))%N; auto. destruct ((55296 <=? n) && (n <=? 56319))%N; [|now rewrite R].
    destruct F as [|x' cs O' F]; [reflexivity|].
    unfold src. cbn [flat_map]. fold (src cs). rewrite <- !app_assoc.
    assert (R' : read_str (src cs ++ """"%char :: k) = read_str (src cs ++ [""""%char])) by (apply IH; auto; cbn; lia).
    destruct x' as [p|e|a' b' c' d']; cbn [char_src app].
    + apply plain_iff in O' as (_ & Bs & _). now rewrite Bs.
    + change (is_bslash "\") with true. cbn [negb]. apply simple_iff in O'. destruct (simple_escape e) as [y|] eqn:E; [|discriminate].
      now rewrite (simple_not_u _ _ E).
    + change (is_bslash "\") with true. change (("u" =? "u")%char) with true. cbn [negb].
      destruct O' as (m & O'). apply hex4_iff in O'. rewrite O'. now rewrite R'.
Qed.
Definition rd_utf8 (cs : list schar) : jerr + bytes :=
  match rd_chars cs with inl e => inl e | inr x => if utf8 x then inr x else inl JSyn end.
Lemma pstring_src cs k : Forall char_ok cs -> pstring (src cs ++ """"%char :: k) = (existsb is_esc cs, rd_utf8 cs, inr k).
Proof. intros F. unfold pstring, read_utf8. now rewrite skip_str_src, read_str_src. Qed.
Lemma pstring_sound s esc rd k : pstring s = (esc, rd, inr k) ->
  exists cs, Forall char_ok cs /\ s = src cs ++ """"%char :: k /\ esc = existsb is_esc cs /\ rd = rd_utf8 cs.
Proof.
  intros H. assert (S : snd (skip_str s) = inr k) by (unfold pstring in H; destruct (skip_str s); cbn; congruence).
  apply skip_str_sound in S as (cs & F & ->). rewrite pstring_src in H by auto. exists cs. repeat split; auto; congruence.
Qed.

(** ** Numbers *)
Lemma pexp_inv s x r : pexp s = inr (x, r) -> exists sg d, x = sg ++ d /\ s = x ++ r /\ (sg = [] \/ sg = B "+" \/ sg = B "-") /\ digits1 d.
Proof.
  unfold pexp. destruct (psign s) as [sg s1] eqn:P.
  assert (PS : s = sg ++ s1 /\ (sg = [] \/ sg = B "+" \/ sg = B "-")).
  { unfold psign in P. destruct s as [|c t]; [injection P as <- <-; auto|].
    destruct ((c =? "+")%char) eqn:E1; [apply Ascii.eqb_eq in E1; injection P as <- <-; subst; auto|].
    destruct ((c =? "-")%char) eqn:E2; [apply Ascii.eqb_eq in E2; injection P as <- <-; subst; auto|].
    injection P as <- <-. auto. }
  destruct PS as [-> PS]. destruct s1 as [|c s1]; [discriminate|].
  destruct (span_digits (c :: s1)) as [[|d ds] r'] eqn:E; [discriminate|]. injection 1 as <- <-.
  apply span_digits_spec in E as (-> & D & _). exists sg, (d :: ds). repeat split; auto.
  - now rewrite <- app_assoc.
  - discriminate.
  - now apply digits_in.
Qed.
Lemma popt_exp_inv s acc x r : popt_exp s acc = inr (x, r) -> exists e, x = acc ++ e /\ s = e ++ r /\ json_exp e.
Proof.
  unfold popt_exp. destruct s as [|c t].
  - injection 1 as <- <-. exists []. rewrite app_nil_r. repeat split. now left.
  - destruct ((c =? "e") || (c =? "E"))%char eqn:E.
    + destruct (pexp t) as [|[y r']] eqn:P; [discriminate|]. injection 1 as <- <-.
      apply pexp_inv in P as (sg & d & -> & -> & S & D). exists (c :: sg ++ d). repeat split.
      right. exists c, sg, d. repeat split; auto.
      * apply orb_prop in E as [E|E]; apply Ascii.eqb_eq in E; subst; cbn; auto.
      * apply D.
      * apply D.
    + injection 1 as <- <-. exists []. rewrite app_nil_r. repeat split. now left.
Qed.
Lemma pfe_inv s x r : pfe s = inr (x, r) -> exists f e, x = f ++ e /\ s = x ++ r /\ json_frac f /\ json_exp e.
Proof.
  unfold pfe. destruct s as [|c t].
  - injection 1 as <- <-. exists [], []. repeat split; now left.
  - destruct ((c =? ".")%char) eqn:E.
    + apply Ascii.eqb_eq in E. subst c. unfold pfrac. destruct t as [|c t]; [discriminate|].
      destruct (span_digits (c :: t)) as [[|d ds] r'] eqn:S; [discriminate|]. intros P.
      apply span_digits_spec in S as (E' & D & _). apply popt_exp_inv in P as (e & -> & -> & J).
      exists ("."%char :: d :: ds), e. split; [reflexivity|]. rewrite E'. split; [cbn [app]; now rewrite <- app_assoc|]. split; auto.
      right. exists (d :: ds). repeat split; [discriminate|now apply digits_in].
    + intros P. apply popt_exp_inv in P as (e & -> & -> & J). exists [], e. repeat split; auto. now left.
Qed.
Lemma digit_head c t : is_digit c = true -> (c =? "0")%char = false -> digits t -> json_int (c :: t).
Proof.
  intros D Z T. right. exists c, t. split; auto. split; [|now apply digits_in].
  apply is_digit_in in D. unfold digit09 in D. cbn in D |- *. destruct D as [<-|D]; [discriminate|auto].
Qed.
Lemma pnum_body_inv neg s r k : pnum_body neg s = (r, Some k) ->
  exists i f e, r = RNum neg i (f ++ e) /\ s = i ++ f ++ e ++ k /\ json_int i /\ json_frac f /\ json_exp e.
Proof.
  unfold pnum_body, rfail. destruct s as [|c t]; [discriminate|]. destruct (is_digit c) eqn:D; [|discriminate]. cbn [negb].
  destruct ((c =? "0")%char) eqn:Z.
  - apply Ascii.eqb_eq in Z. subst c. destruct t as [|d t].
    + injection 1 as <- <-. exists (B "0"), [], []. repeat split; now left.
    + destruct (is_digit d); [discriminate|]. destruct (pfe (d :: t)) as [|[fe r']] eqn:P; [discriminate|].
      injection 1 as <- <-. apply pfe_inv in P as (f & e & -> & -> & F & E).
      exists (B "0"), f, e. repeat split; auto; [|now left]. cbn [app B list_ascii_of_string]. now rewrite <- app_assoc.
  - destruct (span_digits (c :: t)) as [ds r'] eqn:S. destruct (pfe r') as [|[fe r'']] eqn:P; [discriminate|].
    injection 1 as <- <-. pose proof S as S0. apply span_digits_spec in S as (E1 & D1 & _). apply pfe_inv in P as (f & e & -> & -> & F & E).
    exists ds, f, e. rewrite E1. repeat split; auto; [now rewrite <- app_assoc|].
    cbn in S0. rewrite D in S0. destruct (span_digits t) as [ds' r1]. injection S0 as <- _.
    unfold digits in D1. cbn in D1. apply andb_prop in D1 as [_ D1]. now apply digit_head.
Qed.
Lemma pnum_inv s r k : pnum s = (r, Some k) ->
  exists neg i f e, r = RNum neg i (f ++ e) /\ s = (minus neg ++ i ++ f ++ e) ++ k /\ json_int i /\ json_frac f /\ json_exp e.
Proof.
  unfold pnum. destruct s as [|c t]; [unfold rfail; discriminate|]. destruct ((c =? "-")%char) eqn:M; intros H;
    apply pnum_body_inv in H as (i & f & e & -> & -> & J & F & E).
  - apply Ascii.eqb_eq in M. subst. exists true, i, f, e. rewrite <- !app_assoc. auto.
  - exists false, i, f, e. rewrite <- !app_assoc. auto.
Qed.
Lemma int_start i : json_int i -> starts is_digit i.
Proof.
  intros [->|(c & t & -> & I & _)]; [exists "0"%char, []; auto|]. exists c, t. split; auto. apply is_digit_in. right. exact I.
Qed.
Lemma pnum_written neg i f e rest : json_int i -> json_frac f -> json_exp e -> follow rest ->
  pnum ((minus neg ++ i ++ f ++ e) ++ rest) = (RNum neg i (f ++ e), Some rest).
Proof.
  intros J F E K. change rest with ([] ++ rest) at 2. apply pnum_app; auto.
  pose proof (float_pnum_body neg i f e J F E) as P. destruct neg; [exact P|].
  destruct (int_start i J) as (c & t & -> & D). cbn [minus app] in *. unfold pnum. now rewrite (digit_not_minus _ D).
Qed.
Lemma num_starts neg i r : json_int i -> starts num_start (minus neg ++ i ++ r).
Proof.
  intros J. destruct neg; [do 2 eexists; split; reflexivity|].
  destruct (int_start i J) as (c & t & -> & D). exists c, (t ++ r). split; auto. unfold num_start. rewrite D. apply orb_true_r.
Qed.

(** ** Trees *)
Fixpoint raw_lex (l : lex) : raw :=
  match l with
  | LNull => RNull
  | LBool b => RBool b
  | LNum neg i fe => RNum neg i fe
  | LStr cs => RStr (existsb is_esc cs) (rd_utf8 cs)
  | LArr ls => RArr (map raw_lex ls) None
  | LObj ms => RObj (map (fun m => (rd_utf8 (fst m), raw_lex (snd m))) ms) None
  end.
Definition raw_mem (m : list schar * lex) : (jerr + bytes) * raw := (rd_utf8 (fst m), raw_lex (snd m)).

Definition elem_of (f : nat) (s' : bytes) : list raw * option jerr * option bytes :=
  match pval f s' with
  | (r, None) => ([r], Some JSyn, None)
  | (r, Some k) => match parr f false k with (l, tl, k') => (r :: l, tl, k') end
  end.
Definition member_of (f : nat) (s' : bytes) : list ((jerr + bytes) * raw) * option jerr * option bytes :=
  match skip_ws s' with
  | [] => ([], Some JEof, None)
  | q :: t' =>
      if negb (is_quote q) then ([], Some JSyn, None)
      else match pstring t' with
      | (_, rd, inl e) => ([(inl (err_of e rd), RErr e e)], Some e, None)
      | (_, rd, inr r) =>
          match skip_ws r with
          | [] => ([(rd, RErr JEof JEof)], Some JEof, None)
          | d :: r' =>
              if negb (Ascii.eqb d ":") then ([(rd, RErr JSyn JSyn)], Some JSyn, None)
              else match pval f r' with
              | (v, None) => ([(rd, v)], Some JSyn, None)
              | (v, Some k) =>
                  match pobj f false k with (l, tl, k') => ((rd, v) :: l, tl, k') end
              end
          end
      end
  end.
Lemma parr_S f first s : parr (S f) first s =
  match skip_ws s with
  | [] => ([], Some JEof, None)
  | c :: t =>
      if Ascii.eqb c "]" then ([], None, Some t)
      else if first then elem_of f (c :: t)
      else if Ascii.eqb c "," then
        match skip_ws t with
        | [] => ([], Some JEof, None)
        | d :: _ => if Ascii.eqb d "]" then ([], Some JSyn, None) else elem_of f t
        end
      else ([], Some JSyn, None)
  end.
Proof. reflexivity. Qed.
Lemma pobj_S f first s : pobj (S f) first s =
  match skip_ws s with
  | [] => ([], Some JEof, None)
  | c :: t =>
      if Ascii.eqb c "}" then ([], None, Some t)
      else if first then member_of f (c :: t)
      else if Ascii.eqb c "," then
        match skip_ws t with
        | [] => ([], Some JEof, None)
        | d :: _ => if Ascii.eqb d "}" then ([], Some JSyn, None) else member_of f t
        end
      else ([], Some JSyn, None)
  end.
Proof. reflexivity. Qed.
Lemma elem_ws f s : elem_of f (skip_ws s) = elem_of f s.
Proof. unfold elem_of. now rewrite pval_ws. Qed.
Lemma member_ws f s : member_of f (skip_ws s) = member_of f s.
Proof. unfold member_of. now rewrite skip_ws_idem. Qed.

(** *** Every JSON text is read *)
Definition first_ok (c : ascii) : bool := negb (is_ws c) && negb (Ascii.eqb c "]") && negb (Ascii.eqb c "}").
Lemma first_facts c : first_ok c = true -> is_ws c = false /\ Ascii.eqb c "]" = false /\ Ascii.eqb c "}" = false.
Proof. unfold first_ok. intros H. apply andb_prop in H as [H H3]. apply andb_prop in H as [H1 H2]. now apply negb_true_iff in H1, H2, H3. Qed.
Lemma written_start l s : written l s -> starts first_ok s.
Proof.
  intros W. destruct W as [| | |neg i f e J F E|cs O|a A|ls t A|a A|ms t A]; try (do 2 eexists; split; reflexivity).
  destruct (num_starts neg i (f ++ e) J) as (c & t & -> & H). exists c, t. split; auto.
  apply num_start_facts in H as (H1 & _ & _ & _ & _ & _ & _ & H2 & H3). unfold first_ok. now rewrite H1, H2, H3.
Qed.
Lemma written_skip l s r : written l s -> exists c t, s ++ r = c :: t /\ skip_ws (s ++ r) = c :: t /\ (c =? "]")%char = false /\ (c =? "}")%char = false.
Proof.
  intros W. destruct (written_start l s W) as (c & t & -> & H). apply first_facts in H as (H1 & H2 & H3).
  exists c, (t ++ r). cbn. rewrite H1. auto.
Qed.
Lemma written_len l s : written l s -> 1 <= List.length s.
Proof. intros W. destruct (written_start l s W) as (c & t & -> & _). cbn. lia. Qed.

Scheme written_i := Minimality for written Sort Prop
  with elements_i := Minimality for elements Sort Prop
  with fields_i := Minimality for fields Sort Prop.
Combined Scheme written_all from written_i, elements_i, fields_i.

Definition reads_val (l : lex) (s : bytes) : Prop := forall fuel a rest, ws a -> follow rest -> List.length s < fuel ->
  pval fuel (a ++ s ++ rest) = (raw_lex l, Some rest).
Definition reads_elems (ls : list lex) (t : bytes) : Prop := forall fuel rest, List.length t < fuel ->
  (exists c u, skip_ws (t ++ "]"%char :: rest) = c :: u /\ (c =? "]")%char = false)
  /\ elem_of fuel (t ++ "]"%char :: rest) = (map raw_lex ls, None, Some rest).
Definition reads_members (ms : list (list schar * lex)) (t : bytes) : Prop := forall fuel rest, List.length t < fuel ->
  (exists c u, skip_ws (t ++ "}"%char :: rest) = c :: u /\ (c =? "}")%char = false)
  /\ member_of fuel (t ++ "}"%char :: rest) = (map raw_mem ms, None, Some rest).

Lemma parr_close f b rest : ws b -> parr (S f) false (b ++ "]"%char :: rest) = ([], None, Some rest).
Proof. intros W. rewrite parr_S, skip_ws_app by auto. reflexivity. Qed.
Lemma pobj_close f b rest : ws b -> pobj (S f) false (b ++ "}"%char :: rest) = ([], None, Some rest).
Proof. intros W. rewrite pobj_S, skip_ws_app by auto. reflexivity. Qed.
Lemma parr_more f b ls t rest : ws b -> reads_elems ls t -> List.length t < f ->
  parr (S f) false (b ++ ","%char :: t ++ "]"%char :: rest) = (map raw_lex ls, None, Some rest).
Proof.
  intros W R L. rewrite parr_S, skip_ws_app by auto. cbn [skip_ws]. change (is_ws ",") with false. cbv iota.
  change (("," =? "]")%char) with false. change (("," =? ",")%char) with true. cbv iota.
  destruct (R f rest L) as [(c & u & E & C) K]. now rewrite E, C.
Qed.
Lemma pobj_more f b ms t rest : ws b -> reads_members ms t -> List.length t < f ->
  pobj (S f) false (b ++ ","%char :: t ++ "}"%char :: rest) = (map raw_mem ms, None, Some rest).
Proof.
  intros W R L. rewrite pobj_S, skip_ws_app by auto. cbn [skip_ws]. change (is_ws ",") with false. cbv iota.
  change (("," =? "}")%char) with false. change (("," =? ",")%char) with true. cbv iota.
  destruct (R f rest L) as [(c & u & E & C) K]. now rewrite E, C.
Qed.
Lemma quoted_app k r : quoted k ++ r = """"%char :: src k ++ """"%char :: r.
Proof. unfold quoted. rewrite <- !app_assoc. reflexivity. Qed.
Lemma quoted_len k : 2 <= List.length (quoted k).
Proof. unfold quoted. rewrite !app_length. cbn. lia. Qed.
Lemma member_step f a k b c s r l : ws a -> Forall char_ok k -> ws b -> ws c -> reads_val l s -> follow r -> List.length s < f ->
  (exists x u, skip_ws ((a ++ quoted k ++ b ++ B ":" ++ c ++ s) ++ r) = x :: u /\ (x =? "}")%char = false)
  /\ member_of f ((a ++ quoted k ++ b ++ B ":" ++ c ++ s) ++ r) =
     match pobj f false r with (l', tl, k') => (raw_mem (k, l) :: l', tl, k') end.
Proof.
  intros A K B0 C R F L.
  assert (E : skip_ws ((a ++ quoted k ++ b ++ B ":" ++ c ++ s) ++ r) = """"%char :: src k ++ """"%char :: b ++ ":"%char :: c ++ s ++ r).
  { rewrite <- app_assoc, skip_ws_app by auto. rewrite <- !app_assoc, quoted_app. reflexivity. }
  split; [do 2 eexists; split; [exact E|reflexivity]|].
  unfold member_of. rewrite E. change (is_quote """") with true. cbn [negb].
  rewrite pstring_src by auto. rewrite skip_ws_app by auto. cbn [skip_ws]. change (is_ws ":") with false. cbv iota.
  change ((":" =? ":")%char) with true. cbn [negb]. rewrite R by auto. reflexivity.
Qed.
Lemma reads_all : (forall l s, written l s -> reads_val l s) /\ (forall ls t, elements ls t -> reads_elems ls t)
  /\ (forall ms t, fields ms t -> reads_members ms t).
Proof.
  apply written_all.
  - intros fuel a rest A F L. destruct fuel as [|f]; [cbn in L; lia|]. cbn [pval]. rewrite skip_ws_app by auto. reflexivity.
  - intros fuel a rest A F L. destruct fuel as [|f]; [cbn in L; lia|]. cbn [pval]. rewrite skip_ws_app by auto. reflexivity.
  - intros fuel a rest A F L. destruct fuel as [|f]; [cbn in L; lia|]. cbn [pval]. rewrite skip_ws_app by auto. reflexivity.
  - intros neg i f e J F E fuel a rest A K L. destruct fuel as [|g]; [lia|]. cbn [pval]. rewrite skip_ws_app by auto.
    pose proof (pnum_written neg i f e rest J F E K) as P.
    destruct (num_starts neg i (f ++ e) J) as (c & t & E1 & H). unfold bytes in *. rewrite E1 in *. cbn [app] in *.
    pose proof H as H'. apply num_start_facts in H' as (H1 & H2 & H3 & H4 & H5 & H6 & H7 & _ & _).
    cbn [skip_ws]. rewrite H1, H2, H3, H4, H5, H6, H7. unfold num_start in H. rewrite H. exact P.
  - intros cs O fuel a rest A K L. destruct fuel as [|g]; [lia|]. cbn [pval]. rewrite skip_ws_app by auto.
    rewrite quoted_app. cbn [skip_ws]. change (is_ws """") with false. change (is_quote """") with true. cbv iota.
    rewrite pstring_src by auto. reflexivity.
  - intros a A fuel a' rest A' K L. destruct fuel as [|g]; [lia|]. destruct g as [|g]; [rewrite !app_length in L; cbn in L; lia|].
    cbn [pval]. rewrite skip_ws_app by auto. cbn [app B list_ascii_of_string skip_ws]. change (is_ws "[") with false. cbv iota.
    change (is_quote "[") with false. change (("[" =? "{")%char) with false. change (("[" =? "[")%char) with true. cbv iota.
    rewrite <- app_assoc. cbn [app]. rewrite parr_S, skip_ws_app by auto. reflexivity.
  - intros ls t H IH fuel a rest A K L. destruct fuel as [|g]; [lia|]. rewrite !app_length in L. cbn in L.
    cbn [pval]. rewrite skip_ws_app by auto. cbn [app B list_ascii_of_string skip_ws]. change (is_ws "[") with false. cbv iota.
    change (is_quote "[") with false. change (("[" =? "{")%char) with false. change (("[" =? "[")%char) with true. cbv iota.
    rewrite <- app_assoc. cbn [app]. destruct g as [|g]; [lia|]. rewrite parr_S.
    destruct (IH g rest ltac:(lia)) as [(c & u & E & C) R]. rewrite E, C, <- E, elem_ws, R. reflexivity.
  - intros a A fuel a' rest A' K L. destruct fuel as [|g]; [lia|]. destruct g as [|g]; [rewrite !app_length in L; cbn in L; lia|].
    cbn [pval]. rewrite skip_ws_app by auto. cbn [app B list_ascii_of_string skip_ws]. change (is_ws "{") with false. cbv iota.
    change (is_quote "{") with false. change (("{" =? "{")%char) with true. cbv iota.
    rewrite <- app_assoc. cbn [app]. rewrite pobj_S, skip_ws_app by auto. reflexivity.
  - intros ms t H IH fuel a rest A K L. destruct fuel as [|g]; [lia|]. rewrite !app_length in L. cbn in L.
    cbn [pval]. rewrite skip_ws_app by auto. cbn [app B list_ascii_of_string skip_ws]. change (is_ws "{") with false. cbv iota.
    change (is_quote "{") with false. change (("{" =? "{")%char) with true. cbv iota.
    rewrite <- app_assoc. cbn [app]. destruct g as [|g]; [lia|]. rewrite pobj_S.
    destruct (IH g rest ltac:(lia)) as [(c & u & E & C) R]. rewrite E, C, <- E, member_ws, R. reflexivity.
  - intros a l s b A W IH B0 fuel rest L. pose proof (written_len l s W). rewrite !app_length in L. rewrite <- !app_assoc. split.
    + rewrite skip_ws_app by auto. destruct (written_skip l s (b ++ "]"%char :: rest) W) as (c & u & E1 & E2 & C & _). eauto.
    + unfold elem_of. rewrite IH; [|auto|apply ws_follow; cbn; auto|lia]. destruct fuel as [|f]; [lia|]. now rewrite parr_close.
  - intros a l s b ls t A W IH B0 HE IE fuel rest L. pose proof (written_len l s W). rewrite !app_length in L. cbn in L.
    rewrite <- !app_assoc. split.
    + rewrite skip_ws_app by auto. destruct (written_skip l s (b ++ B "," ++ t ++ "]"%char :: rest) W) as (c & u & E1 & E2 & C & _). eauto.
    + unfold elem_of. cbn [app B list_ascii_of_string]. rewrite IH; [|auto|apply ws_follow; cbn; auto|lia].
      destruct fuel as [|f]; [lia|]. rewrite (parr_more f b ls t rest) by (auto; lia). reflexivity.
  - intros a k b c l s d A K B0 C W IH D fuel rest L. rewrite !app_length in L. cbn in L. pose proof (written_len l s W). pose proof (quoted_len k).
    destruct (member_step fuel a k b c s (d ++ "}"%char :: rest) l) as [E R]; auto; [apply ws_follow; cbn; auto|lia|].
    rewrite <- !app_assoc in *. split; [exact E|]. rewrite R. destruct fuel as [|f]; [lia|]. now rewrite pobj_close.
  - intros a k b c l s d ms t A K B0 C W IH D HM IM fuel rest L. rewrite !app_length in L. cbn in L. pose proof (written_len l s W). pose proof (quoted_len k).
    destruct (member_step fuel a k b c s (d ++ ","%char :: t ++ "}"%char :: rest) l) as [E R]; auto; [apply ws_follow; cbn; auto|lia|].
    rewrite <- !app_assoc in *. cbn [app B list_ascii_of_string] in *. split; [exact E|]. rewrite R. destruct fuel as [|f]; [lia|].
    rewrite (pobj_more f d ms t rest) by (auto; lia). reflexivity.
Qed.
Lemma parse_spells l t : spells l t -> parse t = (raw_lex l, None).
Proof.
  intros (a & s & b & A & W & B0 & ->). unfold parse. destruct reads_all as (R & _).
  rewrite (R l s W) by (auto using ws_follow_nil; rewrite !app_length; lia). now rewrite ws_skip.
Qed.

(** *** Only JSON texts are read *)
Definition val_sound (s : bytes) (r : raw) (k : bytes) : Prop := exists a l u, ws a /\ written l u /\ s = a ++ u ++ k /\ r = raw_lex l.
Definition elem_sound (s : bytes) (rs : list raw) (k : bytes) : Prop :=
  exists ls t, elements ls t /\ s = t ++ "]"%char :: k /\ rs = map raw_lex ls.
Definition member_sound (s : bytes) (rs : list ((jerr + bytes) * raw)) (k : bytes) : Prop :=
  exists ms t, fields ms t /\ s = t ++ "}"%char :: k /\ rs = map raw_mem ms.
(** After an element. *)
Definition tail_sound (s : bytes) (rs : list raw) (k : bytes) : Prop :=
  exists b, ws b /\ ((s = b ++ "]"%char :: k /\ rs = []) \/ exists t, s = b ++ ","%char :: t /\ elem_sound t rs k).
Definition mtail_sound (s : bytes) (rs : list ((jerr + bytes) * raw)) (k : bytes) : Prop :=
  exists b, ws b /\ ((s = b ++ "}"%char :: k /\ rs = []) \/ exists t, s = b ++ ","%char :: t /\ member_sound t rs k).
Lemma elem_inv f s rs tl k :
  (forall s r k, pval f s = (r, Some k) -> val_sound s r k) ->
  (forall s rs tl k, parr f false s = (rs, tl, Some k) -> tl = None /\ tail_sound s rs k) ->
  elem_of f s = (rs, tl, Some k) -> tl = None /\ elem_sound s rs k.
Proof.
  intros HV HT. unfold elem_of. destruct (pval f s) as [r [k1|]] eqn:V; [|discriminate].
  destruct (parr f false k1) as [[l tl1] k2] eqn:P. injection 1 as <- <- ->.
  apply HV in V as (a & l0 & u & A & W & -> & ->). apply HT in P as (-> & b & B0 & [(-> & ->)|(t & -> & ls & t' & HE & -> & ->)]).
  - split; auto. exists [l0], (a ++ u ++ b). rewrite <- !app_assoc. repeat split. now constructor.
  - split; auto. exists (l0 :: ls), (a ++ u ++ b ++ B "," ++ t'). rewrite <- !app_assoc. repeat split. now constructor.
Qed.
Lemma member_inv f s rs tl k :
  (forall s r k, pval f s = (r, Some k) -> val_sound s r k) ->
  (forall s rs tl k, pobj f false s = (rs, tl, Some k) -> tl = None /\ mtail_sound s rs k) ->
  member_of f s = (rs, tl, Some k) -> tl = None /\ member_sound s rs k.
Proof.
  intros HV HT. unfold member_of. destruct (skip_ws_spec s) as (a & E & A & _). destruct (skip_ws s) as [|q t'] eqn:SK; [discriminate|].
  destruct (is_quote q) eqn:Q; cbn [negb]; [|discriminate]. apply Ascii.eqb_eq in Q. subst q s.
  destruct (pstring t') as [[esc rd] [e|r]] eqn:P; [discriminate|]. apply pstring_sound in P as (cs & O & -> & -> & ->).
  destruct (skip_ws_spec r) as (b & E & B0 & _). destruct (skip_ws r) as [|d r'] eqn:SK2; [discriminate|].
  destruct ((d =? ":")%char) eqn:D; cbn [negb]; [|discriminate]. apply Ascii.eqb_eq in D. subst d r.
  destruct (pval f r') as [v [k1|]] eqn:V; [|discriminate].
  destruct (pobj f false k1) as [[l tl1] k2] eqn:P. injection 1 as <- <- ->.
  apply HV in V as (c & l0 & u & C & W & -> & ->). apply HT in P as (-> & b' & B1 & [(-> & ->)|(t & -> & ms & t' & HE & -> & ->)]).
  - split; auto. exists [(cs, l0)], (a ++ quoted cs ++ b ++ B ":" ++ c ++ u ++ b'). split; [now constructor|]. split; [|reflexivity].
    rewrite <- !app_assoc, quoted_app. reflexivity.
  - split; auto. exists ((cs, l0) :: ms), (a ++ quoted cs ++ b ++ B ":" ++ c ++ u ++ b' ++ B "," ++ t'). split; [now constructor|]. split; [|reflexivity].
    rewrite <- !app_assoc, quoted_app. reflexivity.
Qed.
Lemma elem_lead a s rs k : ws a -> elem_sound s rs k -> elem_sound (a ++ s) rs k.
Proof.
  intros A (ls & t & HE & -> & ->). exists ls, (a ++ t). split; [|split; [now rewrite <- app_assoc|reflexivity]].
  destruct HE; rewrite !(app_assoc a); constructor; auto; now apply Forall_app.
Qed.
Lemma member_lead a s rs k : ws a -> member_sound s rs k -> member_sound (a ++ s) rs k.
Proof.
  intros A (ls & t & HE & -> & ->). exists ls, (a ++ t). split; [|split; [now rewrite <- app_assoc|reflexivity]].
  destruct HE; rewrite !(app_assoc a); constructor; auto; now apply Forall_app.
Qed.
Lemma pident_inv id s k : pident id s = inr k -> s = id ++ k.
Proof.
  revert s; induction id as [|x id IH]; intros s; cbn; [congruence|]. destruct s as [|c t]; [discriminate|].
  destruct ((c =? x)%char) eqn:E; [|discriminate]. intros H. apply Ascii.eqb_eq in E. subst. f_equal. auto.
Qed.
Lemma sound_all f :
  (forall s r k, pval f s = (r, Some k) -> val_sound s r k)
  /\ (forall s rs tl k, parr f true s = (rs, tl, Some k) -> tl = None /\
        (elem_sound s rs k \/ exists a, ws a /\ s = a ++ "]"%char :: k /\ rs = []))
  /\ (forall s rs tl k, parr f false s = (rs, tl, Some k) -> tl = None /\ tail_sound s rs k)
  /\ (forall s rs tl k, pobj f true s = (rs, tl, Some k) -> tl = None /\
        (member_sound s rs k \/ exists a, ws a /\ s = a ++ "}"%char :: k /\ rs = []))
  /\ (forall s rs tl k, pobj f false s = (rs, tl, Some k) -> tl = None /\ mtail_sound s rs k).
Proof.
  induction f as [|f (HV & HA & HT & HO & HM)].
  - unfold rfail. repeat split; discriminate.
  - split; [|split; [|split; [|split]]].
    + intros s r k. cbn [pval]. destruct (skip_ws_spec s) as (a & E & A & _). destruct (skip_ws s) as [|c t] eqn:SK; [unfold rfail; discriminate|].
      assert (Done : forall l u, written l u -> c :: t = u ++ k -> r = raw_lex l -> val_sound s r k).
      { intros l u W E' ->. rewrite E, E'. exists a, l, u. auto. }
      destruct (is_quote c) eqn:Q.
      { apply Ascii.eqb_eq in Q. subst c. destruct (pstring t) as [[esc rd] [e|r']] eqn:P; [discriminate|]. injection 1 as <- ->.
        apply pstring_sound in P as (cs & O & -> & -> & ->). apply (Done (LStr cs) (quoted cs)); [now constructor| |reflexivity].
        now rewrite quoted_app. }
      destruct ((c =? "{")%char) eqn:K1.
      { apply Ascii.eqb_eq in K1. subst c. destruct (pobj f true t) as [[l tl] k'] eqn:P. injection 1 as <- ->.
        apply HO in P as (-> & [(ms & u & HE & -> & ->)|(b & B0 & -> & ->)]).
        - apply (Done (LObj ms) (B "{" ++ u ++ B "}")); [now constructor| |reflexivity]. rewrite <- !app_assoc. reflexivity.
        - apply (Done (LObj []) (B "{" ++ b ++ B "}")); [now constructor| |reflexivity]. rewrite <- !app_assoc. reflexivity. }
      destruct ((c =? "[")%char) eqn:K2.
      { apply Ascii.eqb_eq in K2. subst c. destruct (parr f true t) as [[l tl] k'] eqn:P. injection 1 as <- ->.
        apply HA in P as (-> & [(ms & u & HE & -> & ->)|(b & B0 & -> & ->)]).
        - apply (Done (LArr ms) (B "[" ++ u ++ B "]")); [now constructor| |reflexivity]. rewrite <- !app_assoc. reflexivity.
        - apply (Done (LArr []) (B "[" ++ b ++ B "]")); [now constructor| |reflexivity]. rewrite <- !app_assoc. reflexivity. }
      destruct ((c =? "n")%char) eqn:K3.
      { apply Ascii.eqb_eq in K3. subst c. destruct (pident (B "ull") t) eqn:P; [unfold rfail; discriminate|]. injection 1 as <- ->.
        apply pident_inv in P as ->. apply (Done LNull (B "null")); [constructor|reflexivity|reflexivity]. }
      destruct ((c =? "t")%char) eqn:K4.
      { apply Ascii.eqb_eq in K4. subst c. destruct (pident (B "rue") t) eqn:P; [unfold rfail; discriminate|]. injection 1 as <- ->.
        apply pident_inv in P as ->. apply (Done (LBool true) (B "true")); [constructor|reflexivity|reflexivity]. }
      destruct ((c =? "f")%char) eqn:K5.
      { apply Ascii.eqb_eq in K5. subst c. destruct (pident (B "alse") t) eqn:P; [unfold rfail; discriminate|]. injection 1 as <- ->.
        apply pident_inv in P as ->. apply (Done (LBool false) (B "false")); [constructor|reflexivity|reflexivity]. }
      destruct ((c =? "-")%char || is_digit c); [|unfold rfail; discriminate].
      intros P. apply pnum_inv in P as (neg & i & fr & e & -> & E' & J & Fr & Ex).
      apply (Done (LNum neg i (fr ++ e)) (minus neg ++ i ++ fr ++ e)); [now constructor|exact E'|reflexivity].
    + intros s rs tl k. rewrite parr_S. destruct (skip_ws_spec s) as (a & E & A & _). destruct (skip_ws s) as [|c t] eqn:SK; [discriminate|].
      destruct ((c =? "]")%char) eqn:K1.
      { apply Ascii.eqb_eq in K1. subst c. injection 1 as <- <- ->. split; auto. right. eauto. }
      intros H. apply elem_inv in H as (-> & H); auto. split; auto. left. rewrite E. now apply elem_lead.
    + intros s rs tl k. rewrite parr_S. destruct (skip_ws_spec s) as (a & E & A & _). destruct (skip_ws s) as [|c t] eqn:SK; [discriminate|].
      destruct ((c =? "]")%char) eqn:K1.
      { apply Ascii.eqb_eq in K1. subst c. injection 1 as <- <- ->. split; auto. exists a. auto. }
      destruct ((c =? ",")%char) eqn:K2; [|discriminate]. apply Ascii.eqb_eq in K2. subst c.
      destruct (skip_ws t) as [|d t']; [discriminate|]. destruct ((d =? "]")%char); [discriminate|].
      intros H. apply elem_inv in H as (-> & H); auto. split; auto. exists a. split; auto. right. exists t. auto.
    + intros s rs tl k. rewrite pobj_S. destruct (skip_ws_spec s) as (a & E & A & _). destruct (skip_ws s) as [|c t] eqn:SK; [discriminate|].
      destruct ((c =? "}")%char) eqn:K1.
      { apply Ascii.eqb_eq in K1. subst c. injection 1 as <- <- ->. split; auto. right. eauto. }
      intros H. apply member_inv in H as (-> & H); auto. split; auto. left. rewrite E. now apply member_lead.
    + intros s rs tl k. rewrite pobj_S. destruct (skip_ws_spec s) as (a & E & A & _). destruct (skip_ws s) as [|c t] eqn:SK; [discriminate|].
      destruct ((c =? "}")%char) eqn:K1.
      { apply Ascii.eqb_eq in K1. subst c. injection 1 as <- <- ->. split; auto. exists a. auto. }
      destruct ((c =? ",")%char) eqn:K2; [|discriminate]. apply Ascii.eqb_eq in K2. subst c.
      destruct (skip_ws t) as [|d t']; [discriminate|]. destruct ((d =? "}")%char); [discriminate|].
      intros H. apply member_inv in H as (-> & H); auto. split; auto. exists a. split; auto. right. exists t. auto.
Qed.
Lemma spells_parse r t : parse t = (r, None) -> exists l, spells l t /\ r = raw_lex l.
Proof.
  unfold parse. destruct (pval (S (List.length t + List.length t)) t) as [r' [k|]] eqn:P; [|discriminate].
  destruct (skip_ws k) eqn:K; [|discriminate]. injection 1 as <-.
  apply (proj1 (sound_all _)) in P as (a & l & u & A & W & -> & ->). exists l. split; auto.
  exists a, u, k. repeat split; auto. now apply skip_ws_nil.
Qed.
Lemma parse_iff r t : parse t = (r, None) <-> exists l, spells l t /\ r = raw_lex l.
Proof. split; [apply spells_parse|]. intros (l & H & ->). now apply parse_spells. Qed.
Lemma from_json_iff {A} (dec : raw -> res A) t a : from_json dec t = Ok a <-> exists l, spells l t /\ dec (raw_lex l) = Ok a.
Proof.
  unfold from_json. split.
  - destruct (parse t) as [r e] eqn:P. intros H. apply rbind_Ok in H as (x & H & E). destruct e; [discriminate|]. injection E as ->.
    apply spells_parse in P as (l & S & ->). eauto.
  - intros (l & S & H). rewrite (parse_spells _ _ S), H. reflexivity.
Qed.

(** ** UTF-8 *)
Lemma form_unique n u : utf8_form n u -> u = encode_char n.
Proof.
  assert (K : forall lo w c x, offset lo w c x -> c = ascii_of_N (lo + x)).
  { intros lo w c x [E _]. rewrite <- E. now rewrite ascii_N_embedding. }
  intros H. unfold encode_char. destruct H as [c n H|a b x y A B0 L|a b c x y z A B0 C L|a b c d x y z w A B0 C D L].
  - pose proof (K _ _ _ _ H) as ->. destruct H as [_ H]. destruct (N.ltb_spec n 128); [reflexivity|lia].
  - pose proof (K _ _ _ _ A) as ->. pose proof (K _ _ _ _ B0) as ->. destruct A as [_ A], B0 as [_ B0].
    destruct (N.ltb_spec (x * 64 + y) 128); [lia|]. destruct (N.ltb_spec (x * 64 + y) 2048); [|lia].
    replace ((x * 64 + y) / 64)%N with x by (rewrite N.div_add_l, N.div_small; lia).
    replace ((x * 64 + y) mod 64)%N with y by (rewrite N.add_comm, N.mod_add, N.mod_small; lia). reflexivity.
  - pose proof (K _ _ _ _ A) as ->. pose proof (K _ _ _ _ B0) as ->. pose proof (K _ _ _ _ C) as ->.
    destruct A as [_ A], B0 as [_ B0], C as [_ C]. set (n := ((x * 64 + y) * 64 + z)%N) in *.
    assert (E1 : (n / 64 = x * 64 + y)%N) by (unfold n; rewrite N.div_add_l, N.div_small; lia).
    assert (E2 : (n mod 64 = z)%N) by (unfold n; rewrite N.add_comm, N.mod_add, N.mod_small; lia).
    assert (E3 : (n / 4096 = x)%N).
    { change 4096%N with (64 * 64)%N. rewrite <- N.div_div, E1, N.div_add_l, N.div_small; lia. }
    assert (E4 : ((x * 64 + y) mod 64 = y)%N) by (rewrite N.add_comm, N.mod_add, N.mod_small; lia).
    destruct (N.ltb_spec n 128); [lia|]. destruct (N.ltb_spec n 2048); [lia|]. destruct (N.ltb_spec n 65536); [|unfold n in *; lia].
    now rewrite E3, E1, E4, E2.
  - pose proof (K _ _ _ _ A) as ->. pose proof (K _ _ _ _ B0) as ->. pose proof (K _ _ _ _ C) as ->. pose proof (K _ _ _ _ D) as ->.
    destruct A as [_ A], B0 as [_ B0], C as [_ C], D as [_ D]. set (n := (((x * 64 + y) * 64 + z) * 64 + w)%N) in *.
    assert (E1 : (n / 64 = (x * 64 + y) * 64 + z)%N) by (unfold n; rewrite N.div_add_l, N.div_small; lia).
    assert (E2 : (n mod 64 = w)%N) by (unfold n; rewrite N.add_comm, N.mod_add, N.mod_small; lia).
    assert (E3 : (n / 4096 = x * 64 + y)%N).
    { change 4096%N with (64 * 64)%N. rewrite <- N.div_div, E1, N.div_add_l, N.div_small; lia. }
    assert (E5 : (n / 262144 = x)%N).
    { change 262144%N with (4096 * 64)%N. rewrite <- N.div_div, E3, N.div_add_l, N.div_small; lia. }
    assert (E4 : ((x * 64 + y) mod 64 = y)%N) by (rewrite N.add_comm, N.mod_add, N.mod_small; lia).
    assert (E6 : (((x * 64 + y) * 64 + z) mod 64 = z)%N) by (rewrite N.add_comm, N.mod_add, N.mod_small; lia).
    destruct (N.ltb_spec n 128); [lia|]. destruct (N.ltb_spec n 2048); [lia|]. destruct (N.ltb_spec n 65536); [lia|].
    now rewrite E5, E3, E4, E1, E6, E2.
Qed.
Lemma lead_ascii lo w x : (lo + w <= 256)%N -> (x < w)%N -> offset lo w (ascii_of_N (lo + x)) x.
Proof. intros H X. split; auto. apply N_of_ascii_of_N. lia. Qed.
Lemma form_encode n : (n < 2097152)%N -> utf8_form n (encode_char n).
Proof.
  intros L. unfold encode_char.
  pose proof (N.div_mod' n 64) as D1. pose proof (N.mod_lt n 64 ltac:(lia)) as M1. set (q := (n / 64)%N) in *. set (r := (n mod 64)%N) in *.
  pose proof (N.div_mod' q 64) as D2. pose proof (N.mod_lt q 64 ltac:(lia)) as M2.
  assert (E : (n / 4096 = q / 64)%N) by (unfold q; rewrite N.div_div by lia; reflexivity).
  assert (E' : (n / 262144 = q / 64 / 64)%N) by (unfold q; rewrite !N.div_div by lia; reflexivity).
  set (q2 := (q / 64)%N) in *. set (r2 := (q mod 64)%N) in *.
  pose proof (N.div_mod' q2 64) as D3. pose proof (N.mod_lt q2 64 ltac:(lia)) as M3. set (q3 := (q2 / 64)%N) in *. set (r3 := (q2 mod 64)%N) in *.
  rewrite E, E'.
  destruct (N.ltb_spec n 128).
  { apply u1. change n with (0 + n)%N at 1. apply lead_ascii; lia. }
  destruct (N.ltb_spec n 2048).
  { replace n with (q * 64 + r)%N by lia. apply u2; [apply lead_ascii; lia|apply lead_ascii; lia|lia]. }
  destruct (N.ltb_spec n 65536).
  { replace n with ((q2 * 64 + r2) * 64 + r)%N by lia. apply u3; [apply lead_ascii; lia|apply lead_ascii; lia|apply lead_ascii; lia|lia]. }
  replace n with (((q3 * 64 + r3) * 64 + r2) * 64 + r)%N by lia.
  apply u4; [apply lead_ascii; lia|apply lead_ascii; lia|apply lead_ascii; lia|apply lead_ascii; lia|lia].
Qed.
Lemma byte_in_iff lo hi a : byte_in lo hi a = true <-> (lo <= N_of_ascii a <= hi)%N.
Proof. unfold byte_in. rewrite andb_true_iff, !N.leb_le. tauto. Qed.
Lemma byte_in_not lo hi a : byte_in lo hi a = false <-> (N_of_ascii a < lo \/ hi < N_of_ascii a)%N.
Proof. unfold byte_in. rewrite andb_false_iff, !N.leb_gt. tauto. Qed.
Lemma text_cons n u s : scalar n -> utf8_form n u -> utf8_text s -> utf8_text (u ++ s).
Proof. intros S F (ns & us & A & B0 & ->). exists (n :: ns), (u :: us). repeat split; auto. Qed.
Lemma lead_of lo w c : (lo <= N_of_ascii c < lo + w)%N -> offset lo w c (N_of_ascii c - lo).
Proof. intros H. unfold offset. lia. Qed.
Ltac bytes_in := repeat match goal with
  | H : (_ && _)%bool = true |- _ => apply andb_prop in H as [? H]
  | H : cont _ = true |- _ => unfold cont in H
  | H : byte_in _ _ _ = true |- _ => apply byte_in_iff in H
  | H : byte_in _ _ _ = false |- _ => apply byte_in_not in H
  end.
Lemma utf8_sound s : utf8 s = true -> utf8_text s.
Proof.
  induction s as [s IH] using len_ind. destruct s as [|a t]; [exists [], []; repeat split; constructor|]. cbn [utf8].
  pose proof (N_ascii_bounded a) as NB.
  destruct (byte_in 0 127 a) eqn:A0.
  { intros H. bytes_in. apply (text_cons (N_of_ascii a) [a]); [unfold scalar, surrogate; lia| |apply IH; auto; cbn; lia].
    apply u1. unfold offset. lia. }
  destruct t as [|b t2]; [discriminate|].
  destruct (byte_in 194 223 a) eqn:A1.
  { intros H. bytes_in. pose proof (lead_of 192 32 a ltac:(lia)) as LA. pose proof (lead_of 128 64 b ltac:(lia)) as LB.
    apply (text_cons ((N_of_ascii a - 192) * 64 + (N_of_ascii b - 128)) [a; b]); [unfold scalar, surrogate; lia| |apply IH; auto; cbn; lia].
    apply u2; auto. lia. }
  destruct t2 as [|c t3]; [discriminate|].
  destruct (byte_in 224 239 a) eqn:A2.
  { intros H. apply andb_prop in H as [H U]. apply andb_prop in H as [H C].
    assert (HB : (128 <= N_of_ascii b <= 191)%N
       /\ (N_of_ascii a = 224 -> 160 <= N_of_ascii b)%N /\ (N_of_ascii a = 237 -> N_of_ascii b <= 159)%N).
    { destruct (byte_in 224 224 a) eqn:Q1; bytes_in; [lia|]. destruct (byte_in 237 237 a) eqn:Q2; bytes_in; lia. }
    clear H. bytes_in. destruct HB as (HB & HB1 & HB2).
    pose proof (lead_of 224 16 a ltac:(lia)) as LA. pose proof (lead_of 128 64 b ltac:(lia)) as LB. pose proof (lead_of 128 64 c ltac:(lia)) as LC.
    apply (text_cons (((N_of_ascii a - 224) * 64 + (N_of_ascii b - 128)) * 64 + (N_of_ascii c - 128)) [a; b; c]);
      [unfold scalar, surrogate; lia| |apply IH; auto; cbn; lia].
    apply u3; auto. lia. }
  destruct t3 as [|d t4]; [discriminate|]. intros H.
  apply andb_prop in H as [H U]. apply andb_prop in H as [H D]. apply andb_prop in H as [H C]. apply andb_prop in H as [A3 H].
  assert (HB : (128 <= N_of_ascii b <= 191)%N
     /\ (N_of_ascii a = 240 -> 144 <= N_of_ascii b)%N /\ (N_of_ascii a = 244 -> N_of_ascii b <= 143)%N).
  { destruct (byte_in 240 240 a) eqn:Q1; bytes_in; [lia|]. destruct (byte_in 244 244 a) eqn:Q2; bytes_in; lia. }
  clear H. bytes_in. destruct HB as (HB & HB1 & HB2).
  pose proof (lead_of 240 8 a ltac:(lia)) as LA. pose proof (lead_of 128 64 b ltac:(lia)) as LB.
  pose proof (lead_of 128 64 c ltac:(lia)) as LC. pose proof (lead_of 128 64 d ltac:(lia)) as LD.
  apply (text_cons ((((N_of_ascii a - 240) * 64 + (N_of_ascii b - 128)) * 64 + (N_of_ascii c - 128)) * 64 + (N_of_ascii d - 128)) [a; b; c; d]);
    [unfold scalar, surrogate; lia| |apply IH; auto; cbn; lia].
  apply u4; auto. lia.
Qed.
Ltac yes := rewrite (proj2 (byte_in_iff _ _ _)) by lia.
Ltac no := rewrite (proj2 (byte_in_not _ _ _)) by lia.
Lemma utf8_form_app n u s : scalar n -> utf8_form n u -> utf8 (u ++ s) = utf8 s.
Proof.
  unfold scalar, surrogate. intros [S1 S2] F.
  destruct F as [c n H|a b x y A B0 L|a b c x y z A B0 C L|a b c d x y z w A B0 C D L]; cbn [app utf8].
  - destruct H as [H1 H2]. now yes.
  - destruct A as [A1 A2], B0 as [B1 B2]. no. yes. unfold cont. now yes.
  - destruct A as [A1 A2], B0 as [B1 B2], C as [C1 C2]. no. no. yes. unfold cont. rewrite (proj2 (byte_in_iff 128 191 c)) by lia.
    destruct (byte_in 224 224 a) eqn:Q1; bytes_in; [now yes|]. destruct (byte_in 237 237 a) eqn:Q2; bytes_in; now yes.
  - destruct A as [A1 A2], B0 as [B1 B2], C as [C1 C2], D as [D1 D2].
    rewrite (proj2 (byte_in_not 0 127 a)), (proj2 (byte_in_not 194 223 a)), (proj2 (byte_in_not 224 239 a)) by lia.
    rewrite (proj2 (byte_in_iff 240 244 a)) by lia. unfold cont. rewrite (proj2 (byte_in_iff 128 191 c)), (proj2 (byte_in_iff 128 191 d)) by lia.
    destruct (byte_in 240 240 a) eqn:Q1; bytes_in; [now yes|]. destruct (byte_in 244 244 a) eqn:Q2; bytes_in; now yes.
Qed.
Lemma utf8_iff s : utf8 s = true <-> utf8_text s.
Proof.
  split; [apply utf8_sound|]. intros (ns & us & A & F & ->). induction F as [|n u ns us F1 F IH]; [reflexivity|].
  inversion_clear A. cbn [List.concat]. rewrite (utf8_form_app n) by auto. auto.
Qed.

(** ** Meaning *)
Lemma hex_code_bound a b c d n : hex_code a b c d n -> (n < 65536)%N.
Proof.
  intros H. apply hex4_iff in H. unfold hex4 in H.
  assert (K : forall x v, hexval x = Some v -> (v < 16)%N).
  { intros x v. destruct x as [[] [] [] [] [] [] [] []]; vm_compute; intros [= <-]; reflexivity. }
  destruct (hexval a) eqn:A; [|discriminate]. destruct (hexval b) eqn:B0; [|discriminate].
  destruct (hexval c) eqn:C; [|discriminate]. destruct (hexval d) eqn:D; [|discriminate]. injection H as <-.
  apply K in A, B0, C, D. lia.
Qed.
Lemma rcons_inr x r s : rcons x r = inr s <-> exists s', r = inr s' /\ s = x ++ s'.
Proof. destruct r; cbn; split; [discriminate|intros (? & ? & ?); discriminate|intros [= <-]; eauto|intros (s' & [= <-] & ->); auto]. Qed.
Ltac uni U := repeat match goal with H : hex_code _ _ _ _ ?m |- _ => apply U in H; try subst m end.
Lemma decodes_iff cs : Forall char_ok cs -> forall s, rd_chars cs = inr s <-> decodes cs s.
Proof.
  unfold rd_chars. change (B """") with [""""%char].
  induction cs as [cs IH] using len_ind. intros F s. destruct F as [|x cs O F].
  { cbn. split; [intros [= <-]; constructor|inversion 1; reflexivity]. }
  assert (IH1 : forall s, read_str (src cs ++ [""""%char]) = inr s <-> decodes cs s) by (apply IH; auto; cbn; lia).
  unfold src. cbn [flat_map]. fold (src cs). rewrite <- !app_assoc.
  destruct x as [c|e|a b c d].
  - cbn [char_src app]. rewrite read_plain, rcons_inr by auto. split.
    + intros (s' & H & ->). constructor. now apply IH1.
    + inversion 1; subst. eexists. split; [apply IH1; eassumption|reflexivity].
  - cbn [char_ok] in O. apply simple_iff in O. destruct (simple_escape e) as [y|] eqn:E; [|discriminate].
    rewrite (read_esc _ _ _ E), rcons_inr. split.
    + intros (s' & H & ->). constructor; [now apply escapes_iff|now apply IH1].
    + inversion 1 as [| |? y' ? s' I D| |]; subst. apply escapes_iff in I. assert (y' = y) as -> by congruence.
      eexists. split; [apply IH1; eassumption|reflexivity].
  - destruct O as (n & O). pose proof O as O'. apply hex4_iff in O'. rewrite (read_hex _ _ _ _ _ _ O').
    assert (U : forall m, hex_code a b c d m -> m = n) by (intros m Hm; apply hex4_iff in Hm; congruence).
    pose proof (hex_code_bound _ _ _ _ _ O) as NB.
    destruct ((56320 <=? n) && (n <=? 57343))%N eqn:K1.
    { apply andb_prop in K1 as [K1 K2]. apply N.leb_le in K1, K2. split; [discriminate|].
      inversion 1; subst; uni U; unfold surrogate in *; lia. }
    apply andb_false_iff in K1. rewrite !N.leb_gt in K1.
    destruct ((55296 <=? n) && (n <=? 56319))%N eqn:K2.
    + apply andb_prop in K2 as [K2 K3]. apply N.leb_le in K2, K3.
      destruct F as [|x' cs O1 F].
      { cbn. split; [discriminate|]. inversion 1; subst. uni U. unfold surrogate in *. lia. }
      assert (IH2 : forall s, read_str (src cs ++ [""""%char]) = inr s <-> decodes cs s) by (apply IH; auto; cbn; lia).
      unfold src. cbn [flat_map]. fold (src cs). rewrite <- !app_assoc.
      assert (ND : forall s, decodes (CHex a b c d :: x' :: cs) s -> match x' with CHex _ _ _ _ => True | _ => False end).
      { inversion 1; subst; auto. exfalso. uni U. unfold surrogate in *. lia. }
      destruct x' as [p|e|a' b' c' d']; cbn [char_src app].
      * apply plain_iff in O1 as (_ & Bs & _). rewrite Bs. cbn [negb]. split; [discriminate|]. intros D. destruct (ND _ D).
      * change (is_bslash "\") with true. cbn [negb]. apply simple_iff in O1. destruct (simple_escape e) as [y|] eqn:E; [|discriminate].
        rewrite (simple_not_u _ _ E). cbn [negb]. split; [discriminate|]. intros D. destruct (ND _ D).
      * change (is_bslash "\") with true. change (("u" =? "u")%char) with true. cbn [negb].
        destruct O1 as (m & O1). pose proof O1 as O1'. apply hex4_iff in O1'. rewrite O1'.
        assert (U1 : forall k, hex_code a' b' c' d' k -> k = m) by (intros k Hk; apply hex4_iff in Hk; congruence).
        destruct ((56320 <=? m) && (m <=? 57343))%N eqn:K4.
        -- apply andb_prop in K4 as [K4 K5]. apply N.leb_le in K4, K5. rewrite rcons_inr.
           replace ((n - 55296) * 1024 + (m - 56320) + 65536)%N with (65536 + (n - 55296) * 1024 + (m - 56320))%N by lia. split.
           ++ intros (s' & H & ->). eapply d_pair; eauto; try lia; [|now apply IH2]. apply form_encode. lia.
           ++ inversion 1; subst.
              { exfalso. uni U. unfold surrogate in *. lia. }
              match goal with H : utf8_form _ _ |- _ => apply form_unique in H end.
              uni U.
              uni U1.
              eexists. split; [apply IH2; eassumption|subst; reflexivity].
        -- split; [discriminate|]. inversion 1; subst.
           { exfalso. uni U. unfold surrogate in *. lia. }
           uni U1.
           apply andb_false_iff in K4. rewrite !N.leb_gt in K4. lia.
    + apply andb_false_iff in K2. rewrite !N.leb_gt in K2. rewrite rcons_inr. split.
      * intros (s' & H & ->). eapply d_unit; eauto; [unfold surrogate; lia|apply form_encode; lia|now apply IH1].
      * inversion 1; subst.
        -- uni U. match goal with H : utf8_form _ _ |- _ => apply form_unique in H end. subst.
           eexists. split; [apply IH1; eassumption|reflexivity].
        -- uni U. exfalso. lia.
Qed.
Lemma str_means_iff cs s : Forall char_ok cs -> (rd_str (rd_utf8 cs) = Ok s <-> str_means cs s).
Proof.
  intros F. unfold str_means. rewrite <- (decodes_iff cs F), <- utf8_iff. unfold rd_utf8, rd_str.
  destruct (rd_chars cs) as [e|x]; [split; [discriminate|intros [? _]; discriminate]|].
  destruct (utf8 x) eqn:U; split.
  - intros [= <-]. auto.
  - intros [[= <-] _]. auto.
  - discriminate.
  - intros [[= <-] U']. congruence.
Qed.
Section Floats.
Variable fp : bytes -> option bytes.
Lemma num_means_iff neg i fe n : json_int i -> (num_of fp neg i fe = Ok n <-> num_means fp neg i fe n).
Proof.
  intros J. assert (DV : decimal (dec_val i) i) by (split; auto; unfold be_value, dec_val; clear; generalize 0%N; induction i; cbn; auto).
  assert (U : forall m, decimal m i -> m = dec_val i) by (intros m [_ Hm]; destruct DV as [_ Hd]; congruence).
  unfold num_of. fold (minus neg).
  assert (FL : (match fp (minus neg ++ i ++ fe) with Some l => Ok (Float l) | None => Err Malformed end = Ok n) <->
     exists x, n = Float x /\ fp (minus neg ++ i ++ fe) = Some x).
  { destruct (fp (minus neg ++ i ++ fe)); split; try discriminate.
    - intros [= <-]. eauto.
    - intros (x & -> & [= <-]). auto.
    - intros (x & _ & ?). discriminate. }
  change (if neg then ["-"%char] else []) with (minus neg).
  destruct fe as [|c fe].
  - destruct neg.
    + destruct ((dec_val i =? 0) || (i64_lim <? dec_val i))%N eqn:K.
      * apply orb_prop in K. rewrite N.eqb_eq, N.ltb_lt in K. rewrite FL. split.
        -- intros (x & -> & H). apply nm_float; auto. intros m _ D. apply U in D. subst. unfold i64_lim in K. exact K.
        -- inversion 1; subst; [|eauto]. apply U in H0. subst. unfold i64_lim in K. change (2 ^ 63)%N with 9223372036854775808%N in *. lia.
      * apply orb_false_iff in K as [K1 K2]. apply N.eqb_neq in K1. apply N.ltb_ge in K2. split.
        -- intros [= <-]. constructor; auto. unfold i64_lim in K2. change (2 ^ 63)%N with 9223372036854775808%N. lia.
        -- inversion 1; subst; [apply U in H0; subst; auto|]. specialize (H0 _ eq_refl DV). cbn in H0. unfold i64_lim in K2.
           change (2 ^ 63)%N with 9223372036854775808%N in *. lia.
    + destruct (N.ltb_spec (dec_val i) u64_lim) as [K|K].
      * split.
        -- intros [= <-]. constructor; auto.
        -- inversion 1; subst; [apply U in H0; subst; auto|]. specialize (H0 _ eq_refl DV). cbn in H0. unfold u64_lim in K.
           change (2 ^ 64)%N with 18446744073709551616%N in *. lia.
      * rewrite FL. split.
        -- intros (x & -> & H). apply nm_float; auto. intros m _ D. apply U in D. subst. exact K.
        -- inversion 1; subst; [|eauto]. apply U in H0. subst. unfold u64_lim in K. change (2 ^ 64)%N with 18446744073709551616%N in *. lia.
  - rewrite FL. split.
    + intros (x & -> & H). apply nm_float; auto. discriminate.
    + inversion 1; subst. eauto.
Qed.
(** Token trees of texts. *)
Fixpoint lex_ok (l : lex) : Prop :=
  match l with
  | LNum _ i _ => json_int i
  | LStr cs => Forall char_ok cs
  | LArr ls => fold_right (fun x P => lex_ok x /\ P) True ls
  | LObj ms => fold_right (fun m P => (Forall char_ok (fst m) /\ lex_ok (snd m)) /\ P) True ms
  | _ => True
  end.
Lemma written_ok : (forall l s, written l s -> lex_ok l) /\ (forall ls t, elements ls t -> Forall lex_ok ls)
  /\ (forall ms t, fields ms t -> Forall (fun m => Forall char_ok (fst m) /\ lex_ok (snd m)) ms).
Proof.
  apply written_all; cbn; auto.
  - intros ls t _ H. now apply fold_and.
  - intros ms t _ H. now apply (fold_and (fun m : list schar * lex => Forall char_ok (fst m) /\ lex_ok (snd m))).
Qed.
Lemma spells_ok l t : spells l t -> lex_ok l.
Proof. intros (a & s & b & _ & W & _). exact (proj1 written_ok _ _ W). Qed.
Lemma lex_ind' (P : lex -> Prop) :
  P LNull -> (forall b, P (LBool b)) -> (forall n i f, P (LNum n i f)) -> (forall cs, P (LStr cs)) ->
  (forall ls, Forall P ls -> P (LArr ls)) -> (forall ms, Forall (fun m => P (snd m)) ms -> P (LObj ms)) -> forall l, P l.
Proof.
  intros H1 H2 H3 H4 H5 H6. fix IH 1. intros [|b|n i f|cs|l|l].
  - exact H1.
  - apply H2.
  - apply H3.
  - apply H4.
  - apply H5. induction l as [|x l IHl]; constructor; [apply IH | exact IHl].
  - apply H6. induction l as [|x l IHl]; constructor; [apply IH | exact IHl].
Qed.
Lemma content_means l : lex_ok l -> forall d v, to_content fp (S d) (raw_lex l) = Ok v <-> means fp d l v.
Proof.
  induction l as [|b|n i f|cs|ls IH|ms IH] using lex_ind'; intros O d v.
  - cbn. split; [intros [= <-]; constructor|inversion 1; auto].
  - cbn. split; [intros [= <-]; constructor|inversion 1; auto].
  - cbn in O. cbn [raw_lex to_content]. rewrite rbind_Ok. split.
    + intros (m & H & [= <-]). constructor. now apply num_means_iff.
    + inversion 1; subst. eexists. split; [apply num_means_iff; eauto|reflexivity].
  - cbn in O. cbn [raw_lex to_content]. rewrite rbind_Ok. split.
    + intros (m & H & [= <-]). constructor. now apply str_means_iff.
    + inversion 1; subst. eexists. split; [apply str_means_iff; eauto|reflexivity].
  - cbn [raw_lex]. rewrite to_content_arr. destruct d as [|d]; cbn [c_enter rbind]; [split; [discriminate|inversion 1]|].
    cbn in O. apply fold_and in O. rewrite rbind_Ok.
    assert (K : forall vs, c_arr fp (S d) (map raw_lex ls) = Ok vs <-> Forall2 (means fp d) ls vs).
    { intros vs. rewrite c_arr_ok. revert vs. induction ls as [|x ls IHl]; intros vs; cbn [map].
      - split; inversion 1; constructor.
      - inversion IH; inversion O; subst. split; inversion 1; subst; constructor; try (apply IHl; auto); try (apply H1; auto). }
    split.
    + intros (vs & H & [= <-]). constructor. now apply K.
    + inversion 1; subst. eexists. split; [apply K; eauto|reflexivity].
  - cbn [raw_lex]. rewrite to_content_obj. destruct d as [|d]; cbn [c_enter rbind]; [split; [discriminate|inversion 1]|].
    cbn in O. apply (fold_and (fun m : list schar * lex => Forall char_ok (fst m) /\ lex_ok (snd m))) in O. rewrite rbind_Ok.
    assert (K : forall vs, c_obj fp (S d) (map raw_mem ms) = Ok vs <->
              Forall2 (fun m kv => str_means (fst m) (fst kv)) ms vs /\ Forall2 (fun m kv => means fp d (snd m) (snd kv)) ms vs).
    { induction ms as [|[k x] ms IHl]; intros vs; cbn [map c_obj raw_mem].
      - split; [intros [= <-]; split; constructor|intros [H _]; inversion H; auto].
      - inversion IH as [|? ? I1 I2]; inversion O as [|? ? [O1 O2] O3]; subst. cbn [fst snd] in *. rewrite rbind_Ok. split.
        + intros (k' & Hk & H). apply rbind_Ok in H as (v' & Hv & H). apply rbind_Ok in H as (vs' & Hvs & [= <-]).
          apply IHl in Hvs as [A B0]; auto. split; constructor; auto; cbn.
          * now apply str_means_iff.
          * now apply I1.
        + intros [A B0]. inversion A as [|? [k' v'] ? vs' A1 A2]; subst. inversion B0; subst. cbn [fst snd] in *.
          exists k'. split; [now apply str_means_iff|]. apply rbind_Ok. exists v'. split; [now apply I1|].
          apply rbind_Ok. exists vs'. split; [apply IHl; auto|reflexivity]. }
    split.
    + intros (vs & H & [= <-]). constructor; now apply K.
    + inversion 1; subst. eexists. split; [apply K; eauto|reflexivity].
Qed.
Lemma denotes_iff t v : from_json (to_content fp max_depth) t = Ok v <-> json_denotes fp t v.
Proof.
  rewrite from_json_iff. unfold json_denotes. change max_depth with (S 127).
  split; intros (l & S & H); exists l; (split; [exact S|]); now apply (content_means l (spells_ok _ _ S)).
Qed.
End Floats.
