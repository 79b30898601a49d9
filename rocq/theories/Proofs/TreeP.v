(** Printed trees: they are UTF-8, they decode, and they do not decode as something else. *)
From Verif.Model Require Import Prelude Utf8 Base64 Json Serde DidDoc Crypto Keys Effects Jws Jwe Message FromPrior.
From Verif.Proofs Require Import Lib Base64P JsonP JsonDec SerdeP Errs.

(** ** UTF-8 *)
(** A multi-byte character: bytes above 127 that keep the validity of what follows. *)
Definition multi (u : bytes) : Prop :=
  (forall t, utf8 (u ++ t) = utf8 t) /\ Forall (fun c => byte_in 0 127 c = false) u.
Lemma utf8_ind (P : bytes -> Prop) : P [] -> (forall a t, byte_in 0 127 a = true -> P t -> P (a :: t)) ->
  (forall u t, multi u -> P t -> P (u ++ t)) -> forall s, utf8 s = true -> P s.
Proof.
  intros H0 H1 H2. assert (Z : forall a, cont a = true -> byte_in 0 127 a = false).
  { intros a. unfold cont, byte_in. intros H. apply andb_prop in H as [H H']. apply N.leb_le in H, H'.
    apply andb_false_iff. right. apply N.leb_gt. lia. }
  assert (Z' : forall lo hi a, (128 <= lo)%N -> byte_in lo hi a = true -> byte_in 0 127 a = false).
  { intros lo hi a L. unfold byte_in. intros H. apply andb_prop in H as [H H']. apply N.leb_le in H, H'.
    apply andb_false_iff. right. apply N.leb_gt. lia. }
  apply (len_ind (fun s => utf8 s = true -> P s)). intros s IH U. destruct s as [|a t]; auto.
  cbn [utf8] in U. destruct (byte_in 0 127 a) eqn:Ea; [apply H1; auto; apply IH; auto; cbn; lia|].
  destruct t as [|b t]; [discriminate|]. destruct (byte_in 194 223 a) eqn:E2.
  { apply andb_prop in U as [Ub U]. apply (H2 [a; b]); [|apply IH; auto; cbn; lia]. split.
    - intros r. cbn. now rewrite Ea, E2, Ub.
    - repeat constructor; auto. }
  destruct t as [|c t]; [discriminate|]. destruct (byte_in 224 239 a) eqn:E3.
  { apply andb_prop in U as [Ub U]. apply andb_prop in Ub as [Ub Uc]. apply (H2 [a; b; c]); [|apply IH; auto; cbn; lia]. split.
    - intros r. cbn. now rewrite Ea, E2, E3, Ub, Uc.
    - repeat constructor; auto. destruct (byte_in 224 224 a); [eapply Z'; [|exact Ub]; lia|].
      destruct (byte_in 237 237 a); [eapply Z'; [|exact Ub]; lia|auto]. }
  destruct t as [|d t]; [discriminate|].
  apply andb_prop in U as [U Ut]. apply andb_prop in U as [U Ud]. apply andb_prop in U as [U Uc]. apply andb_prop in U as [U Ub].
  apply (H2 [a; b; c; d]); [|apply IH; auto; cbn; lia]. split.
  - intros r. cbn [app utf8]. now rewrite Ea, E2, E3, U, Ub, Uc, Ud.
  - repeat constructor; auto. destruct (byte_in 240 240 a); [eapply Z'; [|eassumption]; lia|].
    destruct (byte_in 244 244 a); [eapply Z'; [|eassumption]; lia|auto].
Qed.
Lemma utf8_app a b : utf8 a = true -> utf8 b = true -> utf8 (a ++ b) = true.
Proof.
  intros Ha Hb. revert a Ha. apply utf8_ind; auto.
  - intros a t E H. cbn. now rewrite E.
  - intros u t [M _] H. rewrite <- app_assoc. now rewrite M.
Qed.
Lemma utf8_esc s : utf8 s = true -> utf8 (esc_str s) = true.
Proof.
  revert s. apply utf8_ind; auto.
  - intros a t E H. unfold esc_str in *. cbn [flat_map]. apply utf8_app; auto. revert E.
    destruct a as [[] [] [] [] [] [] [] []]; vm_compute; congruence.
  - intros u t [M F] H. unfold esc_str in *. rewrite flat_map_app.
    replace (flat_map esc_char u) with u; [now rewrite M|]. clear M. induction F as [|c u Hc F IH]; auto.
    cbn [flat_map]. rewrite <- IH. revert Hc. destruct c as [[] [] [] [] [] [] [] []]; vm_compute; congruence.
Qed.

Definition ascii7 (s : bytes) : Prop := forallb (byte_in 0 127) s = true.
Lemma ascii7_app a b : ascii7 a -> ascii7 b -> ascii7 (a ++ b).
Proof. unfold ascii7. rewrite forallb_app. now intros -> ->. Qed.
Lemma ascii7_cons c b : byte_in 0 127 c = true -> ascii7 b -> ascii7 (c :: b).
Proof. unfold ascii7. cbn. now intros -> ->. Qed.
Lemma span_ascii s a b : span_digits s = (a, b) -> s = a ++ b /\ ascii7 a.
Proof.
  revert a b; induction s as [|c t IH]; cbn; intros a b H; [injection H as <- <-; split; reflexivity|].
  destruct (is_digit c) eqn:E.
  - destruct (span_digits t) as [x y]. injection H as <- <-. destruct (IH x y eq_refl) as [-> IH']. split; auto.
    apply ascii7_cons; auto. revert E. destruct c as [[] [] [] [] [] [] [] []]; vm_compute; congruence.
  - injection H as <- <-. split; reflexivity.
Qed.
Lemma pexp_ascii s x r : pexp s = inr (x, r) -> s = x ++ r /\ ascii7 x.
Proof.
  unfold pexp. destruct (psign s) as [sg s1] eqn:E. assert (s = sg ++ s1 /\ ascii7 sg) as [-> A].
  { unfold psign in E. destruct s as [|c t]; [injection E as <- <-; split; reflexivity|].
    destruct (Ascii.eqb c "+" || Ascii.eqb c "-") eqn:F; injection E as <- <-; split; try reflexivity.
    apply ascii7_cons; [|reflexivity]. revert F. destruct c as [[] [] [] [] [] [] [] []]; vm_compute; congruence. }
  intros H. destruct s1 as [|c t]; [discriminate|]. destruct (span_digits (c :: t)) as [d y] eqn:F.
  destruct d; [discriminate|]. injection H as <- <-. apply span_ascii in F as [-> F]. rewrite app_assoc.
  split; auto. now apply ascii7_app.
Qed.
Lemma popt_ascii s acc x r : popt_exp s acc = inr (x, r) -> exists y, s = y ++ r /\ ascii7 y.
Proof.
  unfold popt_exp. destruct s as [|c t]; [intros H; injection H as <- <-; exists []; split; reflexivity|].
  destruct (Ascii.eqb c "e" || Ascii.eqb c "E") eqn:E.
  - destruct (pexp t) as [|[z q]] eqn:F; [discriminate|]. intros H. injection H as <- <-.
    apply pexp_ascii in F as [-> F]. exists (c :: z). split; auto. apply ascii7_cons; auto.
    revert E. destruct c as [[] [] [] [] [] [] [] []]; vm_compute; congruence.
  - intros H. injection H as <- <-. exists []. split; reflexivity.
Qed.
Lemma pfe_ascii s x r : pfe s = inr (x, r) -> exists y, s = y ++ r /\ ascii7 y.
Proof.
  unfold pfe. destruct s as [|c t]; [intros H; injection H as <- <-; exists []; split; reflexivity|].
  destruct (Ascii.eqb c ".") eqn:E; [|now apply popt_ascii].
  unfold pfrac. destruct t as [|d t]; [discriminate|]. destruct (span_digits (d :: t)) as [ds q] eqn:F.
  destruct ds; [discriminate|]. apply span_ascii in F as [-> F]. intros H. apply popt_ascii in H as (y & -> & H).
  exists (c :: (a :: ds) ++ y). split; [cbn [app]; now rewrite <- app_assoc|].
  apply ascii7_cons; [|now apply ascii7_app]. apply Ascii.eqb_eq in E. now subst.
Qed.
Lemma num_ascii n : num_lex n -> ascii7 (print_number n).
Proof.
  unfold num_lex. generalize (print_number n). intros s.
  assert (K : forall b s, snd (pnum_body b s) = Some [] -> ascii7 s).
  { clear. intros b s. unfold pnum_body. destruct s as [|c t]; [discriminate|].
    destruct (is_digit c) eqn:D; cbn [negb]; [|discriminate].
    assert (Dc : byte_in 0 127 c = true). { revert D. destruct c as [[] [] [] [] [] [] [] []]; vm_compute; congruence. }
    destruct (Ascii.eqb c "0").
    - destruct t as [|d t]; [intros _; now apply ascii7_cons|]. destruct (is_digit d); [discriminate|].
      destruct (pfe (d :: t)) as [|[fe r]] eqn:E; [discriminate|]. cbn. intros H. injection H as ->.
      apply pfe_ascii in E as (y & -> & E). rewrite app_nil_r. now apply ascii7_cons.
    - destruct (span_digits (c :: t)) as [ds r] eqn:E. apply span_ascii in E as [-> E].
      destruct (pfe r) as [|[fe r']] eqn:F; [discriminate|]. cbn. intros H. injection H as ->.
      apply pfe_ascii in F as (y & -> & F). rewrite app_nil_r. now apply ascii7_app. }
  unfold pnum. destruct s as [|c t]; [discriminate|]. destruct (Ascii.eqb c "-") eqn:E; intros H; apply K in H; auto.
  apply Ascii.eqb_eq in E. subst. now apply ascii7_cons.
Qed.
Lemma utf8_join l : Forall (fun s => utf8 s = true) l -> utf8 (join (B ",") l) = true.
Proof.
  induction 1 as [|x l Hx F IH]; auto. destruct l as [|y l]; [exact Hx|].
  change (utf8 (x ++ B "," ++ join (B ",") (y :: l)) = true). apply utf8_app; auto.
Qed.
Lemma utf8_print_str s : utf8 s = true -> utf8 (print_str s) = true.
Proof. intros H. unfold print_str. apply (utf8_app [""""%char]); [reflexivity|]. apply utf8_app; [now apply utf8_esc|reflexivity]. Qed.
Lemma utf8_print v : printable v -> utf8 (print v) = true.
Proof.
  induction v as [| b | n | s | l IH | l IH] using value_ind'; intros W; try reflexivity.
  - now destruct b.
  - cbn [print]. apply ascii_utf8. now apply num_ascii.
  - cbn [print]. now apply utf8_print_str.
  - apply printable_arr in W. cbn [print]. apply (utf8_app ["["%char]); [reflexivity|]. apply utf8_app; [|reflexivity].
    apply utf8_join. induction IH; cbn; inversion W; subst; constructor; auto.
  - apply printable_obj in W. cbn [print]. apply (utf8_app ["{"%char]); [reflexivity|]. apply utf8_app; [|reflexivity].
    apply utf8_join. induction IH as [|[k v] l Hx IH]; cbn [map]; inversion W as [|? ? [U Wx]]; subst; constructor; auto.
    cbn [fst snd] in *. apply utf8_app; [now apply utf8_print_str|]. apply utf8_app; auto.
Qed.

(** ** Printable trees *)
Lemma str_printable s : utf8 s = true -> printable (VStr s). Proof. auto. Qed.
Ltac pobj := apply printable_obj; repeat first [apply Forall_nil | apply Forall_cons; [split; [reflexivity|cbn [snd]]|]].
Lemma jws_printable j : Forall (fun sg => utf8 (sig_kid sg) = true /\ utf8 (sig_protected sg) = true /\
    utf8 (sig_signature sg) = true) (jws_signatures j) -> utf8 (jws_payload j) = true -> printable (jws_tree j).
Proof.
  intros H P. unfold jws_tree. pobj; [|exact P]. apply printable_arr. apply Forall_map.
  eapply Forall_impl; [|exact H]. intros sg (H1 & H2 & H3). unfold jws_sig_tree. pobj; auto. pobj. auto.
Qed.
Lemma jws_header_printable t a : utf8 t = true -> utf8 (jws_alg_str a) = true -> printable (jws_header_tree (mkJH t a)).
Proof. intros. unfold jws_header_tree. pobj; auto. Qed.
Lemma compact_header_printable t a k : utf8 t = true -> utf8 (jws_alg_str a) = true -> utf8 k = true ->
  printable (compact_header_tree (mkCH t a k)).
Proof. intros. unfold compact_header_tree. pobj; auto. Qed.
Lemma jwe_printable j : utf8 (jwe_protected j) = true ->
  Forall (fun r => utf8 (rc_kid r) = true /\ utf8 (rc_key r) = true) (jwe_recipients j) ->
  utf8 (jwe_iv j) = true -> utf8 (jwe_ciphertext j) = true -> utf8 (jwe_tag j) = true -> printable (jwe_tree j).
Proof.
  intros H1 H2 H3 H4 H5. unfold jwe_tree. pobj; auto. apply printable_arr, Forall_map.
  eapply Forall_impl; [|exact H2]. intros r (K1 & K2). unfold recipient_tree. pobj; auto. pobj. auto.
Qed.
Lemma jwe_header_printable h : match ph_typ h with Some t => utf8 t = true | None => True end ->
  utf8 (jwe_alg_str (ph_alg h)) = true -> utf8 (jwe_enc_str (ph_enc h)) = true -> ostr_ok (ph_skid h) -> ostr_ok (ph_apu h) ->
  utf8 (ph_apv h) = true -> printable (ph_epk h) -> printable (jwe_header_tree h).
Proof.
  intros H1 H2 H3 H4 H5 H6 H7. unfold jwe_header_tree. apply printable_obj.
  repeat (apply Forall_app; split); try (apply opt_member_wf; [reflexivity|]; now apply ostr_printable).
  - repeat (apply Forall_cons || apply Forall_nil); (split; [reflexivity|]); auto. cbn [snd]. destruct (ph_typ h); [auto|exact I].
  - repeat (apply Forall_cons || apply Forall_nil); (split; [reflexivity|]); auto.
Qed.
Lemma from_prior_printable p : utf8 (fp_iss p) = true -> utf8 (fp_sub p) = true -> ostr_ok (fp_aud p) -> ostr_ok (fp_jti p) ->
  printable (from_prior_tree p).
Proof.
  intros H1 H2 H3 H4. unfold from_prior_tree. apply printable_obj.
  repeat (apply Forall_app; split); try (apply opt_member_wf; [reflexivity|]; try (apply ostr_printable; assumption); intros; apply nat_printable).
  repeat (apply Forall_cons || apply Forall_nil); (split; [reflexivity|]); auto.
Qed.

(** ** What an object must contain to decode *)
(** Visiting members: a component of the state that only a member named [name] can fill. *)
Lemma walk_fills {S A} (step : S -> bytes -> raw -> res S) (name : bytes) (get : S -> option A) l tl : forall s s',
  (forall s k v s', step s k v = Ok s' -> get s = None -> get s' <> None -> k = name) ->
  walk step s l tl = Ok s' -> get s = None -> get s' <> None -> In (inr name) (map fst l).
Proof.
  intros s s' H. revert s. induction l as [|[k v] l IH]; intros s W G G'; cbn in W.
  - destruct tl; cbn in W; [discriminate|]. injection W as ->. contradiction.
  - apply rbind_Ok in W as (k' & K & W). destruct k; cbn in K; [discriminate|]. injection K as ->.
    apply rbind_Ok in W as (s1 & K & W). destruct (get s1) eqn:E.
    + left. f_equal. cbn. f_equal. eapply H; eauto. congruence.
    + right. eapply IH; eauto.
Qed.
Lemma mems_names l n : In (inr n) (map fst (mems l)) -> In n (map fst l).
Proof. unfold mems. rewrite map_map. cbn [fst]. intros H. apply in_map_iff in H as (x & E & I). injection E as <-. now apply in_map. Qed.
Lemma once_Ok {A} (c : option A) f v o : once c f v = Ok o -> c = None /\ o <> None.
Proof. unfold once. destruct c; [discriminate|]. intros H. apply rbind_Ok in H as (a & _ & H). split; auto. congruence. Qed.

Ltac fills := intros; cbn in *;
  repeat match goal with
  | H : (if beq ?k ?n then _ else _) = Ok _ |- _ => destruct (beq_spec k n); [try (subst; reflexivity)|]
  | H : rbind _ _ = Ok _ |- _ => apply rbind_Ok in H as (? & ? & H)
  | H : Ok _ = Ok _ |- _ => injection H as <-; try contradiction
  | H : context [match ?s with pair _ _ => _ end] |- _ => destruct s
  end; cbn in *; try contradiction; try tauto; try (exfalso; congruence).

Lemma need_Ok {A} (o : option A) a : need o = Ok a -> o = Some a.
Proof. apply ok_or_Ok. Qed.
Ltac needs H := repeat (let X := fresh in apply rbind_Ok in H as (? & X & H); apply need_Ok in X; subst).
Lemma jwe_needs l j : de_jwe (raw_of (VObj l)) = Ok j ->
  forall n, In n [B "protected"; B "recipients"; B "iv"; B "ciphertext"; B "tag"] -> In n (map fst l).
Proof.
  rewrite raw_of_obj. unfold de_jwe. intros H. apply rbind_Ok in H as (s & W & H). destruct s as [[[[p rs] i] c] t].
  needs H.
  intros n In. cbn in In. destruct In as [<-|[<-|[<-|[<-|[<-|[]]]]]]; apply mems_names.
  - eapply (walk_fills _ (B "protected") (fun s => let '(p, rs, i, c, t) := s in p)); [|exact W|reflexivity|cbn; congruence]. fills.
  - eapply (walk_fills _ (B "recipients") (fun s => let '(p, rs, i, c, t) := s in rs)); [|exact W|reflexivity|cbn; congruence]. fills.
  - eapply (walk_fills _ (B "iv") (fun s => let '(p, rs, i, c, t) := s in i)); [|exact W|reflexivity|cbn; congruence]. fills.
  - eapply (walk_fills _ (B "ciphertext") (fun s => let '(p, rs, i, c, t) := s in c)); [|exact W|reflexivity|cbn; congruence]. fills.
  - eapply (walk_fills _ (B "tag") (fun s => let '(p, rs, i, c, t) := s in t)); [|exact W|reflexivity|cbn; congruence]. fills.
Qed.
Lemma jws_needs l j : de_jws (raw_of (VObj l)) = Ok j ->
  forall n, In n [B "signatures"; B "payload"] -> In n (map fst l).
Proof.
  rewrite raw_of_obj. unfold de_jws. intros H. apply rbind_Ok in H as (s & W & H). destruct s as [sg p].
  needs H.
  intros n In. cbn in In. destruct In as [<-|[<-|[]]]; apply mems_names.
  - eapply (walk_fills _ (B "signatures") (fun s => fst s)); [|exact W|reflexivity|cbn; congruence]. fills.
  - eapply (walk_fills _ (B "payload") (fun s => snd s)); [|exact W|reflexivity|cbn; congruence]. fills.
Qed.
Lemma message_needs fp l m : de_message fp (raw_of (VObj l)) = Ok m ->
  forall n, In n [B "id"; B "type"; B "body"] -> In n (map fst l).
Proof.
  rewrite raw_of_obj. unfold de_message. intros H. apply rbind_Ok in H as (s & W & H). destruct s.
  unfold msg_finish in H. needs H.
  intros n In. cbn in In. destruct In as [<-|[<-|[<-|[]]]]; apply mems_names.
  - eapply (walk_fills _ (B "id") m_id); [|exact W|reflexivity|cbn; congruence]. intros [] ? ? ?. unfold msg_step. fills.
  - eapply (walk_fills _ (B "type") m_type); [|exact W|reflexivity|cbn; congruence]. intros [] ? ? ?. unfold msg_step. fills.
  - eapply (walk_fills _ (B "body") m_body); [|exact W|reflexivity|cbn; congruence]. intros [] ? ? ?. unfold msg_step. fills.
Qed.

(** A printed object without a required member is Malformed for that decoder. *)
Lemma lacks {A} (dec : raw -> res A) (need : list bytes) l n : printable (VObj l) ->
  (forall r, clean (fun _ => False) r -> errs (fun k => k = Malformed) (dec r)) ->
  (forall a, dec (raw_of (VObj l)) = Ok a -> forall n, In n need -> In n (map fst l)) ->
  In n need -> ~ In n (map fst l) -> from_json dec (print (VObj l)) = Err Malformed.
Proof.
  intros P E H I N. pose proof (print_errs dec (VObj l) P E) as X. rewrite from_json_print in * by auto.
  destruct (dec (raw_of (VObj l))) as [a|k|] eqn:D; cbn in X; [|now subst|destruct X].
  destruct N. eapply H; eauto.
Qed.
Lemma no_jwe l n : printable (VObj l) -> In n [B "protected"; B "recipients"; B "iv"; B "ciphertext"; B "tag"] ->
  ~ In n (map fst l) -> jwe_from_str (print (VObj l)) = Err Malformed.
Proof. intros P. apply lacks; auto; [|intros; eapply jwe_needs; eauto]. apply errs_jwe; easy. Qed.
Lemma no_jws l n : printable (VObj l) -> In n [B "signatures"; B "payload"] ->
  ~ In n (map fst l) -> jws_from_str (print (VObj l)) = Err Malformed.
Proof. intros P. apply lacks; auto; [|intros; eapply jws_needs; eauto]. apply errs_jws; easy. Qed.
Lemma no_message fp l n : printable (VObj l) -> In n [B "id"; B "type"; B "body"] ->
  ~ In n (map fst l) -> message_from_str fp (print (VObj l)) = Err Malformed.
Proof. intros P. apply lacks; auto; [|intros; eapply message_needs; eauto]. apply errs_message; easy. Qed.

Ltac absent := vm_compute; intuition discriminate.
Lemma jwe_not_jws j : printable (jwe_tree j) -> jws_from_str (print (jwe_tree j)) = Err Malformed.
Proof. intros P. apply (no_jws _ (B "payload") P); [cbn; auto|absent]. Qed.
Lemma jwe_not_message fp j : printable (jwe_tree j) -> message_from_str fp (print (jwe_tree j)) = Err Malformed.
Proof. intros P. apply (no_message _ _ (B "id") P); [cbn; auto|absent]. Qed.
Lemma jws_not_jwe j : printable (jws_tree j) -> jwe_from_str (print (jws_tree j)) = Err Malformed.
Proof. intros P. apply (no_jwe _ (B "iv") P); [cbn; auto|absent]. Qed.
Lemma jws_not_message fp j : printable (jws_tree j) -> message_from_str fp (print (jws_tree j)) = Err Malformed.
Proof. intros P. apply (no_message _ _ (B "id") P); [cbn; auto|absent]. Qed.
