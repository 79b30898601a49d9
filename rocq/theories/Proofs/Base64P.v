(** Facts about the base64url codec. *)
From Verif.Model Require Import Prelude Utf8 Base64.
From Verif.Proofs Require Import Lib.

Lemma val_char s : b64_val (b64_char s) = Some s.
Proof. destruct s as [[[[[[] []] []] []] []] []]; reflexivity. Qed.
Lemma char_val c s : b64_val c = Some s -> b64_char s = c.
Proof.
  assert (G : match b64_val c with Some s => Ascii.eqb (b64_char s) c | None => true end = true)
    by (destruct c as [[] [] [] [] [] [] [] []]; reflexivity).
  intros H. rewrite H in G. now apply Ascii.eqb_eq.
Qed.
Lemma char_inj s s' : b64_char s = b64_char s' -> s = s'.
Proof. intros H. pose proof (val_char s). rewrite H, val_char in H0. congruence. Qed.
Lemma pad_val : b64_val pad = None. Proof. reflexivity. Qed.
Lemma char_not_pad s : Ascii.eqb (b64_char s) pad = false.
Proof. destruct s as [[[[[[] []] []] []] []] []]; reflexivity. Qed.

(** Induction by groups of three bytes. *)
Lemma ind3 (P : bytes -> Prop) :
  P [] -> (forall a, P [a]) -> (forall a b, P [a; b]) ->
  (forall a b c t, P t -> P (a :: b :: c :: t)) -> forall s, P s.
Proof.
  intros H0 H1 H2 H3.
  fix IH 1. intros [|a [|b [|c t]]]; [exact H0 | apply H1 | apply H2 | apply H3, IH].
Qed.

Lemma b64enc_3 a b c t : exists w x y z, b64enc (a :: b :: c :: t) = w :: x :: y :: z :: b64enc t
  /\ dec4 w x y z = Some (a, b, c) /\ Ascii.eqb z pad = false.
Proof.
  destruct a, b, c. cbn [b64enc]. do 4 eexists. split; [reflexivity|].
  unfold dec4. rewrite !val_char. split; auto using char_not_pad.
Qed.

Theorem b64_roundtrip s : b64dec (b64enc s) = Some s.
Proof.
  induction s as [|a|a b|a b c t IH] using ind3; auto.
  - destruct a. cbn. unfold dec2. now rewrite !val_char.
  - destruct a, b. cbn. rewrite char_not_pad. unfold dec3. now rewrite !val_char.
  - destruct (b64enc_3 a b c t) as (w & x & y & z & -> & H & Hz). cbn [b64dec].
    destruct (b64enc t) eqn:E.
    + rewrite Hz, H. destruct t as [|d t]; auto. exfalso. revert E.
      destruct d, t as [|[] [|[] t]]; cbn; congruence.
    + rewrite H, IH. reflexivity.
Qed.

Lemma b64enc_inj s s' : b64enc s = b64enc s' -> s = s'.
Proof. intros H. pose proof (b64_roundtrip s). rewrite H, b64_roundtrip in H0. congruence. Qed.

Ltac kill_val :=
  match goal with
  | H : context [match b64_val ?x with _ => _ end] |- _ =>
      let E := fresh "E" in destruct (b64_val x) as [[[[[[? ?] ?] ?] ?] ?]|] eqn:E; try congruence;
      apply char_val in E
  end.

Lemma dec2_enc a b x : dec2 a b = Some x -> b64enc x = [a; b].
Proof.
  unfold dec2. intros H. repeat kill_val.
  repeat match goal with H : context [if ?b then _ else _] |- _ => destruct b; try congruence end.
  injection H as <-. cbn. now subst.
Qed.
Lemma dec3_enc a b c x : dec3 a b c = Some x -> b64enc x = [a; b; c].
Proof.
  unfold dec3. intros H. repeat kill_val.
  repeat match goal with H : context [if ?b then _ else _] |- _ => destruct b; try congruence end.
  injection H as <-. cbn. now subst.
Qed.
Lemma dec4_enc a b c d x y z t : dec4 a b c d = Some (x, y, z) ->
  b64enc (x :: y :: z :: t) = a :: b :: c :: d :: b64enc t.
Proof.
  unfold dec4. intros H. repeat kill_val. injection H as <- <- <-. cbn. now subst.
Qed.

Definition padding (p : bytes) : Prop := p = [] \/ p = [pad] \/ p = [pad; pad].

(** Every accepted text is the canonical encoding followed by at most two pad characters. *)
Theorem b64dec_canonical s x : b64dec s = Some x -> exists p, padding p /\ s = b64enc x ++ p.
Proof.
  revert x. induction s as [s IH] using len_ind.
  destruct s as [|a [|b [|c [|d t]]]]; cbn [b64dec]; intros r H.
  - injection H as <-. exists []. split; [now left|reflexivity].
  - congruence.
  - apply dec2_enc in H. rewrite H. exists []. split; [now left|reflexivity].
  - destruct (Ascii.eqb_spec c pad).
    + apply dec2_enc in H. rewrite H. exists [pad]. subst. split; [right; now left|reflexivity].
    + apply dec3_enc in H. rewrite H. exists []. split; [now left|reflexivity].
  - destruct t as [|e t].
    + destruct (Ascii.eqb_spec d pad).
      * destruct (Ascii.eqb_spec c pad).
        -- apply dec2_enc in H. rewrite H. exists [pad; pad]. subst. split; [right; now right|reflexivity].
        -- apply dec3_enc in H. rewrite H. exists [pad]. subst. split; [right; now left|reflexivity].
      * destruct (dec4 a b c d) as [[[x y] z]|] eqn:E; try congruence. injection H as <-.
        rewrite (dec4_enc _ _ _ _ _ _ _ [] E). exists []. split; [now left|reflexivity].
    + destruct (dec4 a b c d) as [[[x y] z]|] eqn:E; try congruence.
      destruct (b64dec (e :: t)) as [r'|] eqn:F; try congruence. injection H as <-.
      destruct (IH (e :: t) ltac:(cbn; lia) _ F) as (p & Hp & Hr). exists p. split; auto.
      rewrite (dec4_enc _ _ _ _ _ _ _ r' E). cbn. now rewrite <- Hr.
Qed.

Lemma b64dec_length s x : b64dec s = Some x -> List.length x <= List.length s.
Proof.
  intros H. apply b64dec_canonical in H as (p & _ & ->). rewrite app_length.
  enough (List.length x <= List.length (b64enc x)) by lia. clear.
  induction x as [|[]|[] []|a b c t IH] using ind3; cbn; try lia.
  destruct a, b, c. cbn. lia.
Qed.

(** The alphabet. *)
Definition b64_ok (c : ascii) : bool := match b64_val c with Some _ => true | None => false end.
Lemma b64enc_ok s : forallb b64_ok (b64enc s) = true.
Proof.
  assert (K : forall x, b64_ok (b64_char x) = true) by (intros; unfold b64_ok; now rewrite val_char).
  induction s as [|[]|[] []|a b c t IH] using ind3; auto.
  - cbn. now rewrite !K.
  - cbn. now rewrite !K.
  - destruct a, b, c. cbn. now rewrite !K.
Qed.
(** Accepted texts contain only alphabet characters and '='. *)
Lemma b64dec_ok s x : b64dec s = Some x -> forallb (fun c => b64_ok c || Ascii.eqb c pad) s = true.
Proof.
  intros H. apply b64dec_canonical in H as (p & Hp & ->).
  rewrite forallb_app. apply andb_true_intro. split.
  - pose proof (b64enc_ok x). rewrite forallb_forall in *. intros c Hc. now rewrite H.
  - destruct Hp as [->|[->| ->]]; reflexivity.
Qed.
Lemma b64_no_dot s x : b64dec s = Some x -> ~ In "."%char s.
Proof.
  intros H I. apply b64dec_ok in H. rewrite forallb_forall in H. now apply H in I.
Qed.
