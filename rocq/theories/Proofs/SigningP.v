(** What signing keys are used for. *)
From Verif.Model Require Import Prelude Utf8 Base64 Json Serde DidDoc Crypto Keys Effects Jws Jwe Message FromPrior Pack Routing Unpack.
From Verif.Spec Require Import Small Codec Events World Text Signing.
From Verif.Proofs Require Import Lib Base64P JsonP SerdeP CodecP SmallP TreeP Wp Errs NoPanic UnpackInv UnpackFacts WorldP SealP RoundP TextP PackP HideP.

Lemma dot_split (a b a' b' : bytes) : ~ In "."%char a -> ~ In "."%char a' -> a ++ "."%char :: b = a' ++ "."%char :: b' -> a = a' /\ b = b'.
Proof.
  revert a'. induction a as [|x a IH]; intros [|y a'] N N' E; cbn in E.
  - injection E as ->. auto.
  - injection E as <- _. exfalso. apply N'. now left.
  - injection E as -> _. exfalso. apply N. now left.
  - injection E as -> E. destruct (IH a') as [-> ->]; auto; intros I; [apply N|apply N']; now right.
Qed.

Lemma some_inj {A} (a b : A) : Some a = Some b -> a = b. Proof. congruence. Qed.
Section Honest.
Context (C : crypto).
Variables (msgs : message -> Prop) (priors : from_prior -> Prop).
Hypothesis MF : forall m, msgs m -> message_fits C m.
Hypothesis PF : forall p, priors p -> prior_fits p.

Lemma prior_print p : prior_fits p -> printable (from_prior_tree p).
Proof. intros (P1 & P2 & P3 & P4 & P5 & P6 & P7). apply from_prior_printable; auto using opt_ostr. Qed.
Lemma prior_no_message p : prior_fits p -> message_from_str (fparse C) (print (from_prior_tree p)) = Err Malformed.
Proof.
  intros F. apply prior_print in F. unfold from_prior_tree in *. eapply no_message; [exact F|left; reflexivity|].
  destruct p as [i s a e n t j]. cbn [fp_iss fp_sub fp_aud fp_exp fp_nbf fp_iat fp_jti].
  destruct a, e, n, t, j; cbn; intuition discriminate.
Qed.

Lemma honest_signed tr text kid sa payload m : only_signed C tr kid msgs priors -> signed_by C tr text kid sa payload ->
  message_from_str (fparse C) payload = Ok m -> msgs m.
Proof.
  intros OS (j & sg & hb & h & did & doc & ka & k & st & s & _ & _ & _ & HB & _ & _ & U & R & P & _ & V & PL & _) M.
  destruct (OS _ _ _ _ _ _ _ U R P V) as [(m' & Hm & a & _ & E)|(p & Hp & a & _ & E)]; rewrite <- ?message_written, <- ?from_prior_written in E.
  - apply dot_split in E as [_ E]; [|eapply b64_no_dot; exact HB|apply b64enc_no_dot]. rewrite E, b64_roundtrip in PL. apply some_inj in PL. subst payload.
    rewrite (message_roundtrip _ _ (message_fits_ok _ _ (MF _ Hm))) in M. apply Ok_inj in M. now subst m'.
  - apply dot_split in E as [_ E]; [|eapply b64_no_dot; exact HB|apply b64enc_no_dot]. rewrite E, b64_roundtrip in PL. apply some_inj in PL. subst payload.
    rewrite (prior_no_message _ (PF _ Hp)) in M. discriminate.
Qed.
Lemma honest_rotation tr jwt kid p : only_signed C tr kid msgs priors -> rotation_by C tr jwt p kid -> priors p.
Proof.
  intros OS (hd & pl & sg & hb & h & did & doc & ka & k & st & sa & s & payload & _ & N1 & N2 & N3 & HB & HH & HT & HK & _ & U & R & P & _ & V & PL & _ & M).
  destruct (OS _ _ _ _ _ _ _ U R P V) as [(m' & Hm & a & A & E)|(p' & Hp & a & A & E)]; rewrite <- ?message_written, <- ?from_prior_written in E.
  - exfalso. apply dot_split in E as [E _]; [|exact N1|apply b64enc_no_dot]. rewrite E, b64_roundtrip in HB. injection HB as <-.
    destruct A; vm_compute in HH; discriminate HH.
  - apply dot_split in E as [_ E]; [|exact N1|apply b64enc_no_dot]. rewrite E, b64_roundtrip in PL. apply some_inj in PL. subst payload.
    pose proof (PF _ Hp) as F. rewrite from_json_print in M by now apply prior_print.
    rewrite de_from_prior_raw in M. { apply Ok_inj in M. now subst p'. }
    destruct F as (P1 & P2 & P3 & P4 & P5 & P6 & P7). repeat split; auto using opt_u64.
Qed.
End Honest.

Section Inputs.
Context (C : crypto) (f : kalg -> sigtype -> key C -> bytes -> option bytes).
Notation C' := (with_sign C f).

Lemma sign_alg_name ka alg : sign_alg_of ka = Ok alg -> alg_name (jws_alg_str alg).
Proof. destruct ka; cbn; intros E; try discriminate; apply Ok_inj in E; subst; constructor. Qed.
Lemma pack_plaintext_same m : pack_plaintext C' m = pack_plaintext C m.
Proof. reflexivity. Qed.

Lemma signed_inputs m by_ : (forall ka st k t, message_string m t -> f ka st k t = key_sign C ka st k t) ->
  peq (pack_signed C m by_) (pack_signed C' m by_).
Proof.
  intros H. unfold pack_signed. destruct (negb _); [apply peq_refl|]. destruct (did_or_url by_) as [did u].
  do 7 (apply peq_pbind; [apply peq_refl|]; intros ?). apply peq_pbind; [apply peq_refl|]. intros [ka k]. cbv beta iota.
  apply peq_pbind_in. intros tr payload T. 
  assert (E : payload = message_text m).
  { unfold pack_plaintext in T. step T. step T. destruct T as [_ T]. apply Ok_inj in T. exact T. }
  subst payload. apply peq_pbind_in. intros tr' alg A. destruct A as [_ A].
  assert (S : jws_sign C (message_text m) x3 ka k alg = jws_sign C' (message_text m) x3 ka k alg).
  { unfold jws_sign. destruct (sig_type alg); auto. cbn [rbind]. unfold dot. cbn [with_sign key_sign].
    rewrite H; [reflexivity|]. exists (jws_alg_str alg). split; [apply (sign_alg_name ka); symmetry; exact A|]. 
    assert (X : alg_name (jws_alg_str alg)) by (apply (sign_alg_name ka); symmetry; exact A).
    rewrite <- message_written, jws_header_written by (destruct X; reflexivity). reflexivity. }
  rewrite S. apply peq_refl.
Qed.

Lemma prior_inputs p ik : (forall ka st k kid t, rotation_string kid p t -> f ka st k t = key_sign C ka st k t) ->
  peq (from_prior_pack C p ik) (from_prior_pack C' p ik).
Proof.
  intros H. unfold from_prior_pack. cbv zeta.
  do 8 (apply peq_pbind; [apply peq_refl|]; intros ?). apply peq_pbind; [apply peq_refl|]. intros [ka k]. cbv beta iota.
  apply peq_pbind_in. intros tr' alg A. destruct A as [_ A].
  assert (S : forall kid, jws_sign_compact C (print (from_prior_tree p)) kid ka k (B "JWT") alg = jws_sign_compact C' (print (from_prior_tree p)) kid ka k (B "JWT") alg).
  { intros kid. unfold jws_sign_compact. destruct (sig_type alg); auto. cbn [rbind]. unfold dot. cbn [with_sign key_sign].
    rewrite (H _ _ _ kid); [reflexivity|]. exists (jws_alg_str alg). split; [apply (sign_alg_name ka); symmetry; exact A|].
    assert (X : alg_name (jws_alg_str alg)) by (apply (sign_alg_name ka); symmetry; exact A).
    rewrite <- from_prior_written, token_header_written by (destruct X; reflexivity). reflexivity. }
  rewrite S. apply peq_refl.
Qed.
End Inputs.

(** ** Signed texts *)
Section Written.
Context (C : crypto).
Lemma sign_alg_with ka alg st : sign_alg_of ka = Ok alg -> sig_type alg = Ok st -> signs_with ka st (jws_alg_str alg) /\ plain (jws_alg_str alg) = true.
Proof.
  destruct ka; cbn; intros E S; try discriminate; apply Ok_inj in E; subst; cbn in S; apply Ok_inj in S; subst; (split; [constructor|reflexivity]).
Qed.
Lemma signed_written m by_ tr t kid : exec (pack_signed C m by_) tr (Ok (t, kid)) ->
  exists sec ka k st a sg, In (Ev (OGetSecret kid) (Ok (Some sec))) tr /\ sec_key_pair C sec = Ok (ka, k) /\ signs_with ka st a
    /\ key_sign C ka st k (b64enc (jws_header_text a) ++ B "." ++ b64enc (plain_text m)) = Some sg /\ t = jws_text (plain_text m) kid a sg.
Proof.
  intros H. apply pack_signed_inv in H as (did & doc & asked & found & sec & ka & k & alg & trp & _ & _ & -> & _ & _ & KP & SA & _ & S).
  unfold jws_sign in S. apply rbind_Ok in S as (st & ST & S). cbv zeta in S. apply rbind_Ok in S as (sg & SG & S). apply ok_or_Ok in SG. apply Ok_inj in S.
  destruct (sign_alg_with _ _ _ SA ST) as [W P]. unfold dot in SG. rewrite jws_header_written, message_written in SG by exact P.
  rewrite jws_written in S by exact P. rewrite message_written in S.
  exists sec, ka, k, st, (jws_alg_str alg), sg. split; [cbn; auto|]. auto 10.
Qed.
Lemma token_written p ik tr t kid : exec (from_prior_pack C p ik) tr (Ok (t, kid)) ->
  exists sec ka k st a sg, In (Ev (OGetSecret kid) (Ok (Some sec))) tr /\ sec_key_pair C sec = Ok (ka, k) /\ signs_with ka st a
    /\ key_sign C ka st k (b64enc (token_header_text kid a) ++ B "." ++ b64enc (prior_text p)) = Some sg /\ t = token_text (prior_text p) kid a sg.
Proof.
  unfold from_prior_pack. intros H. step H. cbv zeta in H. step H. step H. step H. step H. step H. step H. step H. step H.
  destruct a7 as [ka k]. step H. step H. step H. ok.
  unfold jws_sign_compact in E6. apply rbind_Ok in E6 as (st & ST & S). cbv zeta in S. apply rbind_Ok in S as (sg & SG & S). apply ok_or_Ok in SG. apply Ok_inj in S.
  destruct (sign_alg_with _ _ _ E5 ST) as [W P]. unfold dot in SG, S. rewrite token_header_written, from_prior_written in SG, S by exact P.
  exists a6, ka, k, st, (jws_alg_str a7), sg. split; [cbn; auto|]. auto 10.
Qed.
End Written.
