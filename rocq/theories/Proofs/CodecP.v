(** The model of the codecs meets the specification of Spec/Codec.v. *)
From Verif.Model Require Import Prelude Utf8 Base64 Json.
From Verif.Proofs Require Import Lib Base64P JsonP JsonDec.
From Verif.Spec Require Import Codec.

(** ** base64url *)
Lemma alpha_char a b c d e f :
  b64_char (a, b, c, d, e, f) = nth (bits_value [a; b; c; d; e; f]) alphabet64 " "%char.
Proof. destruct a, b, c, d, e, f; reflexivity. Qed.

Lemma b64enc_spec s : is_base64url s (b64enc s).
Proof.
  induction s as [|a|a b|a b c t IH] using ind3.
  - exists []. split; [constructor|reflexivity].
  - destruct a as [a0 a1 a2 a3 a4 a5 a6 a7].
    exists [[a7; a6; a5; a4; a3; a2]; [a1; a0; false; false; false; false]]. split.
    + cbn [flat_map bits_of app]. apply (sx_cons [a7; a6; a5; a4; a3; a2] [a1; a0]); [reflexivity|].
      apply (sx_last [a1; a0] [false; false; false; false]); [cbn; lia|reflexivity].
    + cbn [b64enc map]. now rewrite !alpha_char.
  - destruct a as [a0 a1 a2 a3 a4 a5 a6 a7], b as [b0 b1 b2 b3 b4 b5 b6 b7].
    exists [[a7; a6; a5; a4; a3; a2]; [a1; a0; b7; b6; b5; b4]; [b3; b2; b1; b0; false; false]]. split.
    + cbn [flat_map bits_of app]. apply (sx_cons [a7; a6; a5; a4; a3; a2]); [reflexivity|].
      apply (sx_cons [a1; a0; b7; b6; b5; b4]); [reflexivity|].
      apply (sx_last [b3; b2; b1; b0] [false; false]); [cbn; lia|reflexivity].
    + cbn [b64enc map]. now rewrite !alpha_char.
  - destruct a as [a0 a1 a2 a3 a4 a5 a6 a7], b as [b0 b1 b2 b3 b4 b5 b6 b7], c as [c0 c1 c2 c3 c4 c5 c6 c7].
    destruct IH as (gs & H & E).
    exists ([a7; a6; a5; a4; a3; a2] :: [a1; a0; b7; b6; b5; b4] :: [b3; b2; b1; b0; c7; c6] :: [c5; c4; c3; c2; c1; c0] :: gs).
    split.
    + cbn [flat_map bits_of app]. apply (sx_cons [a7; a6; a5; a4; a3; a2]); [reflexivity|].
      apply (sx_cons [a1; a0; b7; b6; b5; b4]); [reflexivity|].
      apply (sx_cons [b3; b2; b1; b0; c7; c6]); [reflexivity|].
      now apply (sx_cons [c5; c4; c3; c2; c1; c0]).
    + cbn [b64enc map]. rewrite !alpha_char. now rewrite E.
Qed.

Lemma sextets_fun l gs gs' : sextets l gs -> sextets l gs' -> gs = gs'.
Proof.
  intros H. revert gs'. induction H as [|l z L ->|g l gs G H IH]; intros gs' H'.
  - inversion H' as [|l' z' L'|g' l' gs'' G' H'']; subst; auto.
    + cbn in L'. lia.
    + destruct g'; cbn in *; congruence.
  - inversion H' as [|l' z' L'|g' l' gs'' G' H'']; subst; auto.
    + cbn in L. lia.
    + rewrite app_length in L. lia.
  - inversion H' as [E|l' z' L' E1 E2|g' l' gs'' G' H'' E]; subst; auto.
    + destruct g; cbn in *; congruence.
    + rewrite app_length in L'. lia.
    + assert (E2 : firstn 6 (g' ++ l') = firstn 6 (g ++ l)) by congruence.
      rewrite <- G' in E2 at 1. rewrite <- G in E2.
      rewrite !firstn_app, !firstn_all, !Nat.sub_diag, !firstn_O, !app_nil_r in E2. subst g'.
      apply app_inv_head in E. subst l'. f_equal. auto.
Qed.
Lemma base64url_unique s t : is_base64url s t <-> t = b64enc s.
Proof.
  split; [|intros ->; apply b64enc_spec].
  intros (gs & H & ->). destruct (b64enc_spec s) as (gs' & H' & ->).
  now rewrite (sextets_fun _ _ _ H H').
Qed.

Lemma b64dec_spec t s : ~ In "="%char t -> (b64dec t = Some s <-> is_base64url s t).
Proof.
  intros N. rewrite base64url_unique. split.
  - intros H. apply b64dec_canonical in H as (p & P & ->).
    assert (p = []) as ->; [|now rewrite app_nil_r].
    destruct p as [|c p]; auto. destruct N. apply in_or_app. right. unfold padding in P.
    destruct P as [P|[P|P]]; inversion P; subst; now left.
  - intros ->. apply b64_roundtrip.
Qed.

(** ** JSON *)
Lemma is_digit_in c : is_digit c = true <-> digit09 c.
Proof.
  unfold digit09. destruct c as [[] [] [] [] [] [] [] []]; vm_compute; split; intros H; try congruence; try tauto;
    repeat (destruct H as [H|H]; try discriminate); auto 20.
Qed.
Lemma digits_in s : digits s <-> Forall digit09 s.
Proof.
  unfold digits. rewrite forallb_forall, Forall_forall. split; intros H c I; apply is_digit_in; auto.
Qed.
Lemma lead_in i : json_int i -> digits i /\ lead_ok i.
Proof.
  intros [->|(c & t & -> & I & D)].
  - split; [reflexivity|]. exists "0"%char, []. auto.
  - split.
    + apply digits_in. constructor; auto. unfold digit09. cbn in *. tauto.
    + exists c, t. split; auto. cbn in I. intros E. apply Ascii.eqb_eq in E. subst.
      repeat (destruct I as [I|I]; [discriminate|]). destruct I.
Qed.
Lemma pexp_spec sg d : (sg = [] \/ sg = B "+" \/ sg = B "-") -> digits1 d -> pexp (sg ++ d) = inr (sg ++ d, []).
Proof.
  intros S [N D]. apply digits_in in D.
  assert (E : psign (sg ++ d) = (sg, d)).
  { destruct S as [->|[->| ->]]; try reflexivity. destruct d as [|c d]; [congruence|]. cbn.
    unfold digits in D. cbn in D. apply andb_prop in D as [D _].
    revert D. destruct c as [[] [] [] [] [] [] [] []]; vm_compute; congruence. }
  unfold pexp. rewrite E. pose proof (span_digits_app d [] D I) as F. rewrite app_nil_r in F. rewrite F.
  destruct d; [congruence|]. reflexivity.
Qed.
Lemma popt_exp_spec e acc : json_exp e -> popt_exp e acc = inr (acc ++ e, []).
Proof.
  intros [->|(c & sg & d & -> & I & S & D)]; [cbn; now rewrite app_nil_r|].
  unfold popt_exp. assert ((Ascii.eqb c "e" || Ascii.eqb c "E") = true) as ->.
  { cbn in I. destruct I as [<-|[<-|[]]]; reflexivity. }
  now rewrite pexp_spec.
Qed.
Lemma json_exp_start e : json_exp e -> match e with c :: _ => is_digit c = false /\ Ascii.eqb c "." = false | [] => True end.
Proof.
  intros [->|(c & sg & d & -> & I & S & D)]; auto. cbn in I. destruct I as [<-|[<-|[]]]; auto.
Qed.
Lemma pfe_spec f e : json_frac f -> json_exp e -> pfe (f ++ e) = inr (f ++ e, []).
Proof.
  intros [->|(d & -> & N & D)] E.
  - cbn [app]. pose proof (json_exp_start e E) as P. unfold pfe. destruct e as [|c e]; auto.
    destruct P as [_ ->]. now rewrite popt_exp_spec.
  - cbn [app pfe]. rewrite Ascii.eqb_refl.
    assert (pfrac (d ++ e) = inr (d, e)) as ->.
    { unfold pfrac. apply digits_in in D. rewrite (span_digits_app d e D).
      - destruct d; [congruence|]. reflexivity.
      - pose proof (json_exp_start e E). destruct e; tauto. }
    now rewrite popt_exp_spec.
Qed.
Lemma float_pnum_body neg i f e : json_int i -> json_frac f -> json_exp e ->
  pnum_body neg (i ++ f ++ e) = (RNum neg i (f ++ e), Some []).
Proof.
  intros J F E. destruct (lead_in i J) as [D (c & t & -> & Z)].
  assert (FE : match f ++ e with c :: _ => is_digit c = false | [] => True end).
  { destruct F as [->|(d & -> & _)]; [|reflexivity]. cbn. pose proof (json_exp_start e E). destruct e; tauto. }
  pose proof D as D'. unfold digits in D'. cbn in D'. apply andb_prop in D' as [Dc Dt].
  unfold pnum_body. cbn [app]. rewrite Dc. cbn [negb].
  destruct (Ascii.eqb c "0") eqn:E0.
  - rewrite Z by auto. cbn [app]. destruct (f ++ e) as [|x y] eqn:FE'; [reflexivity|].
    rewrite FE. rewrite <- FE', pfe_spec by auto. now rewrite FE'.
  - change (c :: t ++ f ++ e) with ((c :: t) ++ f ++ e). rewrite span_digits_app by auto.
    now rewrite pfe_spec.
Qed.

Section Values.
Variable fp : bytes -> option bytes.
Lemma json_number_ok n : json_number fp n -> num_ok fp n.
Proof.
  destruct n as [n|n|l].
  - intros H. now apply num_ok_pos.
  - intros [H1 H2]. apply num_ok_neg; unfold i64_lim; lia.
  - intros [(ng & i & f & e & E & G & J & F & X & NE) P].
    assert (NE' : f ++ e <> []) by (destruct f; cbn; [destruct NE; auto|congruence]).
    destruct G as [->| ->].
    + exists false, i, (f ++ e). cbn [app] in E. split.
      * cbn [print_number]. rewrite E. destruct (lead_in i J) as [D (c & t & Ei & _)]. unfold pnum.
        pose proof (float_pnum_body false i f e J F X) as Q. rewrite Ei in *. cbn [app] in *.
        unfold digits in D. cbn in D. apply andb_prop in D as [D _]. rewrite (digit_not_minus c D). exact Q.
      * unfold num_of. cbn [app]. rewrite <- E, P. destruct (f ++ e) eqn:FE; [congruence|]. reflexivity.
    + exists true, i, (f ++ e). split.
      * cbn [print_number]. rewrite E. cbn [B list_ascii_of_string app pnum]. cbn. now apply float_pnum_body.
      * unfold num_of. change (["-"%char] ++ i ++ f ++ e) with (B "-" ++ i ++ f ++ e). rewrite <- E, P.
        destruct (f ++ e) eqn:FE; [congruence|]. reflexivity.
Qed.
Lemma floats_stable_ok : floats_stable fp -> fparse_ok fp.
Proof. intros H t l E. apply json_number_ok. eauto. Qed.
Lemma sorted_keys l : sorted_names (map fst l) -> keys_sorted l.
Proof.
  induction l as [|[k v] l IH]; [constructor|]. destruct l as [|[k' v'] l]; [constructor|]. cbn [map fst] in *.
  inversion 1; subst. split; auto.
Qed.
Lemma json_value_ok v : forall d, json_value fp d v -> wfv fp v /\ canon v /\ depth v <= d.
Proof.
  induction v as [| b | n | s | l IH | l IH] using value_ind'; intros d H; inversion H; subst.
  - repeat split; auto. cbn. lia.
  - repeat split; auto. cbn. lia.
  - repeat split; auto; [|cbn; lia]. now apply json_number_ok.
  - repeat split; auto. cbn. lia.
  - rename d0 into e. assert (A : Forall (fun x => wfv fp x /\ canon x /\ depth x <= e) l).
    { rewrite Forall_forall in *. intros x I. eauto. }
    repeat split.
    + apply wfv_arr. eapply Forall_impl; [|exact A]. cbn beta. tauto.
    + apply canon_arr. eapply Forall_impl; [|exact A]. cbn beta. tauto.
    + assert (depth (VArr l) < S (S e)); [|lia]. apply depth_arr. split; [lia|]. eapply Forall_impl; [|exact A].
      cbn. intros x (_ & _ & K). lia.
  - rename d0 into e. assert (A : Forall (fun kv => (utf8 (fst kv) = true /\ wfv fp (snd kv)) /\ canon (snd kv) /\ depth (snd kv) <= e) l).
    { rewrite Forall_forall in *. intros [k x] I. cbn. destruct (H3 k x I) as [U J]. destruct (IH _ I _ J). tauto. }
    repeat split.
    + apply wfv_obj. eapply Forall_impl; [|exact A]. cbn beta. tauto.
    + now apply sorted_keys.
    + apply (fold_and (fun kv : bytes * value => canon (snd kv))). eapply Forall_impl; [|exact A]. cbn. tauto.
    + assert (depth (VObj l) < S (S e)); [|lia]. apply depth_obj. split; [lia|]. eapply Forall_impl; [|exact A].
      cbn. intros x (_ & _ & K). lia.
Qed.
Lemma json_lossless v : json_value fp 127 v -> from_json (to_value fp max_depth) (print v) = Ok v.
Proof.
  intros H. apply json_value_ok in H as (W & K & D). apply json_roundtrip; auto. unfold max_depth. lia.
Qed.
Lemma json_lossless_text s v : floats_stable fp ->
  from_json (to_value fp max_depth) s = Ok v -> from_json (to_value fp max_depth) (print v) = Ok v.
Proof. intros F. apply json_reprint; [now apply floats_stable_ok|]. unfold max_depth. lia. Qed.
End Values.
