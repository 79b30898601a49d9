(** Texts that are read alike are unpacked alike. *)
From Verif.Model Require Import Prelude Utf8 Base64 Json DidDoc Crypto Keys Effects Serde Jws Jwe Message FromPrior Pack Routing Unpack.
From Verif.Spec Require Import Codec Small Events Grammar Spell.
From Verif.Proofs Require Import Lib SmallP DeliverP GrammarP SpellP.

Section Alike.
Context (C : crypto) (t t' : bytes).
Hypothesis Ejwe : jwe_from_str t = jwe_from_str t'.
Hypothesis Ejws : jws_from_str t = jws_from_str t'.
Hypothesis Emsg : message_from_str (fparse C) t = message_from_str (fparse C) t'.
Definition smd (d d' : unpack_metadata) : Prop := d' = d \/ um_signed_message d = Some t /\ d' = with_signed (Some t') d.
Definition spair {A} (p q : A * unpack_metadata) : Prop := fst q = fst p /\ smd (snd p) (snd q).
Ltac same := repeat (apply alike_same; intros).
Ltac cases := lazymatch goal with |- alike _ (match ?x with _ => _ end) _ => destruct x end.
Ltac leaf := apply alike_ret; cbn; auto.
Lemma spair_refl {A} (p : A * unpack_metadata) : spair p p.
Proof. split; [|left]; reflexivity. Qed.
Lemma alike_refl {A} (R : A -> A -> Prop) p : (forall a, R a a) -> alike R p p.
Proof. intros H tr x E. eauto. Qed.
Lemma resR_refl {A} (R : A -> A -> Prop) x : (forall a, R a a) -> resR R x x.
Proof. intros H. destruct x; cbn; auto. Qed.
Lemma optR_refl {A} (R : A -> A -> Prop) x : (forall a, R a a) -> optR R x x.
Proof. intros H. destruct x; cbn; auto. Qed.

Lemma sign_spell md : alike (resR (optR spair)) (try_sign C t md) (try_sign C t' md).
Proof.
  unfold try_sign. rewrite Ejws. same. destruct a as [j|]; [|leaf]. same. destruct (snd a) as [|h [|h' l]]; [leaf| |leaf].
  destruct (jws_signatures j) as [|sg sgs]; [leaf|]. cbv zeta. destruct (did_or_url _) as [d u]. destruct (is_some u); cbn [negb]; [|leaf].
  same. cases; [leaf|]. same. destruct (utf8 _); leaf. split; [reflexivity|]. right. split; reflexivity.
Qed.
Lemma plain_spell p md md' : smd md md' -> alike (resR (optR spair)) (try_plaintext C p md) (try_plaintext C p md').
Proof.
  intros S. unfold try_plaintext. same. destruct a as [m|]; [|leaf]. same. destruct (msg_from_prior a) as [jwt|].
  - same. destruct a0 as [q kid]. leaf. split; [reflexivity|]. destruct S as [->|[E ->]]; [left|right]; cbn; auto.
  - leaf. split; auto.
Qed.
Lemma rest_spell o md : alike (resR spair) (unpack_rest C t o md) (unpack_rest C t' o md).
Proof.
  unfold unpack_rest. replace (try_authcrypt C t' o md) with (try_authcrypt C t o md) by (unfold try_authcrypt; now rewrite Ejwe).
  apply alike_same. intros [[pt d]|].
  - apply alike_refl. intros x. apply resR_refl, spair_refl.
  - eapply alike_pbind; [apply sign_spell|]. intros a b AB.
    destruct a as [[pt d]|], b as [[pt' d']|]; cbn in AB; try easy.
    + destruct AB as [E S]. cbn in E, S. subst pt'.
      eapply alike_pbind; [apply plain_spell, S|]. intros a b AB. apply alike_ret. destruct a, b; cbn in AB |- *; auto; easy.
    + replace (try_plaintext C t' md) with (try_plaintext C t md) by (unfold try_plaintext; now rewrite Emsg).
      apply alike_refl. intros x. apply resR_refl, spair_refl.
Qed.
Lemma unpack_spell fuel o tr x : exec (unpack C fuel t o) tr x -> exists x', exec (unpack C fuel t' o) tr x' /\ same_result t t' x x'.
Proof.
  intros H. assert (A : alike (optR (resR spair)) (unpack C fuel t o) (unpack C fuel t' o)).
  { unfold unpack. destruct fuel as [|f]; cbn [unpack_loop]; [now apply alike_ret|].
    replace (try_anoncrypt C t' o um_init) with (try_anoncrypt C t o um_init) by (unfold try_anoncrypt; now rewrite Ejwe).
    apply (alike_bind eq); [now apply alike_refl|]. intros a b ->. destruct b as [[[pt d]|]| |].
    - apply alike_refl. intros y. apply optR_refl. intros z. apply resR_refl, spair_refl.
    - eapply alike_bind; [apply rest_spell|]. intros a b AB. now apply alike_ret.
    - now apply alike_ret.
    - now apply alike_ret. }
  destruct (A _ _ H) as (x' & H' & R). exists x'. split; auto.
  destruct x as [[[m md]|k|]|], x' as [[[m' md']|k'|]|]; cbn in R; try easy; try (now left).
  - destruct R as [E S]. cbn in E, S. subst m'. destruct S as [->|[E ->]]; [now left|right; eauto].
  - left. congruence.
Qed.
End Alike.

(** Plain spellings of the same document. *)
Lemma plainly_alike C t t' v fuel o tr x : floats_stable (fparse C) -> denotes_plainly (fparse C) t v -> denotes_plainly (fparse C) t' v ->
  exec (unpack C fuel t o) tr x -> exists x', exec (unpack C fuel t' o) tr x' /\ same_result t t' x x'.
Proof.
  intros F D D'. assert (X : forall A (dec : raw -> res A), blind (fparse C) true dec -> from_json dec t = from_json dec t').
  { intros A dec K. rewrite (respelled_plainly _ F dec t v K D). symmetry. now apply respelled_plainly with (fp := fparse C). }
  apply unpack_spell; apply X; [apply blind_jwe|apply blind_jws|apply blind_message].
Qed.
(** Texts with the same tokens. *)
Lemma tokens_alike C l t t' fuel o tr x : spells l t -> spells l t' ->
  exec (unpack C fuel t o) tr x -> exists x', exec (unpack C fuel t' o) tr x' /\ same_result t t' x x'.
Proof.
  intros S S'. assert (X : forall A (dec : raw -> res A), from_json dec t = from_json dec t').
  { intros A dec. now rewrite (from_json_lex dec l t S), (from_json_lex dec l t' S'). }
  apply unpack_spell; apply X.
Qed.

(** A text without a backslash has no needless escapes. *)
Lemma src_plain cs : ~ In "\"%char (flat_map char_src cs) -> Forall (fun x => exists c, x = CPlain c) cs.
Proof.
  induction cs as [|x cs IH]; constructor.
  - destruct x as [c| |]; [eauto| |]; exfalso; apply H; cbn; auto.
  - apply IH. intros I. apply H. cbn. apply in_or_app. auto.
Qed.
Ltac nin H := intros ?I; apply H; rewrite ?in_app_iff; auto 12.
Lemma plain_all : (forall l s, written l s -> ~ In "\"%char s -> no_needless_escape l)
  /\ (forall ls s, elements ls s -> ~ In "\"%char s -> Forall no_needless_escape ls)
  /\ (forall ms s, fields ms s -> ~ In "\"%char s -> Forall (fun m : list schar * lex => no_needless_escape (snd m)) ms).
Proof.
  apply written_all; intros; try (constructor; fail).
  - apply ne_plain, src_plain. unfold quoted in *. nin H0.
  - constructor. constructor.
  - constructor. apply H0. nin H1.
  - constructor. constructor.
  - constructor. apply H0. nin H1.
  - constructor; [|constructor]. apply H1. nin H3.
  - constructor; [|apply H4; nin H5]. apply H1. nin H5.
  - constructor; [|constructor]. cbn. apply H4. nin H6.
  - constructor; [|apply H7; nin H8]. cbn. apply H4. nin H8.
Qed.
Lemma no_backslash fp t v : json_denotes fp t v -> ~ In "\"%char t -> denotes_plainly fp t v.
Proof.
  intros (l & S & M) N. exists l. split; auto. split; auto. destruct S as (a & s & b & _ & W & _ & ->).
  apply (proj1 plain_all l s W). nin N.
Qed.
