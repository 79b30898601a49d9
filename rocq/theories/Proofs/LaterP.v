(** Reading a message with other DID documents. *)
From Verif.Model Require Import Prelude Utf8 Base64 Json Serde DidDoc Crypto Keys Effects Jws Jwe Message FromPrior Pack Routing Unpack.
From Verif.Spec Require Import Small Events World Accept Later.
From Verif.Proofs Require Import Lib SmallP NoPanic RoundP AcceptP ExactP.

Section Later.
Context (C : crypto) (own : bytes -> option secret) (dir dir' : bytes -> option diddoc).
Context (opens : list bytes -> (bytes -> kalg -> key C -> bytes -> Prop) -> bytes -> Prop).

Lemma mine_later next : still_ours own dir dir' -> mine dir own next -> mine dir' own next.
Proof.
  intros S [M|(N & doc & D & H)]; [now left|right]. split; auto.
  destruct (S next doc N D) as (doc' & D' & E). exists doc'. tauto.
Qed.
Lemma foreign_later next : still_ours own dir dir' -> foreign dir own next -> foreign dir' own next.
Proof.
  intros S [M|(N & doc & D & H)]; [now left|right]. split; auto.
  destruct (S next doc N D) as (doc' & D' & E). exists doc'. split; auto. intros kid I.
  destruct (own kid) as [s|] eqn:O; auto. destruct (proj2 E) as (kid1 & s1 & I1 & O1).
  - exists kid, s. auto.
  - rewrite (H kid1 I1) in O1. discriminate.
Qed.
Lemma layers_later o n text rew last t : (uo_unwrap o = true -> still_ours own dir dir') ->
  layers C dir own opens o n text rew last t -> layers C dir' own opens o n text rew last t.
Proof.
  intros S L. induction L as [|text j alg pt V U|].
  - now constructor.
  - constructor; auto. intros UN. destruct (U UN) as [E|[E|(next & v & F & G)]]; auto. right. right. exists next, v. split; auto. apply foreign_later; auto.
  - econstructor; eauto. apply mine_later; auto.
Qed.
Lemma carries_later o n text m md : (uo_unwrap o = true -> still_ours own dir dir') -> keys_stay C dir dir' md ->
  carries C dir own opens o n text m md -> carries C dir' own opens o n text m md.
Proof.
  intros S [K1 K2] (rew & anon & auth & sign & prior & t1 & t2 & t3 & L & A & SG & R & T & P & ->).
  cbn [um_encrypted_from_kid um_sign_from um_from_prior_issuer_kid] in K1, K2.
  exists rew, anon, auth, sign, prior, t1, t2, t3. split; [now apply layers_later|].
  split; [|split; [|split; [exact R|split; [exact T|split; [|reflexivity]]]]].
  - destruct auth as [[kids from]|]; auto. destruct A as (j & V & E). exists j. split; auto.
    destruct V as (h & apv & did & doc & ka & fk & V1 & V2 & V3 & V4 & V5 & V6 & V7 & V8 & V9 & V10 & V11 & D & PU & V12).
    destruct (K1 from eq_refl did doc ka fk V11 D PU) as (doc' & D' & PU').
    exists h, apv, did, doc', ka, fk. tauto.
  - destruct sign as [[kid sa]|]; auto.
    destruct SG as (j & sg & hb & h & did & doc & ka & k & st & s & V1 & V2 & V3 & V4 & V5 & V6 & V7 & D & PU & V8).
    destruct (K2 kid (or_introl eq_refl) did doc ka k V7 D PU) as (doc' & D' & PU').
    exists j, sg, hb, h, did, doc', ka, k, st, s. tauto.
  - destruct prior as [[p kid]|]; auto. destruct P as (jwt & J & V). exists jwt. split; auto.
    destruct V as (hd & pl & sg & hb & h & did & doc & ka & k & st & sa & s & payload & V1 & V2 & V3 & V4 & V5 & V6 & V7 & V8 & V9 & V10 & D & PU & V11).
    destruct (K2 kid (or_intror eq_refl) did doc ka k V10 D PU) as (doc' & D' & PU').
    exists hd, pl, sg, hb, h, did, doc', ka, k, st, sa, s, payload. tauto.
Qed.
End Later.

Lemma grown_stay C own dir dir' md : grown_for own dir dir' -> keys_stay C dir dir' md /\ still_ours own dir dir'.
Proof.
  intros G.
  assert (ST : forall rel kid, (rel = doc_key_agreement \/ rel = doc_authentication) -> still_published C dir dir' rel kid).
  { intros rel kid R did doc a k _ D (I & vm & F & E). destruct (G did doc D) as (doc' & D' & (I1 & I2 & I3) & _).
    exists doc'. split; auto. split; [destruct R as [->| ->]; auto|]. exists vm. auto. }
  split; [split; intros kid _; apply ST; auto|].
  intros did doc _ D. destruct (G did doc D) as (doc' & D' & (I1 & _) & N). exists doc'. split; auto. split; intros (kid & s & I & O).
  - exists kid, s. auto.
  - destruct (N kid I) as [I'|E]; [exists kid, s; auto|congruence].
Qed.
