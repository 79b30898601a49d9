(** Modified envelopes. *)
From Verif.Model Require Import Prelude Utf8 Base64 Json Serde DidDoc Crypto Keys Effects Jws Jwe Message FromPrior Pack Routing Unpack.
From Verif.Spec Require Import Small Codec Events Tamper.
From Verif.Proofs Require Import Lib UnpackInv UnpackFacts UnpackP RejectP.

Section Tamper.
Context (C : crypto).
Lemma opened_same cek ce j pt tr ce' ka j' h' sender kid sec k pt' : only_envelope C cek ce j pt -> only_key C tr j' h' sender cek ->
  held tr kid sec -> sec_key_pair C sec = Ok (ka, k) -> opened C ce' ka j' h' sender kid k pt' -> same_sealed j j' /\ pt' = pt /\ ce' = ce.
Proof.
  intros O K H S (cek' & iv & ct & tag & CK & I & CT & T & D). apply (K _ _ _ _ _ _ H S) in CK. subst cek'.
  destruct (O _ _ _ _ _ D) as (-> & -> & A & I' & ct0 & tag0 & CT0 & T0 & E). split; [|auto]. split; [auto|]. split; [congruence|].
  exists ct0, tag0, ct, tag. auto.
Qed.
Lemma tried_held tr al found open pt : tried C tr al found open pt ->
  exists kid sec ka k, held tr kid sec /\ sec_key_pair C sec = Ok (ka, k) /\ open kid ka k pt.
Proof. unfold tried. destruct al; [intros (l & kid & _ & (sec & ka & k & H) & _)|intros (kid & l & _ & sec & ka & k & H)]; eauto 8. Qed.
Lemma tamper_anon cek ce j pt fuel text' o tr m md j' h' : only_envelope C cek ce j pt ->
  exec (unpack C fuel text' o) tr (Some (Ok (m, md))) -> envelope C text' j' h' -> ph_alg h' = EcdhEsA256kw ->
  only_key C tr j' h' None cek -> same_sealed j j' /\ exists alg, anon_opened C tr (uo_all_keys o) text' j' alg pt /\ enc_of (ph_enc h') ce alg.
Proof.
  intros O H E A K. destruct (es_accepted C _ _ _ _ _ _ _ _ H E A) as (alg & pt' & AO). pose proof AO as (h & apv & found & ce' & E' & _ & EN & _ & _ & _ & _ & _ & _ & T).
  destruct (envelope_fun C _ _ _ _ _ E E') as [_ <-]. apply tried_held in T as (kid & sec & ka & k & HD & SK & _ & OP).
  destruct (opened_same _ _ _ _ _ _ _ _ _ _ _ _ _ _ O K HD SK OP) as (SS & -> & ->). eauto.
Qed.
Lemma tamper_auth cek ce j pt fuel text' o tr m md j' h' : only_envelope C cek ce j pt ->
  exec (unpack C fuel text' o) tr (Some (Ok (m, md))) -> envelope C text' j' h' -> ph_alg h' = Ecdh1puA256kw ->
  (forall from did doc ka fk, announces h' (Some from) -> url_of did from -> resolved tr did doc -> publishes C doc_key_agreement doc from ka fk ->
     only_key C tr j' h' (Some (from, fk)) cek) ->
  same_sealed j j' /\ exists from, auth_opened C tr (uo_all_keys o) text' j' from pt /\ um_encrypted_from_kid md = Some from /\ ce = CA256CbcHs512.
Proof.
  intros O H E A K. destruct (pu_accepted C _ _ _ _ _ _ _ _ H E A) as (from & pt' & AO & MD).
  pose proof AO as (h & apv & found & did & doc & ka & fk & E' & _ & _ & AN & _ & _ & _ & _ & _ & U & R & P & _ & _ & T).
  destruct (envelope_fun C _ _ _ _ _ E E') as [_ <-]. apply tried_held in T as (kid & sec & ka' & k & HD & SK & -> & OP).
  destruct (opened_same _ _ _ _ _ _ _ _ _ _ _ _ _ _ O (K _ _ _ _ _ AN U R P) HD SK OP) as (SS & -> & <-). eauto 6.
Qed.
End Tamper.
