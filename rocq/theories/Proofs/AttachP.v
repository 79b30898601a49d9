(** Attachments are not looked at: proofs for Props/Attach.v. *)
From Verif.Model Require Import Prelude Utf8 Base64 Json Serde DidDoc Crypto Keys Effects Jws Jwe Message FromPrior Pack Routing Unpack.
From Verif.Spec Require Import Codec Small Events World Text Attach.
From Verif.Proofs Require Import Lib RoundP TextP SigningP.

Lemma packing_blind C m l tr r : exec (pack_plaintext C m) tr r ->
  exists r', exec (pack_plaintext C (with_attachments l m)) tr r' /\ same_outcome r r'
    /\ forall t', r' = Ok t' -> t' = plain_text (with_attachments l m).
Proof.
  unfold pack_plaintext. change (msg_from_prior (with_attachments l m)) with (msg_from_prior m).
  rewrite exec_pbind. intros [(tr1 & tr2 & fp & -> & H1 & H2)|[(e & H & ->)|[H ->]]].
  - apply exec_Ret_Err in H2.
    assert (V : validate_pack_plaintext (with_attachments l m) fp = validate_pack_plaintext m fp) by reflexivity.
    destruct (validate_pack_plaintext m fp) as [[]|e|] eqn:E.
    + destruct H2 as [-> ->]. exists (Ok (message_text (with_attachments l m))). split; [|split; [exact I|]].
      * apply exec_pbind. left. exists tr1, [], fp. split; auto. split; auto. rewrite V. split; reflexivity.
      * intros t' T. injection T as <-. apply message_written.
    + destruct H2 as [-> ->]. exists (Err e). split; [|split; [reflexivity|discriminate]].
      apply exec_pbind. left. exists tr1, [], fp. split; auto. split; auto. rewrite V. split; reflexivity.
    + destruct H2 as [-> ->]. exists Panic. split; [|split; [exact I|discriminate]].
      apply exec_pbind. left. exists tr1, [], fp. split; auto. split; auto. rewrite V. split; reflexivity.
  - exists (Err e). split; [|split; [reflexivity|discriminate]]. apply exec_pbind. right. left. eauto.
  - exists Panic. split; [|split; [exact I|discriminate]]. apply exec_pbind. right. right. auto.
Qed.

Lemma rotation_unique C tr tr' jwt p kid p' kid' : rotation_by C tr jwt p kid -> rotation_by C tr' jwt p' kid' -> p = p' /\ kid = kid'.
Proof.
  intros (hd & pl & sg & hb & h & did & doc & ka & k & st & sa & s & pay & E & N1 & N2 & N3 & B1 & J1 & _ & K1 & _ & _ & _ & _ & _ & _ & P1 & _ & F1)
    (hd' & pl' & sg' & hb' & h' & did' & doc' & ka' & k' & st' & sa' & s' & pay' & E' & N1' & N2' & N3' & B1' & J1' & _ & K1' & _ & _ & _ & _ & _ & _ & P1' & _ & F1').
  rewrite E in E'. apply dot_split in E' as [<- E']; auto. apply dot_split in E' as [<- <-]; auto.
  rewrite B1 in B1'. injection B1' as <-. rewrite J1 in J1'. injection J1' as <-.
  rewrite P1 in P1'. injection P1' as <-. rewrite F1 in F1'. injection F1' as <-. split; congruence.
Qed.

Lemma reading_blind C dir own own' m l tr text text' fuel fuel' o o' tr1 tr2 x x' :
  message_fits C m -> opt (Forall (attachment_fits C)) l ->
  exec (pack_plaintext C m) tr (Ok text) -> exec (pack_plaintext C (with_attachments l m)) tr (Ok text') -> Forall (answers dir own) tr ->
  exec (unpack C (S fuel) text o) tr1 x -> Forall (answers dir own') tr1 ->
  exec (unpack C (S fuel') text' o') tr2 x' -> Forall (answers dir own') tr2 ->
  exists md, x = Some (Ok (m, md)) /\ x' = Some (Ok (with_attachments l m, md)).
Proof.
  intros MF AF P P' A U A1 U' A2.
  assert (MF' : message_fits C (with_attachments l m)).
  { unfold message_fits in *. cbn [with_attachments msg_id msg_typ msg_type msg_body msg_from msg_to msg_thid msg_pthid msg_extra msg_created msg_expires msg_from_prior msg_attachments].
    intuition auto. }
  destruct (plaintext_round C dir own own' m tr text fuel o tr1 x MF P A U A1) as (prior & R & ->).
  destruct (plaintext_round C dir own own' _ tr text' fuel' o' tr2 x' MF' P' A U' A2) as (prior' & R' & ->).
  exists (metadata None None None prior). split; [reflexivity|]. replace prior' with prior; [reflexivity|].
  unfold rotation_of in R, R'. cbn [with_attachments msg_from_prior] in R'.
  destruct prior as [[p k]|], prior' as [[p' k']|].
  - destruct R as (jwt & E & R), R' as (jwt' & E' & R'). rewrite E in E'. injection E' as <-.
    destruct (rotation_unique _ _ _ _ _ _ _ _ R R') as [-> ->]. reflexivity.
  - destruct R as (jwt & E & _). congruence.
  - destruct R' as (jwt & E & _). congruence.
  - reflexivity.
Qed.
