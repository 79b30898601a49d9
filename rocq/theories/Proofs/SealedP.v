(** What sender keys of authcrypt envelopes are used for. *)
From Verif.Model Require Import Prelude Utf8 Base64 Json Serde DidDoc Crypto Keys Effects Jws Jwe Message FromPrior Pack Routing Unpack.
From Verif.Spec Require Import Small Codec Events World Text Packing Signing Wire Sealed.
From Verif.Proofs Require Import Lib Base64P JsonP SerdeP CodecP SmallP TreeP Wp Errs NoPanic UnpackInv UnpackFacts WorldP SealP RoundP TextP PackP RouteP HideP SigningP WireP ReadP NamesP.

Section Honest.
Context (C : crypto).
Lemma alg_name_of a : alg_name a -> exists x, a = jws_alg_str x /\ plain (jws_alg_str x) = true /\ utf8 (jws_alg_str x) = true.
Proof. intros []; [exists EdDSA|exists Es256|exists Es256K]; repeat split; reflexivity. Qed.

Lemma signed_tree payload kid a sg : utf8 kid = true -> alg_name a -> exists j, printable (jws_tree j) /\ print (jws_tree j) = jws_text payload kid a sg
  /\ jws_payload j = b64enc payload.
Proof.
  intros U A. apply alg_name_of in A as (x & -> & P & _). eexists. split; [|split; [exact (jws_written payload kid x sg P)|reflexivity]].
  apply jws_printable; cbn [jws_signatures jws_payload]; [|apply b64_utf8]. constructor; [|constructor]. cbn. auto using b64_utf8.
Qed.
Lemma payload_kept j j' : printable (jws_tree j) -> jws_from_str (print (jws_tree j)) = Ok j' -> jws_payload j' = jws_payload j.
Proof.
  intros P H. apply jws_of_text in H; [|exact P]. destruct j as [sgs p]. cbn [jws_payload]. unfold de_jws, jws_tree in H. rewrite raw_of_obj in H.
  cbn [mems map fst snd jws_signatures jws_payload] in H. cbn [walk rd_str rbind] in H. kbeqH H. unfold once in H.
  apply rbind_Ok in H as (s & H & E). destruct (de_vec _ _) as [v| |]; try discriminate H. cbn [rbind] in H. kbeqH H.
  destruct (de_borrowed (raw_of (VStr p))) as [q| |] eqn:D; try discriminate H. rewrite (de_borrowed_raw p (de_borrowed_plain _ _ D)) in D. apply Ok_inj in D. subst q.
  cbn [rbind] in H. apply Ok_inj in H. subst s. cbn in E. apply Ok_inj in E. now subst j'.
Qed.

Lemma honest_sealed tr all text j from t (msgs : message -> Prop) : (forall m, msgs m -> message_fits C m) -> only_sealed C tr from msgs ->
  auth_opened C tr all text j from t -> exists m, msgs m /\ sealed_text m t.
Proof.
  intros MF OS (h & apv & found & did & doc & ka & fk & _ & _ & _ & _ & _ & _ & _ & _ & _ & U & R & P & _ & _ & T).
  unfold tried in T. destruct all.
  - destruct T as (l & kid & _ & (sec & ka' & k & H & K & -> & O) & _). eauto.
  - destruct T as (kid & l & _ & (sec & ka' & k & H & K & -> & O)). eauto.
Qed.
Lemma honest_auth fuel text o tr m md from (msgs : message -> Prop) : (forall m, msgs m -> message_fits C m) ->
  exec (unpack C fuel text o) tr (Some (Ok (m, md))) -> um_encrypted_from_kid md = Some from -> only_sealed C tr from msgs -> msgs m.
Proof.
  intros MF H F OS. apply unpack_inv in H as (rew & anon & auth & sign & prior & t1 & t2 & t3 & _ & Au & Si & M & _ & _ & ->). cbn in F.
  destruct auth as [[kids fr]|]; [|discriminate F]. cbn in F. injection F as ->. destruct Au as (j & Au & _).
  destruct (honest_sealed _ _ _ _ _ _ _ MF OS Au) as (m' & Hm & [->|(kid & a & sg & U & A & ->)]); pose proof (MF _ Hm) as Fm; rewrite <- message_written in Si.
  - destruct sign as [[sk sa]|].
    + destruct Si as (js & ? & ? & ? & ? & ? & ? & ? & ? & ? & E & _). rewrite (message_not_jws _ _ Fm) in E. discriminate E.
    + destruct Si as [-> _]. rewrite (message_roundtrip _ _ (message_fits_ok _ _ Fm)) in M. apply Ok_inj in M. now subst m'.
  - destruct (signed_tree (message_text m') kid a sg U A) as (js & P & W & PL). rewrite <- W in Si. destruct sign as [[sk sa]|].
    + destruct Si as (j' & ? & ? & ? & ? & ? & ? & ? & ? & ? & E & Z). do 10 destruct Z as [_ Z]. destruct Z as (Z & _).
      apply payload_kept in E; [|exact P]. rewrite E, PL, b64_roundtrip in Z. apply some_inj in Z. subst t3.
      rewrite (message_roundtrip _ _ (message_fits_ok _ _ Fm)) in M. apply Ok_inj in M. now subst m'.
    + destruct Si as [-> _]. rewrite jws_not_message in M by exact P. discriminate M.
Qed.
End Honest.

(** ** What is encrypted *)
Section Inputs.
Context (C : crypto) (e : cenc -> bytes -> bytes -> bytes -> bytes -> option (bytes * bytes)).
Notation C' := (with_aead C e).
Lemma sealing_inputs m to from sb o : po_forward o = false ->
  (forall ce k n aad t, t = plain_text m \/ (exists kid a sg, alg_name a /\ t = jws_text (plain_text m) kid a sg) -> e ce k n aad t = aead_enc C ce k n aad t) ->
  (po_protect_sender o = true -> forall ce k n aad t, e ce k n aad (B "{""protected""" ++ t) = aead_enc C ce k n aad (B "{""protected""" ++ t)) ->
  peq (pack_encrypted C m to from sb o) (pack_encrypted C' m to from sb o).
Proof.
  intros NF H HP. assert (OO : o = no_forward o) by (destruct o; cbn in NF; subst; reflexivity). unfold pack_encrypted.
  apply peq_pbind; [apply peq_refl|]. intros _. apply peq_pbind_in. intros tr [msg sk] W.
  assert (S : forall ce k n aad, e ce k n aad msg = aead_enc C ce k n aad msg).
  { intros ce k n aad. apply H. destruct sb as [s|].
    - apply exec_pbind_Ok in W as (? & ? & [t kid] & _ & W & [_ W']). apply Ok_inj in W'. injection W' as -> ->. apply signed_written in W as (? & ? & ? & ? & a & sg & _ & _ & SW & _ & ->).
      right. exists kid, a, sg. split; [|reflexivity]. destruct SW; constructor.
    - apply exec_pbind_Ok in W as (? & ? & t & _ & W & [_ W']). apply Ok_inj in W'. injection W' as -> ->. left. rewrite <- message_written.
      unfold pack_plaintext in W. step W. step W. destruct W as [_ W]. apply Ok_inj in W. exact W. }
  cbv beta iota. apply peq_pbind.
  - destruct from as [f|].
    + apply peq_pbind; [|intros; apply peq_refl]. apply authcrypt_peq; auto.
    + apply peq_pbind; [|intros; apply peq_refl]. apply anoncrypt_peq; auto.
  - intros [[t fk] kids]. cbv beta iota. rewrite OO, !wrap_off. apply peq_refl.
Qed.
End Inputs.
