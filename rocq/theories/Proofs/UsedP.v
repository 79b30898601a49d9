(** Which packed messages can be read. *)
From Verif.Model Require Import Prelude Utf8 Base64 Json Serde DidDoc Crypto Keys Effects Jws Jwe Message FromPrior Pack Routing Unpack.
From Verif.Spec Require Import Small Codec Events World.
From Verif.Proofs Require Import Lib Base64P JsonP SerdeP CodecP SmallP Wp Errs NoPanic UnpackInv UnpackFacts RejectP TreeP WorldP SealP RoundP.

Section Used.
Context (C : crypto) (pair : kalg -> key C -> key C -> Prop) (LAW : lawful C pair) (dir : bytes -> option diddoc).

Lemma answers_resolved own tr did doc : Forall (answers dir own) tr -> resolved tr did doc -> dir did = Some doc.
Proof. intros F R. eapply Forall_forall in F; [|exact R]. cbn in F. apply Ok_inj in F. now symmetry. Qed.
Lemma one_did_together kids : Forall key_id_ok kids -> one_did kids -> together kids.
Proof.
  intros K (_ & did & F). exists did. apply Forall_forall. intros kid I. rewrite Forall_forall in K, F. auto.
Qed.
Lemma sealed_envelope ce d ka pt alg enc sender rs text j p : sealed C pair ce d ka pt alg enc sender rs text j p ->
  envelope C text j (pj_protected p) /\ ph_alg (pj_protected p) = alg /\ recipient_kids j = map fst rs.
Proof.
  intros S. split; [|split; [apply S|apply S]]. split; [apply S|]. pose proof (sl_parse _ _ _ _ _ _ _ _ _ _ _ _ _ S) as P.
  apply jwe_parse_Ok in P as (_ & P & _). exact P.
Qed.
(** An accepted 1PU envelope names a listed key as its sender. *)
Lemma auth_known own ka pt from sk rs text j p o md tr r :
  sealed C pair CA256CbcHs512 Kdf1pu ka pt Ecdh1puA256kw A256cbcHs512 (Some (from, sk)) rs text j p -> key_id_ok from ->
  exec (try_authcrypt C text o md) tr (Ok r) -> Forall (answers dir own) tr ->
  known dir doc_key_agreement from /\ one_did (map fst rs).
Proof.
  intros S KI H F. destruct (sealed_envelope _ _ _ _ _ _ _ _ _ _ _ S) as (EN & AL & RK). destruct r as [[pt' md']|].
  - apply try_authcrypt_Some in H as (j' & from' & (h & apv & found & did & doc & ka' & fk & E & _ & _ & AN & _ & _ & _ & _ & O & U & R & PU & _) & _).
    destruct (envelope_fun C _ _ _ _ _ EN E) as [-> <-]. rewrite RK in O. split; [|exact O].
    pose proof (sl_parse _ _ _ _ _ _ _ _ _ _ _ _ _ S) as P. apply jwe_parse_Ok in P as (_ & _ & _ & AP).
    rewrite (sl_apu _ _ _ _ _ _ _ _ _ _ _ _ _ S) in AP. cbn [option_map fst] in AP.
    assert (from' = from) as ->. { pose proof (announces_fun _ _ _ AN AP) as X. congruence. }
    split; [exact KI|]. exists did, doc. split; [exact U|]. split; [eapply answers_resolved; eauto|apply PU].
  - apply try_authcrypt_None in H as [_ [N|(j' & h' & E' & N)]].
    + destruct EN; congruence.
    + destruct (envelope_fun C _ _ _ _ _ EN E') as [_ Q]. congruence.
Qed.
(** An accepted signature names a listed key. *)
Lemma signed_reads own m by_ tr text kid : secrets_match C pair dir own -> exec (pack_signed C m by_) tr (Ok (text, kid)) ->
  Forall (answers dir own) tr -> key_id_ok kid ->
  jwe_from_str text = Err Malformed /\ message_from_str (fparse C) text = Err Malformed
  /\ exists j sg, jws_from_str text = Ok j /\ jws_signatures j = [sg] /\ sig_kid sg = kid.
Proof.
  intros SM H F KI.
  destruct (pack_signed_Ok _ _ _ _ _ _ _ _ H F) as (did & doc & sec & a & k & alg & tr0 & D & I & OW & SK & SA & _ & _ & _ & JS).
  destruct (SM did doc kid sec doc_authentication (or_intror eq_refl) D I OW) as (a' & p & s & PU & SK' & PR).
  rewrite SK in SK'. apply Ok_inj in SK'. injection SK' as <- <-. destruct (sign_alg_row _ _ SA) as (st & sa & ROW).
  destruct (jws_sign_reads C pair LAW _ _ _ _ _ _ _ _ _ JS (key_id_plain _ KI) PR ROW) as (j & sg & h & TX & PJ & RDJ & PAJ & SGS & SKD & _).
  split; [subst text; now apply jws_not_jwe|]. split; [subst text; now apply jws_not_message|]. exists j, sg. auto.
Qed.
Lemma signed_known own own' m by_ tr text kid md tr' r : secrets_match C pair dir own -> exec (pack_signed C m by_) tr (Ok (text, kid)) ->
  Forall (answers dir own) tr -> key_id_ok kid ->
  exec (try_sign C text md) tr' (Ok r) -> Forall (answers dir own') tr' -> known dir doc_authentication kid.
Proof.
  intros SM H F KI X F'. destruct (signed_reads _ _ _ _ _ _ SM H F KI) as (_ & _ & j & sg & RD & SG & SK). destruct r as [[pl md']|].
  - apply try_sign_Some in X as (kid' & sa & (j' & sg' & hb & h & did & doc & ka & k & st & s & RD' & SG' & SK' & _ & _ & _ & U & R & PU & _) & _).
    rewrite RD in RD'. apply Ok_inj in RD'. subst j'. rewrite SG in SG'. injection SG' as <-. rewrite SK in SK'. subst kid'.
    split; [exact KI|]. exists did, doc. split; [exact U|]. split; [eapply answers_resolved; eauto|apply PU].
  - apply try_sign_None in X as [_ X]. congruence.
Qed.
(** What is inside the envelope. *)
Definition made (m : message) (sign_by : option bytes) (tr : list event) (msg : bytes) (skid : option bytes) : Prop :=
  exec (match sign_by with
        | Some s => let! (msg, kid) := pack_signed C m s in Ret (Ok (msg, Some kid))
        | None => let! msg := pack_plaintext C m in Ret (Ok (msg, None))
        end) tr (Ok (msg, skid)).
Lemma made_known own own' m sign_by tr msg skid md tr' r : secrets_match C pair dir own -> made m sign_by tr msg skid ->
  Forall (answers dir own) tr -> (forall k, skid = Some k -> key_id_ok k) ->
  exec (try_sign C msg md) tr' (Ok r) -> Forall (answers dir own') tr' -> forall k, skid = Some k -> known dir doc_authentication k.
Proof.
  unfold made. intros SM H F KI X F' k ->. destruct sign_by as [s|].
  - step H. destruct a as [t0' kid]. step H. rewrite app_nil_r in *. apply Ok_inj in H. injection H as -> ->.
    eapply signed_known; eauto.
  - step H. step H. apply Ok_inj in H. discriminate H.
Qed.
Lemma made_text own own' m sign_by tr msg skid o : secrets_match C pair dir own -> message_fits C m -> made m sign_by tr msg skid ->
  Forall (answers dir own) tr -> (forall k, skid = Some k -> key_id_ok k) -> (sign_by = None -> kept dir own' o m) ->
  utf8 msg = true /\ jwe_from_str msg = Err Malformed
  /\ (uo_unwrap o = true -> safe (answers dir own') (try_unwrap C msg) (fun r => r = Ok None)).
Proof.
  unfold made. intros SM MF H F KI KE. destruct sign_by as [s|].
  - step H. destruct a as [t0' kid]. step H. rewrite app_nil_r in *. apply Ok_inj in H. injection H as -> ->.
    destruct (signed_reads _ _ _ _ _ _ SM K F (KI _ eq_refl)) as (NJ & NM & _).
    destruct (pack_signed_Ok _ _ _ _ _ _ _ _ K F) as (did & doc & sec & a & k & alg & tr0 & D & I & OW & SK & SA & _ & _ & _ & JS).
    destruct (SM did doc kid sec doc_authentication (or_intror eq_refl) D I OW) as (a' & p & s' & PU & SK' & PR).
    rewrite SK in SK'. apply Ok_inj in SK'. injection SK' as <- <-. destruct (sign_alg_row _ _ SA) as (st & sa & ROW).
    destruct (jws_sign_reads C pair LAW _ _ _ _ _ _ _ _ _ JS (key_id_plain _ (KI _ eq_refl)) PR ROW) as (j & sg & h & TX & PJ & _).
    split; [subst t0'; now apply utf8_print|]. split; [exact NJ|]. intros _. now apply unwrap_not_message.
  - step H. step H. rewrite app_nil_r in *. apply Ok_inj in H. injection H as -> ->.
    destruct (pack_plaintext_Ok _ _ _ _ _ _ K F) as (-> & _). split; [eapply message_utf8; eauto|]. split; [eapply message_not_jwe; eauto|].
    intros U. eapply unwrap_kept; eauto.
Qed.
(** ** The layers, in a run that succeeds *)
Lemma rest_known own own' m sign_by tr msg skid o md tr' x : secrets_match C pair dir own -> made m sign_by tr msg skid ->
  Forall (answers dir own) tr -> (forall k, skid = Some k -> key_id_ok k) -> jwe_from_str msg = Err Malformed ->
  exec (unpack_rest C msg o md) tr' (Ok x) -> Forall (answers dir own') tr' -> forall k, skid = Some k -> known dir doc_authentication k.
Proof.
  intros SM H F KI NJ X F'. unfold unpack_rest in X. step X. apply Forall_app in F' as [FA F'].
  assert (E : a = None).
  { unfold try_authcrypt in K. rewrite NJ in K. cbn in K. destruct K as [_ K]. apply Ok_inj in K. exact K. }
  subst a. cbv iota beta zeta in X. step X. apply Forall_app in F' as [FS F']. eapply made_known; eauto.
Qed.
Lemma rest_auth_known own own' m sign_by tr msg skid ka from sk rs text j p o md tr' x did doc :
  secrets_match C pair dir own -> secrets_match C pair dir own' -> message_fits C m -> made m sign_by tr msg skid ->
  Forall (answers dir own) tr -> (forall k, skid = Some k -> key_id_ok k) -> utf8 msg = true ->
  sealed C pair CA256CbcHs512 Kdf1pu ka msg Ecdh1puA256kw A256cbcHs512 (Some (from, sk)) rs text j p -> key_id_ok from ->
  (exists sec, own from = Some sec /\ sec_key_pair C sec = Ok (ka, sk)) ->
  recipients C dir did doc ka rs -> Forall key_id_ok (map fst rs) -> holds_one own' (map fst rs) ->
  exec (unpack_rest C text o md) tr' (Ok x) -> Forall (answers dir own') tr' ->
  together (map fst rs) /\ known dir doc_key_agreement from /\ forall k, skid = Some k -> known dir doc_authentication k.
Proof.
  intros SM SM' MF H F KI U S KF (sec & OW & SK) R KR HO X F'. unfold unpack_rest in X. step X. apply Forall_app in F' as [FA F'].
  destruct (auth_known _ _ _ _ _ _ _ _ _ _ _ _ _ S KF K FA) as [KN O]. pose proof (one_did_together _ KR O) as TO.
  split; [exact TO|]. split; [exact KN|]. destruct KN as (_ & fdid & fdoc & URL & FD & FI).
  assert (SE : sender_key C pair dir fdid fdoc ka from sk).
  { destruct (SM fdid fdoc from sec doc_key_agreement (or_introl eq_refl) FD FI OW) as (a' & pk & s & PU & SK' & PR).
    rewrite SK in SK'. apply Ok_inj in SK'. injection SK' as <- <-. split; [exact FD|]. exists pk. auto. }
  pose proof (safe_exec _ _ _ _ _ (auth_stage_known C pair dir own' ka msg from sk rs text j p o md did doc fdid fdoc S SE URL KF R TO SM' HO U) K FA) as E.
  cbv beta in E. apply Ok_inj in E. subst a. cbv iota beta zeta in X. step X. apply Forall_app in F' as [FS F']. exact (made_known own own' m sign_by tr msg skid _ _ _ SM H F KI K0 FS).
Qed.
Lemma anon_layer own' ce ka pt enc alg rs text j p o fuel tr' m' md did doc :
  sealed C pair ce KdfEs ka pt EcdhEsA256kw enc None rs text j p -> enc_of enc ce alg ->
  recipients C dir did doc ka rs -> Forall key_id_ok (map fst rs) -> secrets_match C pair dir own' -> holds_one own' (map fst rs) -> utf8 pt = true ->
  (uo_unwrap o = true -> safe (answers dir own') (try_unwrap C pt) (fun r => r = Ok None)) ->
  exec (unpack C (S fuel) text o) tr' (Some (Ok (m', md))) -> Forall (answers dir own') tr' ->
  together (map fst rs) /\ exists md0 tr0, exec (unpack_rest C pt o md0) tr0 (Ok (m', md)) /\ Forall (answers dir own') tr0.
Proof.
  intros S EN R KR SM HO U UW X F'. destruct (sealed_envelope _ _ _ _ _ _ _ _ _ _ _ S) as (EV & AL & RK).
  assert (TO : together (map fst rs)).
  { apply one_did_together; [exact KR|]. rewrite <- RK. exact (proj1 (accepted_apv _ _ _ _ _ _ _ _ _ X EV (or_introl AL))). }
  split; [exact TO|]. unfold unpack in X. cbn [unpack_loop] in X. apply exec_bind in X as (t1 & t2 & r & -> & X1 & X2).
  apply Forall_app in F' as [F1 F2].
  pose proof (safe_exec _ _ _ _ _ (anon_stage_known C pair dir own' ce ka pt enc alg rs text j p o um_init did doc S EN R TO SM HO U) X1 F1) as E.
  cbv beta in E. subst r. cbv iota in X2. destruct (uo_unwrap o).
  - apply exec_bind in X2 as (t3 & t4 & r & -> & X2 & X3). apply Forall_app in F2 as [F2 F3].
    pose proof (safe_exec _ _ _ _ _ (UW eq_refl) X2 F2) as E. cbv beta in E. subst r. cbv iota in X3.
    apply exec_bind in X3 as (t5 & t6 & r & -> & X3 & X4). apply Forall_app in F3 as [F3 _]. destruct X4 as [_ X4]. injection X4 as <-. eauto.
  - apply exec_bind in X2 as (t5 & t6 & r & -> & X3 & X4). apply Forall_app in F2 as [F3 _]. destruct X4 as [_ X4]. injection X4 as <-. eauto.
Qed.
Lemma no_anon_layer own' ce ka pt enc sender rs text j p o fuel tr' m' md :
  sealed C pair ce Kdf1pu ka pt Ecdh1puA256kw enc sender rs text j p ->
  exec (unpack C (S fuel) text o) tr' (Some (Ok (m', md))) -> Forall (answers dir own') tr' ->
  exists md0 tr0, exec (unpack_rest C text o md0) tr0 (Ok (m', md)) /\ Forall (answers dir own') tr0.
Proof.
  intros S X F'. unfold unpack in X. cbn [unpack_loop] in X. apply exec_bind in X as (t1 & t2 & r & -> & X1 & X2).
  apply Forall_app in F' as [F1 F2].
  pose proof (safe_exec _ _ _ _ _ (anon_skip C pair dir own' _ _ _ _ _ _ _ _ _ _ _ o um_init S ltac:(discriminate)) X1 F1) as E.
  cbv beta in E. subst r. cbv iota in X2.
  apply exec_bind in X2 as (t5 & t6 & r & -> & X3 & X4). apply Forall_app in F2 as [F3 _]. destruct X4 as [_ X4]. injection X4 as <-. eauto.
Qed.

(** ** The whole *)
Lemma read_only_known own own' m to from sign_by po tr text pm fuel o tr' m' md :
  secrets_match C pair dir own -> secrets_match C pair dir own' -> message_fits C m ->
  exec (pack_encrypted C m to from sign_by po) tr (Ok (text, pm)) -> Forall (answers dir own) tr -> pm_service pm = None ->
  holds_one own' (pm_to_kids pm) -> (from = None -> sign_by = None -> kept dir own' o m) ->
  Forall key_id_ok (pm_to_kids pm) -> (forall k, pm_from_kid pm = Some k -> key_id_ok k) -> (forall k, pm_sign_by_kid pm = Some k -> key_id_ok k) ->
  exec (unpack C (S fuel) text o) tr' (Some (Ok (m', md))) -> Forall (answers dir own') tr' ->
  together (pm_to_kids pm) /\ (forall k, pm_from_kid pm = Some k -> known dir doc_key_agreement k)
  /\ forall k, pm_sign_by_kid pm = Some k -> known dir doc_authentication k.
Proof.
  intros SM SM' MF P F NS HO KE KR KF KS X F'. unfold pack_encrypted in P. step P. step P. destruct a0 as [msg skid].
  step P. destruct a0 as [[text1 fkid] kids]. step P.
  assert (W : a0 = None).
  { destruct a0 as [[fwd sm]|]; auto. destruct P as [_ P]. apply Ok_inj in P. injection P as _ ->. discriminate NS. }
  subst a0. step P. apply Ok_inj in P. injection P as -> ->. cbn [pm_to_kids pm_from_kid pm_sign_by_kid] in *.
  apply Forall_app in F as [F0 F]. apply Forall_app in F as [F1 F].
  assert (MD : made m sign_by t msg skid) by exact K.
  destruct from as [from|]; step K0.
  - destruct a0 as [[text2 fk] tk]. step K0. apply Ok_inj in K0. injection K0 as -> -> ->. rewrite app_nil_r in F1.
    destruct (authcrypt_Ok_held _ _ _ _ _ _ _ _ _ _ _ _ _ _ SM K2 F1) as (did & doc & fdid & fdoc & ka & rs & sk & t1' & tr1 & _ & _ & R & -> & _ & AE & PT & _ & HS).
    assert (KE0 : sign_by = None -> kept dir own' (mkUO false false) m) by (intros _ HH; discriminate HH).
    pose proof (proj1 (made_text own own' m sign_by t msg skid (mkUO false false) SM MF MD F0 KS KE0)) as MT.
    destruct (jwe_encrypt_sealed C pair LAW _ _ _ _ _ _ _ _ _ _ AE) as (j & p & S); try discriminate.
    { eapply Forall_impl; [|exact KR]. intros k. apply key_id_plain. }
    { cbn. intros s E'. injection E' as <-. apply key_id_plain, KF. reflexivity. }
    destruct (po_protect_sender po).
    + destruct PT as (tr2 & AN).
      destruct (anon_encrypt_sealed_known C pair LAW _ _ _ _ _ _ AN ltac:(eapply Forall_impl; [|exact KR]; intros k; apply key_id_plain)) as (ce & enc & j' & p' & EN & S').
      pose proof (sl_text _ _ _ _ _ _ _ _ _ _ _ _ _ S) as TX. pose proof (sl_print _ _ _ _ _ _ _ _ _ _ _ _ _ S) as PR.
      destruct (anon_layer own' _ _ _ _ _ _ _ _ _ o fuel tr' m' md did doc S' EN R KR SM' HO) as (TO & md0 & tr0 & X0 & F0'); auto.
      { rewrite TX. now apply utf8_print. }
      { intros _. apply unwrap_not_message. rewrite TX. now apply jwe_not_message. }
      destruct (rest_auth_known own own' m sign_by t msg skid ka fk sk rs t1' j p o md0 tr0 _ did doc SM SM' MF MD F0 KS MT S (KF _ eq_refl) HS R KR HO X0 F0') as (_ & KN & KG).
      split; [exact TO|]. split; [intros k EK; injection EK as <-; exact KN|exact KG].
    + subst text2. destruct (no_anon_layer own' _ _ _ _ _ _ _ _ _ o fuel tr' m' md S X F') as (md0 & tr0 & X0 & F0').
      destruct (rest_auth_known own own' m sign_by t msg skid ka fk sk rs t1' j p o md0 tr0 _ did doc SM SM' MF MD F0 KS MT S (KF _ eq_refl) HS R KR HO X0 F0') as (TO & KN & KG).
      split; [exact TO|]. split; [intros k EK; injection EK as <-; exact KN|exact KG].
  - destruct a0 as [text2 tk]. step K0. apply Ok_inj in K0. injection K0 as -> -> ->. rewrite app_nil_r in F1.
    destruct (anoncrypt_Ok _ _ _ _ _ _ _ _ _ K2 F1) as (did & doc & ka & rs & tr0 & _ & R & -> & AE).
    destruct (anon_encrypt_sealed_known C pair LAW _ _ _ _ _ _ AE ltac:(eapply Forall_impl; [|exact KR]; intros k; apply key_id_plain)) as (ce & enc & j & p & EN & S).
    destruct (made_text own own' m sign_by t msg skid o SM MF MD F0 KS (KE eq_refl)) as (U & NJ & UW).
    destruct (anon_layer own' _ _ _ _ _ _ _ _ _ o fuel tr' m' md did doc S EN R KR SM' HO U UW X F') as (TO & md0 & tr1 & X0 & F0').
    split; [exact TO|]. split; [discriminate|]. exact (rest_known own own' m sign_by t msg skid o md0 tr1 _ SM MD F0 KS NJ X0 F0').
Qed.
Lemma readable_iff own own' m to from sign_by po tr text pm fuel o tr' x :
  secrets_match C pair dir own -> secrets_match C pair dir own' -> message_fits C m ->
  exec (pack_encrypted C m to from sign_by po) tr (Ok (text, pm)) -> Forall (answers dir own) tr -> pm_service pm = None ->
  holds_one own' (pm_to_kids pm) -> (from = None -> sign_by = None -> kept dir own' o m) ->
  Forall key_id_ok (pm_to_kids pm) -> (forall k, pm_from_kid pm = Some k -> key_id_ok k) -> (forall k, pm_sign_by_kid pm = Some k -> key_id_ok k) ->
  exec (unpack C (S fuel) text o) tr' x -> Forall (answers dir own') tr' ->
  ((exists md, x = Some (Ok (m, md))) <->
   together (pm_to_kids pm) /\ (forall k, pm_from_kid pm = Some k -> known dir doc_key_agreement k)
   /\ forall k, pm_sign_by_kid pm = Some k -> known dir doc_authentication k)
  /\ forall m' md, x = Some (Ok (m', md)) -> m' = m.
Proof.
  intros SM SM' MF P F NS HO KE KR KF KS X F'.
  assert (B : together (pm_to_kids pm) /\ (forall k, pm_from_kid pm = Some k -> known dir doc_key_agreement k)
   /\ (forall k, pm_sign_by_kid pm = Some k -> known dir doc_authentication k) -> exists md, x = Some (Ok (m, md))).
  { intros (TO & K1 & K2). destruct from as [f|].
    - destruct (auth_round_known C pair LAW dir own own' m to f sign_by po tr text pm fuel o tr' x SM SM' MF P F NS HO TO K1 K2 X F') as (? & ? & ? & _ & _ & _ & _ & E). eauto.
    - destruct (anon_round_known C pair LAW dir own own' m to sign_by po tr text pm fuel o tr' x SM SM' MF P F NS HO (KE eq_refl) TO K2 X F') as (? & ? & _ & _ & _ & _ & E). eauto. }
  split; [split; [|exact B]|].
  - intros (md & ->). exact (read_only_known own own' m to from sign_by po tr text pm fuel o tr' m md SM SM' MF P F NS HO KE KR KF KS X F').
  - intros m' md ->. destruct B as (md' & E); [|congruence].
    exact (read_only_known own own' m to from sign_by po tr text pm fuel o tr' m' md SM SM' MF P F NS HO KE KR KF KS X F').
Qed.
Lemma signed_readable_iff own own' m by_ tr text kid fuel o tr' x : secrets_match C pair dir own -> message_fits C m ->
  exec (pack_signed C m by_) tr (Ok (text, kid)) -> Forall (answers dir own) tr -> key_id_ok kid ->
  exec (unpack C (S fuel) text o) tr' x -> Forall (answers dir own') tr' ->
  ((exists md, x = Some (Ok (m, md))) <-> known dir doc_authentication kid).
Proof.
  intros SM MF P F KI X F'. split.
  - intros (md & ->). destruct (signed_reads _ _ _ _ _ _ SM P F KI) as (NJ & _).
    unfold unpack in X. cbn [unpack_loop] in X. unfold try_anoncrypt in X. rewrite NJ in X. cbn [soft pbind bind] in X.
    apply exec_bind in X as (t5 & t6 & r & -> & X & X4). apply Forall_app in F' as [F3 _]. destruct X4 as [_ X4]. injection X4 as <-.
    unfold unpack_rest, try_authcrypt in X. rewrite NJ in X. cbn [soft pbind bind] in X.
    step X. apply Forall_app in F3 as [FS _]. eapply signed_known; eauto.
  - intros KN. destruct (signed_round_known C pair LAW dir own own' m by_ tr text kid fuel o tr' x SM MF P F KN X F') as (? & ? & _ & _ & E). eauto.
Qed.
Lemma token_readable_iff own own' p ik tr jwt kid tr' r : secrets_match C pair dir own -> prior_fits p ->
  exec (from_prior_pack C p ik) tr (Ok (jwt, kid)) -> Forall (answers dir own) tr -> key_id_ok kid ->
  exec (from_prior_unpack C jwt) tr' r -> Forall (answers dir own') tr' ->
  (r = Ok (p, kid) <-> known dir doc_authentication kid).
Proof.
  intros SM PF P F KI X F'. split.
  - intros ->. apply from_prior_unpack_Ok in X as (hd & pl & sg & hb & h & did & doc & ka & k & st & sa & s & payload & _ & _ & _ & _ & _ & _ & _ & _ & _ & U & R & PU & _).
    split; [exact KI|]. exists did, doc. split; [exact U|]. split; [eapply answers_resolved; eauto|apply PU].
  - intros KN. eapply prior_round_known; eauto.
Qed.
End Used.
