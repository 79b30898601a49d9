(** Authcrypt envelopes can be written by their recipient. *)
From Verif.Model Require Import Prelude Utf8 Base64 Json Serde DidDoc Crypto Keys Effects Jws Jwe Message FromPrior Pack Routing Unpack.
From Verif.Spec Require Import Small Codec Events World Accept Deny.
From Verif.Proofs Require Import Lib Base64P JsonP JsonDec SerdeP CodecP SmallP Wp Errs NoPanic UnpackInv TreeP WorldP SealP RoundP AcceptP.

Lemma some_inj {A} (a b : A) : Some a = Some b -> a = b. Proof. congruence. Qed.

Section Deny.
Context (C : crypto) (pair : kalg -> key C -> key C -> Prop) (LAW : lawful C pair).

(** ** The sender's envelope is the recipient's *)
Lemma wrapped_self ka e epk jwk from sk fpub apv tag cek rs rcs mine :
  key_gen C ka e = Some epk -> to_jwk_public C ka epk = Some jwk -> pair ka fpub sk ->
  Forall2 (fun r rc => wrap_one C Kdf1pu ka epk (Some sk) (B "ECDH-1PU+A256KW") from apv tag cek r = Ok rc) rs rcs ->
  Forall2 (fun r m => fst r = fst m /\ pair ka (snd r) (snd m)) rs mine ->
  self_wrapped C ka jwk fpub from apv tag cek mine = Some rcs.
Proof.
  intros GK GJ P F. revert mine. induction F as [|r rc rs rcs W F IH]; intros mine M; inversion M as [|? [kid s] ? mine' [E PR] M']; subst; [reflexivity|].
  cbn [self_wrapped fst snd] in *. unfold wrap_one in W. apply rbind_Ok in W as (kw & D & W). cbn [derive_key] in D. apply ok_or_Ok in D.
  apply rbind_Ok in W as (w & KW & W). apply ok_or_Ok in KW. apply Ok_inj in W. subst rc.
  destruct (law_1pu _ _ LAW _ _ _ _ _ _ _ _ _ _ _ _ _ PR P GK GJ D) as (epk' & FJ & D'). rewrite FJ, D', KW, (IH _ M'), E. reflexivity.
Qed.
Lemma layer_self ka pt from sk fpub rs mine tr text : pair ka fpub sk ->
  exec (jwe_encrypt C CA256CbcHs512 Kdf1pu ka pt Ecdh1puA256kw A256cbcHs512 (Some (from, sk)) rs) tr (Ok text) ->
  Forall2 (fun r m => fst r = fst m /\ pair ka (snd r) (snd m)) rs mine ->
  exists e1 e2 e3, tr = [Ev (ORandom (RCek CA256CbcHs512)) e1; Ev (ORandom (REpk ka)) e2; Ev (ORandom (RNonce CA256CbcHs512)) e3]
    /\ self_written C ka from fpub mine pt e1 e2 e3 = Some text.
Proof.
  intros P H M. apply jwe_encrypt_Ok in H as (e1 & cek & e2 & epk & jwk & e3 & ct & tag & rcs & H). cbv zeta in H.
  destruct H as (-> & GC & GK & GJ & EN & W & ->). exists e1, e2, e3. split; [reflexivity|].
  assert (K : map fst rs = map fst mine) by (clear - M; induction M as [|? ? ? ? [E _] _ IH]; cbn; congruence).
  cbn [option_map fst snd opt_default] in *. unfold seal_header, apv_of in *. cbn [option_map] in *. rewrite K in *.
  unfold self_written. rewrite GC, GK, GJ. cbv zeta. rewrite EN.
  rewrite (wrapped_self _ _ _ _ _ _ _ _ _ _ _ _ _ GK GJ P W M). reflexivity.
Qed.

(** ** The recipient's envelope opens *)
Lemma self_wrapped_find ka jwk fpub from apv tag cek mine rcs : self_wrapped C ka jwk fpub from apv tag cek mine = Some rcs ->
  map rc_kid rcs = map fst mine
  /\ forall kid s, In (kid, s) mine -> (forall s', In (kid, s') mine -> s' = s) ->
     exists rc epk kw w, first_with (fun r => rc_kid r = kid) rcs rc /\ rc_key rc = b64enc w /\ from_jwk C ka jwk = Some epk
       /\ ecdh_1pu C ka epk fpub s (B "ECDH-1PU+A256KW") from apv tag true = Some kw /\ kw_wrap C kw cek = Some w.
Proof.
  revert rcs. induction mine as [|[k0 s0] mine IH]; cbn [self_wrapped]; intros rcs H.
  - apply some_inj in H. subst rcs. split; [reflexivity|]. intros ? ? [].
  - destruct (from_jwk C ka jwk) as [epk|] eqn:FJ; [|discriminate]. destruct (ecdh_1pu _ _ _ _ _ _ _ _ _ _) as [kw|] eqn:D; [|discriminate].
    destruct (kw_wrap C kw cek) as [w|] eqn:W; [|discriminate]. destruct (self_wrapped _ _ _ _ _ _ _ _ mine) as [rcs0|] eqn:S; [|discriminate].
    apply some_inj in H. subst rcs. destruct (IH _ eq_refl) as [K F]. split; [cbn; now rewrite K|].
    intros kid s I U. destruct (bytes_eq_dec k0 kid) as [->|N].
    + pose proof (U s0 (or_introl eq_refl)) as ->. exists (mkRc kid (b64enc w)), epk, kw, w. split; [|auto].
      exists [], rcs0. repeat split; auto.
    + destruct I as [I|I]; [congruence|]. destruct (F kid s I) as (rc & epk' & kw' & w' & (l1 & l2 & -> & E & NI) & X); [intros s' I'; apply U; now right|].
      exists rc, epk', kw', w'. split; [|exact X]. exists (mkRc k0 (b64enc w) :: l1), l2. split; [reflexivity|]. split; [exact E|].
      intros y [<-|Iy]; [exact N|auto].
Qed.

Lemma self_wrapped_plain ka jwk fpub from apv tag cek mine : forall rcs, self_wrapped C ka jwk fpub from apv tag cek mine = Some rcs ->
  Forall named (map fst mine) -> rcs_plain rcs /\ Forall (fun r => utf8 (rc_kid r) = true /\ utf8 (rc_key r) = true) rcs.
Proof.
  induction mine as [|[k0 s0] mine IH]; cbn [self_wrapped map fst]; intros rcs H N.
  - apply some_inj in H. subst rcs. split; constructor.
  - destruct (from_jwk C ka jwk) as [epk|]; [|discriminate]. destruct (ecdh_1pu _ _ _ _ _ _ _ _ _ _) as [kw|]; [|discriminate].
    destruct (kw_wrap C kw cek) as [w|]; [|discriminate]. destruct (self_wrapped _ _ _ _ _ _ _ _ mine) as [rcs0|]; [|discriminate].
    apply some_inj in H. subst rcs. inversion N as [|? ? [N1 N2] N']; subst. destruct (IH _ eq_refl N') as [I1 I2].
    split; constructor; auto; cbn [rc_kid rc_key]; auto using b64_plain, b64_utf8.
Qed.

Lemma self_reads ka from fpub mine pt e1 e2 e3 text : self_written C ka from fpub mine pt e1 e2 e3 = Some text ->
  Forall named (map fst mine) -> named from ->
  exists j h apv, envelope C text j h /\ ph_alg h = Ecdh1puA256kw /\ ph_enc h = A256cbcHs512 /\ announces h (Some from)
    /\ ph_skid h = Some from /\ b64dec (ph_apv h) = Some apv /\ apv_for C (recipient_kids j) apv
    /\ recipient_kids j = map fst mine
    /\ forall kid s, In (kid, s) mine -> (forall s', In (kid, s') mine -> s' = s) ->
         opened C CA256CbcHs512 ka j h (Some (from, fpub)) kid s pt.
Proof.
  unfold self_written. intros H NK NF. destruct (cek_gen C CA256CbcHs512 e1) as [cek|] eqn:GC; [|discriminate].
  destruct (key_gen C ka e2) as [epk|] eqn:GK; [|discriminate]. destruct (to_jwk_public C ka epk) as [jwk|] eqn:GJ; [|discriminate].
  cbv zeta in H. fold (apv_of C (map fst mine)) in H.
  set (h := mkPH (Some (B "application/didcomm-encrypted+json")) Ecdh1puA256kw A256cbcHs512 (Some from) (Some (b64enc from))
                 (b64enc (apv_of C (map fst mine))) jwk) in *.
  set (protected := b64enc (print (jwe_header_tree h))) in *.
  destruct (aead_enc _ _ _ _ _ _) as [[ct tag]|] eqn:EN; [|discriminate].
  destruct (self_wrapped _ _ _ _ _ _ _ _ _) as [rcs|] eqn:SW; [|discriminate]. apply some_inj in H. subst text.
  set (j := mkJwe protected rcs (b64enc (nonce_gen C CA256CbcHs512 e3)) (b64enc ct) (b64enc tag)) in *.
  pose proof (law_jwk _ _ LAW _ _ _ _ GK GJ) as J. apply json_value_ok in J as (JW & JC & JD).
  destruct (self_wrapped_find _ _ _ _ _ _ _ _ _ SW) as [K FI]. destruct (self_wrapped_plain _ _ _ _ _ _ _ _ _ SW NK) as [RP RU].
  assert (PH : printable (jwe_header_tree h)).
  { apply jwe_header_printable; unfold h; cbn [ph_typ ph_alg ph_enc ph_skid ph_apu ph_apv ph_epk]; auto using b64_utf8.
    - apply NF.
    - cbn. apply b64_utf8.
    - eapply wfv_printable; eauto. }
  assert (PJ : printable (jwe_tree j)).
  { apply jwe_printable; unfold j, protected; cbn [jwe_protected jwe_recipients jwe_iv jwe_ciphertext jwe_tag]; auto using b64_utf8. }
  assert (PL : jwe_plain j).
  { unfold jwe_plain, j, protected. cbn [jwe_protected jwe_recipients jwe_iv jwe_ciphertext jwe_tag]. auto using b64_plain. }
  exists j, h, (apv_of C (map fst mine)). split; [split|].
  - unfold jwe_from_str. rewrite from_json_print by auto. now apply de_jwe_raw.
  - exists (print (jwe_header_tree h)). split; [apply b64_roundtrip|]. rewrite from_json_print by auto.
    apply de_jwe_header_raw; unfold h; cbn [ph_typ ph_alg ph_enc ph_skid ph_apu ph_apv ph_epk oplain]; auto using b64_plain; try discriminate; [apply NF|lia].
  - split; [reflexivity|]. split; [reflexivity|]. split; [apply b64_roundtrip|]. split; [reflexivity|]. split; [apply b64_roundtrip|].
    assert (RK : recipient_kids j = map fst mine) by exact K. rewrite RK. split; [apply apv_for_spec; reflexivity|]. split; [reflexivity|].
    intros kid s I U. destruct (FI kid s I U) as (rc & ep & kw & w & FW & RC & FJ & D & W).
    exists cek, (nonce_gen C CA256CbcHs512 e3), ct, tag. split; [|split; [apply b64_roundtrip|split; [apply b64_roundtrip|split; [apply b64_roundtrip|]]]].
    + exists rc, w, ep, (apv_of C (map fst mine)), tag, kw, cek. split; [exact FW|]. rewrite RC. split; [apply b64_roundtrip|].
      split; [exact FJ|]. split; [apply b64_roundtrip|]. split; [apply b64_roundtrip|]. split; [exact D|].
      split; [exact (law_kw _ _ LAW _ _ _ W)|exact (law_cek _ _ LAW _ _ _ GC)].
    + exact (law_aead _ _ LAW _ _ _ _ _ _ _ EN).
Qed.

Context (dir : bytes -> option diddoc) (DIR : directory dir).

Lemma held_fst own ka kids mine : held_keys C own ka kids mine -> map fst mine = kids.
Proof. induction 1 as [|? ? ? ? [E _] _ IH]; cbn; congruence. Qed.
Lemma held_in own ka kids mine kid sec : held_keys C own ka kids mine -> In kid kids -> own kid = Some sec ->
  exists s, sec_key_pair C sec = Ok (ka, s) /\ In (kid, s) mine /\ forall s', In (kid, s') mine -> s' = s.
Proof.
  intros H I O. assert (U : forall s', In (kid, s') mine -> sec_key_pair C sec = Ok (ka, s')).
  { intros s' J. clear I. induction H as [|k [k' s0] l l' (E & sec' & O' & K) H IH]; [destruct J|]. destruct J as [J|J]; [|auto].
    cbn [fst snd] in *. assert (k = kid) by (injection J as <- <-; congruence). subst k. injection J as _ <-. congruence. }
  assert (X : exists s, In (kid, s) mine).
  { rewrite <- (held_fst _ _ _ _ H) in I. apply in_map_iff in I as ([k s] & E & I). cbn in E. subst k. eauto. }
  destruct X as [s X]. exists s. split; [auto|]. split; [exact X|]. intros s' J. apply U in J. apply U in X. rewrite J in X. apply Ok_inj in X. now injection X.
Qed.

Lemma self_accepted own ka from fpub kids mine m e1 e2 e3 text fuel o tr x :
  message_fits C m -> msg_from_prior m = None -> kids <> [] -> ka = KX25519 \/ ka = KP256 ->
  agreement_keys dir kids -> held_keys C own ka kids mine -> sender_public C dir ka from fpub ->
  self_written C ka from fpub mine (message_text m) e1 e2 e3 = Some text ->
  exec (unpack C (S fuel) text o) tr x -> Forall (answers dir own) tr ->
  x = Some (Ok (m, metadata None (Some (kids, from)) None None)).
Proof.
  intros MF NP NE CU (did & doc & DD & IN) HK (fdid & fdoc & FD & PU) SW X A.
  assert (NA : forall k, In k kids -> url_of did k /\ named k).
  { intros k I. destruct (DIR did doc DD k) as [U KI]; [apply in_or_app; left; auto|]. split; [exact U|now apply key_id_plain]. }
  destruct (DIR fdid fdoc FD from) as [FU FK]; [apply in_or_app; left; apply PU|].
  pose proof (held_fst _ _ _ _ HK) as MK.
  destruct (self_reads _ _ _ _ _ _ _ _ _ SW) as (j & h & apv & EV & AL & EC & AN & SK & AP & AF & RK & OP).
  { rewrite MK. apply Forall_forall. intros k I. now apply NA. } { now apply key_id_plain. }
  rewrite MK in RK. refine (safe_exec _ _ _ _ _ (valid_accepted C dir own o 0 text m _ (S fuel) _ (Nat.lt_0_succ _)) X A).
  exists false, None, (Some (kids, from)), None, None, text, (message_text m), (message_text m).
  split. { apply layers_none. right. exists j, h, apv, (Some from). repeat split; try apply EV; auto. rewrite AL. discriminate. }
  split.
  { exists j. split; [|now rewrite RK]. exists h, apv, fdid, fdoc, ka, fpub. split; [exact EV|]. split; [exact AL|]. split; [exact EC|]. split; [exact AN|].
    split; [apply FK|]. split; [now right|]. split; [exact AP|]. split; [exact AF|]. rewrite RK.
    split; [split; [exact NE|exists did; apply Forall_forall; intros k I; now apply NA]|]. split; [now apply (message_utf8 C)|].
    split; [exact FU|]. split; [exact FD|]. split; [exact PU|]. split; [exact CU|]. split.
    - destruct HK as [|k r l l' (E & sec & O & _) _]; [congruence|]. exists k, sec. split; [now left|exact O].
    - intros kid sec I O. destruct (held_in _ _ _ _ _ _ HK I O) as (s & SP & IM & U). exists ka, s. split; [exact SP|]. split; [reflexivity|]. now apply OP. }
  split; [split; [reflexivity|now apply (message_not_jws C)]|]. split; [now apply message_reads|]. split; [apply MF|]. split; [exact NP|]. reflexivity.
Qed.

(** ** Packed messages *)
Lemma carried_inside own m sign_by t msg skid rest :
  exec (match sign_by with
        | Some s => let! (msg, kid) := pack_signed C m s in Ret (Ok (msg, Some kid))
        | None => let! msg := pack_plaintext C m in Ret (Ok (msg, None))
        end) t (Ok (msg, skid)) -> Forall (answers dir own) t -> carried_text C (t ++ rest) m sign_by msg.
Proof.
  intros K F. destruct sign_by as [s|]; cbn [carried_text]; step K.
  - destruct a as [t0' kid]. step K. apply Ok_inj in K. injection K as -> ->. rewrite app_nil_r. exists t0, kid. split; [apply incl_appl, incl_refl|exact K0].
  - step K. apply Ok_inj in K. injection K as -> ->. rewrite app_nil_r in F. now destruct (pack_plaintext_Ok C dir _ _ _ _ K0 F) as (-> & _).
Qed.
Lemma pack_self own own' m to from sign_by po tr text pm :
  secrets_match C pair dir own -> secrets_match C pair dir own' ->
  exec (pack_encrypted C m to (Some from) sign_by po) tr (Ok (text, pm)) -> Forall (answers dir own) tr -> pm_service pm = None ->
  (forall kid, In kid (pm_to_kids pm) -> own' kid <> None) ->
  exists fkid fpub ka mine pt e1 e2 e3 inner,
    pm_from_kid pm = Some fkid /\ sender_public C dir ka fkid fpub /\ held_keys C own' ka (pm_to_kids pm) mine
    /\ carried_text C tr m sign_by pt
    /\ drawn tr (RCek CA256CbcHs512) e1 /\ drawn tr (REpk ka) e2 /\ drawn tr (RNonce CA256CbcHs512) e3
    /\ self_written C ka fkid fpub mine pt e1 e2 e3 = Some inner
    /\ (if po_protect_sender po
        then exists rs tr2, map fst rs = pm_to_kids pm /\ Forall (fun r => sender_public C dir ka (fst r) (snd r)) rs
               /\ exec (anon_encrypt C ka (po_enc_alg_anon po) inner rs) tr2 (Ok text)
        else text = inner).
Proof.
  intros SM SM' P F NS HO. unfold pack_encrypted in P. step P. step P. destruct a0 as [msg skid].
  step P. destruct a0 as [[text1 fkid'] kids]. step P.
  assert (W : a0 = None).
  { destruct a0 as [[fwd sm]|]; auto. destruct P as [_ P]. apply Ok_inj in P. injection P as _ ->. discriminate NS. }
  subst a0. step P. apply Ok_inj in P. injection P as -> ->. cbn [pm_to_kids pm_from_kid pm_sign_by_kid] in *.
  apply Forall_app in F as [F0 F]. apply Forall_app in F as [F1 F].
  step K0. destruct a0 as [[text2 fkid] tk]. step K0. apply Ok_inj in K0. injection K0 as -> -> ->. rewrite app_nil_r in F1.
  destruct (authcrypt_Ok C pair dir _ _ _ _ _ _ _ _ _ _ _ SM K2 F1) as (did & doc & fdid & fdoc & ka & rs & sk & t1' & tr1 & _ & _ & R & -> & (FD & fpub & PU & PA) & AE & PT & IN).
  assert (M : exists mine, held_keys C own' ka (map fst rs) mine /\ Forall2 (fun r m => fst r = fst m /\ pair ka (snd r) (snd m)) rs mine).
  { assert (X : forall kid k, In (kid, k) rs -> exists sec s, own' kid = Some sec /\ sec_key_pair C sec = Ok (ka, s) /\ pair ka k s).
    { intros kid k I. assert (J : In kid (map fst rs)) by (apply in_map_iff; exists (kid, k); auto).
      destruct (own' kid) as [sec|] eqn:O; [|now destruct (HO kid J)].
      destruct (recipients_secret C pair dir _ _ _ _ _ _ _ SM' R J O) as (s & SP & PR). exists sec, s. auto. }
    clear - X. induction rs as [|[kid k] rs IH]; [exists []; split; constructor|]. destruct IH as (mine & H1 & H2); [intros; apply X; now right|].
    destruct (X kid k (or_introl eq_refl)) as (sec & s & O & SP & PR). exists ((kid, s) :: mine). split; constructor; cbn; eauto. }
  destruct M as (mine & HK & M2). destruct (layer_self _ _ _ _ _ _ _ _ _ PA AE M2) as (e1 & e2 & e3 & -> & SW).
  assert (IN' : forall e, In e [Ev (ORandom (RCek CA256CbcHs512)) e1; Ev (ORandom (REpk ka)) e2; Ev (ORandom (RNonce CA256CbcHs512)) e3] ->
     In e (t ++ (t2 ++ []) ++ t0 ++ [])).
  { intros e I. apply IN in I. rewrite !in_app_iff. auto. }
  exists fkid, fpub, ka, mine, msg, e1, e2, e3, t1'. split; [reflexivity|]. split; [exists fdid, fdoc; auto|]. split; [exact HK|].
  split.
  { eapply carried_inside; eauto. }
  split; [apply IN'; cbn; auto|]. split; [apply IN'; cbn; auto|]. split; [apply IN'; cbn; auto|]. split; [exact SW|].
  destruct (po_protect_sender po); [|exact PT]. destruct PT as (tr2 & AN). exists rs, tr2. split; [reflexivity|]. split; [|exact AN].
  apply Forall_forall. intros [kid k] I. exists did, doc. split; [apply R|]. now apply (rp_pub _ _ _ _ _ _ R).
Qed.
End Deny.
