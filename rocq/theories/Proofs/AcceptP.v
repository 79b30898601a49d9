(** Valid texts are accepted. *)
From Verif.Model Require Import Prelude Utf8 Base64 Json Serde DidDoc Crypto Keys Effects Jws Jwe Message FromPrior Pack Routing Unpack.
From Verif.Spec Require Import Small Codec Events World Accept.
From Verif.Proofs Require Import Lib Base64P SmallP Wp Errs NoPanic UnpackInv RejectP WorldP RoundP.

Section Accept.
Context (C : crypto) (dir : bytes -> option diddoc) (own : bytes -> option secret).
Notation go := (safe (answers dir own)).

Lemma som_inj {A} (a b : A) : Some a = Some b -> a = b. Proof. congruence. Qed.

Lemma opened_decrypts ce ka p sender kid k pt :
  b64dec (ph_apv (pj_protected p)) = Some (pj_apv p) -> option_map fst sender = pj_apu p ->
  opened C ce ka (pj_jwe p) (pj_protected p) sender kid k pt ->
  jwe_decrypt C ce (match sender with None => KdfEs | _ => Kdf1pu end) ka p sender kid k = Ok pt.
Proof.
  intros Ha Hs (cek & iv & ct & tag & (rc & ek & epk & apv & tag' & kw & c & F & K & E & A & T & D & W & I) & Hiv & Hct & Ht & De).
  rewrite Ha in A. apply som_inj in A. subst apv. rewrite Ht in T. apply som_inj in T. subst tag'.
  unfold jwe_decrypt. rewrite (proj2 (beq_opt_eq _ _) Hs). cbn [negb].
  assert (FF : find_first (fun r => beq (rc_kid r) kid) (jwe_recipients (pj_jwe p)) = Some rc).
  { apply find_first_first. revert F. apply first_with_ext. intros; symmetry; apply beq_eq. }
  rewrite FF. cbn [ok_or rbind]. rewrite K. cbn [ok_or rbind]. rewrite E. cbn [ok_or rbind]. rewrite Ht. cbn [ok_or rbind].
  rewrite <- Hs. destruct sender as [[apu s]|]; cbn [option_map fst snd opt_default derive_key] in *;
    rewrite D; cbn [ok_or rbind]; rewrite W; cbn [ok_or rbind]; rewrite I; cbn [ok_or rbind]; rewrite Hct; cbn [ok_or rbind];
    rewrite Hiv; cbn [ok_or rbind]; rewrite De; reflexivity.
Qed.

Lemma envelope_parses text j h apv apu : envelope C text j h -> b64dec (ph_apv h) = Some apv -> announces h apu ->
  jwe_from_str text = Ok j /\ jwe_parse C j = Ok (mkPJ j h apu apv).
Proof.
  intros (E & hb & Hb & Hh) A U. split; auto. unfold jwe_parse. rewrite Hb. cbn [ok_or rbind]. rewrite Hh. cbn [rbind]. rewrite A. cbn [ok_or rbind].
  unfold announces in U. destruct (ph_apu h) as [t|], apu as [a|]; [|destruct U|destruct U|reflexivity]. rewrite U. reflexivity.
Qed.

Lemma anon_accept text j alg pt o md : anon_valid C (opens_each C own) text j alg pt ->
  go (try_anoncrypt C text o md) (fun r => r = Ok (Some (pt, md_anon (recipient_kids j) alg md))).
Proof.
  intros (h & apv & ce & E & A & EN & AN & SK & AP & AF & OD & U & HO & OP).
  destruct (envelope_parses _ _ _ _ _ E AP AN) as [J P]. unfold try_anoncrypt. rewrite J.
  eapply safe_ret; [reflexivity|]. cbv beta iota. eapply safe_ret; [exact P|]. cbv beta. cbn [pj_protected]. rewrite A.
  eapply safe_ret.
  { rewrite verify_spec. cbn [pj_apv pj_jwe pj_apu pj_protected]. rewrite SK. apply apv_for_spec in AF. rewrite <- AF, beq_refl. reflexivity. }
  cbv beta zeta. fold (recipient_kids j). eapply safe_ret; [apply check_recipients_spec; exact OD|]. cbv beta.
  apply safe_find. intros found F. pose proof (found_some _ _ _ HO F) as NE. destruct found as [|k0 found]; [congruence|].
  eapply (safe_then _ _ (pt, alg)).
  - apply open_loop_safe; auto. intros kid I. apply F in I as (I & sec & O). destruct (OP kid sec I O) as (ka & k & S & KA & OO).
    exists sec, ka, k. split; auto. split; auto. unfold anon_open. cbn [pj_protected]. rewrite (proj2 (anon_cenc_Ok _ _ _) EN). cbn [rbind].
    pose proof (opened_decrypts ce ka (mkPJ j h None apv) None kid k pt AP eq_refl OO) as D. cbv iota in D. rewrite D.
    destruct KA as [-> | ->]; reflexivity.
  - cbv iota. rewrite U. reflexivity.
Qed.

Lemma auth_accept text j from pt o md : auth_valid C dir (opens_each C own) text j from pt ->
  go (try_authcrypt C text o md) (fun r => r = Ok (Some (pt, md_auth (recipient_kids j) from md))).
Proof.
  intros (h & apv & did & doc & ka & fk & E & A & EN & AN & UF & SK & AP & AF & OD & U & URL & RD & PU & KA & HO & OP).
  destruct (envelope_parses _ _ _ _ _ E AP AN) as [J P]. unfold try_authcrypt. rewrite J.
  eapply safe_ret; [reflexivity|]. cbv beta iota. eapply safe_ret; [exact P|]. cbv beta. cbn [pj_protected]. rewrite A.
  eapply safe_ret.
  { rewrite verify_spec. cbn [pj_apv pj_jwe pj_apu pj_protected]. apply apv_for_spec in AF. rewrite <- AF, beq_refl, UF. cbn [andb].
    destruct SK as [-> | ->]; [reflexivity|]. rewrite beq_refl. reflexivity. }
  cbv beta. cbn [pj_apu]. eapply safe_ret; [reflexivity|]. cbv beta. rewrite UF. cbn [negb].
  apply url_of_some in URL. rewrite URL. cbn [is_some negb]. apply safe_kresolve. rewrite RD. eapply safe_ret; [reflexivity|]. cbv beta.
  destruct (publishes_find C _ _ _ _ _ PU) as (vm & F1 & F2 & VK).
  eapply safe_ret; [rewrite F1; reflexivity|]. cbv beta. eapply safe_ret; [rewrite F2; reflexivity|]. cbv beta.
  eapply safe_ret; [exact VK|]. cbv beta zeta. fold (recipient_kids j). eapply safe_ret; [apply check_recipients_spec; exact OD|]. cbv beta.
  apply safe_find. intros found F. pose proof (found_some _ _ _ HO F) as NE. destruct found as [|k0 found]; [congruence|].
  eapply (safe_then _ _ pt).
  - apply open_loop_safe; auto. intros kid I. apply F in I as (I & sec & O). destruct (OP kid sec I O) as (ka' & k & S & -> & OO).
    exists sec, ka, k. split; auto. split; auto.
    pose proof (opened_decrypts CA256CbcHs512 ka (mkPJ j h (Some from) apv) (Some (from, fk)) kid k pt AP eq_refl OO) as D. cbv iota in D.
    unfold auth_open. cbn [fst snd pj_protected]. rewrite EN. destruct KA as [-> | ->]; exact D.
  - cbv beta. rewrite U. reflexivity.
Qed.

Lemma anon_other text o md : other_jwe C EcdhEsA256kw text -> go (try_anoncrypt C text o md) (fun r => r = Ok None).
Proof.
  intros [E|(j & h & apv & apu & E & A & AP & AN)]; unfold try_anoncrypt; [rewrite E; reflexivity|].
  destruct (envelope_parses _ _ _ _ _ E AP AN) as [J P]. rewrite J. eapply safe_ret; [reflexivity|]. cbv beta iota. eapply safe_ret; [exact P|].
  cbv beta. cbn [pj_protected]. destruct (ph_alg h); try congruence; reflexivity.
Qed.
Lemma auth_other text o md : other_jwe C Ecdh1puA256kw text -> go (try_authcrypt C text o md) (fun r => r = Ok None).
Proof.
  intros [E|(j & h & apv & apu & E & A & AP & AN)]; unfold try_authcrypt; [rewrite E; reflexivity|].
  destruct (envelope_parses _ _ _ _ _ E AP AN) as [J P]. rewrite J. eapply safe_ret; [reflexivity|]. cbv beta iota. eapply safe_ret; [exact P|].
  cbv beta. cbn [pj_protected]. destruct (ph_alg h); try congruence; reflexivity.
Qed.

Lemma row_sig_type a ka st sa : alg_row a ka st sa -> sig_type a = Ok st.
Proof. intros [E|[E|E]]; injection E as -> -> -> ->; reflexivity. Qed.

Lemma sign_accept text kid sa pl md : signed_valid C dir text kid sa pl ->
  go (try_sign C text md) (fun r => r = Ok (Some (pl, md_sign sa kid text md))).
Proof.
  intros (j & sg & hb & h & did & doc & ka & k & st & s & J & SG & <- & HB & HH & ROW & URL & RD & PU & S & V & PL & U).
  pose proof (row_sig_type _ _ _ _ ROW) as ST. destruct (alg_row_verify _ _ _ _ ROW) as (VA & SMD & _).
  destruct (publishes_find C _ _ _ _ _ PU) as (vm & F1 & F2 & VK).
  unfold try_sign. rewrite J. eapply safe_ret; [reflexivity|]. cbv beta iota. eapply safe_ret.
  { unfold jws_parse. rewrite SG. cbn [rmap]. unfold parse_jws_header. rewrite HB. cbn [ok_or rbind]. rewrite HH. cbn [rbind]. reflexivity. }
  cbv beta. cbn [snd]. rewrite SG. cbv zeta. apply url_of_some in URL. rewrite URL. cbn [is_some negb]. apply safe_resolve. rewrite RD.
  eapply safe_ret; [reflexivity|]. cbv beta. eapply safe_ret; [rewrite F1; reflexivity|]. cbv beta. eapply safe_ret; [rewrite F2; reflexivity|]. cbv beta.
  eapply safe_ret; [exact VA|]. cbv beta. eapply safe_ret; [exact SMD|]. cbv beta. eapply safe_ret; [apply vm_as_pair; exact VK|]. cbv beta.
  eapply safe_ret.
  { unfold jws_verify. rewrite SG. cbn [find_sig]. rewrite beq_refl. cbn [rbind hd_error ok_or]. rewrite ST. cbn [rbind]. rewrite S. cbn [ok_or rbind].
    unfold dot. rewrite V. reflexivity. }
  cbv beta. cbn [negb]. rewrite PL. eapply safe_ret; [reflexivity|]. cbv beta. rewrite U. reflexivity.
Qed.

Lemma rotation_accept jwt p kid : rotation_valid C dir jwt p kid -> go (from_prior_unpack C jwt) (fun r => r = Ok (p, kid)).
Proof.
  intros (hd & pl & sg & hb & h & did & doc & ka & k & st & sa & s & payload & -> & N1 & N2 & N3 & HB & HH & T & <- & ROW & URL & RD & PU & S & V & PL & U & R).
  pose proof (row_sig_type _ _ _ _ ROW) as ST. destruct (alg_row_verify _ _ _ _ ROW) as (VA & _ & _).
  destruct (publishes_find C _ _ _ _ _ PU) as (vm & F1 & F2 & VK).
  unfold from_prior_unpack. eapply safe_ret.
  { unfold parse_compact. rewrite (split_dot _ _ N1), (split_dot _ _ N2), (split_one _ N3). rewrite HB. cbn [ok_or rbind]. rewrite HH. cbn [kind rbind]. reflexivity. }
  cbv beta zeta. cbn [pc_parsed]. rewrite T, beq_refl. cbn [negb]. apply url_of_some in URL. rewrite URL. cbn [is_some negb].
  apply safe_resolve. rewrite RD. eapply safe_ret; [reflexivity|]. cbv beta. eapply safe_ret; [rewrite F1; reflexivity|]. cbv beta.
  eapply safe_ret; [rewrite F2; reflexivity|]. cbv beta. eapply safe_ret; [exact VA|]. cbv beta. eapply safe_ret; [apply vm_as_pair; exact VK|]. cbv beta.
  eapply safe_ret.
  { unfold compact_verify. cbn [pc_parsed pc_signature pc_header pc_payload]. rewrite ST. cbn [rbind]. rewrite S. cbn [ok_or rbind]. unfold dot. rewrite V. reflexivity. }
  cbv beta. cbn [negb pc_payload]. rewrite PL. eapply safe_ret; [reflexivity|]. cbv beta. rewrite U. cbn [negb].
  eapply safe_ret; [rewrite R; reflexivity|]. reflexivity.
Qed.

Lemma plain_accept text m prior md : message_from_str (fparse C) text = Ok m -> msg_typ m = B "application/didcomm-plain+json" ->
  match prior with
  | None => msg_from_prior m = None
  | Some (p, kid) => exists jwt, msg_from_prior m = Some jwt /\ rotation_valid C dir jwt p kid
  end -> go (try_plaintext C text md) (fun r => r = Ok (Some (m, with_prior prior md))).
Proof.
  intros R T P. unfold try_plaintext. rewrite R. eapply safe_ret; [reflexivity|]. cbv beta iota.
  eapply safe_ret; [unfold msg_validate; rewrite T; reflexivity|]. cbv beta.
  destruct prior as [[p kid]|].
  - destruct P as (jwt & E & P). rewrite E. eapply safe_then; [apply rotation_accept, P|]. reflexivity.
  - rewrite P. reflexivity.
Qed.

Lemma mine_has next : mine dir own next -> go (has_secret next) (fun r => r = Ok true).
Proof.
  intros [[(did & URL) O]|(NU & doc & D & HO)]; unfold has_secret.
  - apply url_of_some in URL. rewrite URL. eapply safe_ret; [reflexivity|]. cbv beta. apply safe_find. intros found F.
    destruct (own next) as [s|] eqn:OS; [|congruence]. destruct found as [|k l]; [|reflexivity].
    exfalso. apply (proj2 (F next)). split; [now left|eauto].
  - apply did_or_url_none in NU. rewrite NU. eapply (safe_then _ _ (doc_key_agreement doc)).
    { apply safe_resolve. rewrite D. eapply safe_ret; reflexivity. }
    cbv beta. apply safe_find. intros found F. destruct found; [|reflexivity]. now destruct (found_some _ _ _ HO F).
Qed.
Lemma foreign_has next : foreign dir own next -> go (has_secret next) (fun r => r = Ok false).
Proof.
  intros [[(did & URL) O]|(NU & doc & D & HO)]; unfold has_secret.
  - apply url_of_some in URL. rewrite URL. eapply safe_ret; [reflexivity|]. cbv beta. apply safe_find. intros found F.
    destruct found as [|k l]; [reflexivity|]. exfalso. destruct (proj1 (F k) (or_introl eq_refl)) as ([<-|[]] & s & OS). congruence.
  - apply did_or_url_none in NU. rewrite NU. eapply (safe_then _ _ (doc_key_agreement doc)).
    { apply safe_resolve. rewrite D. eapply safe_ret; reflexivity. }
    cbv beta. apply safe_find. intros found F. destruct found as [|k l]; [reflexivity|]. exfalso.
    destruct (proj1 (F k) (or_introl eq_refl)) as (I & s & OS). rewrite (HO k I) in OS. discriminate.
Qed.
Lemma forward_parses pt next v : forward_to C pt next v -> exists m, message_from_str (fparse C) pt = Ok m /\ try_parse_forward m = Some (mkPF next v).
Proof.
  intros (m & body & att & rest & js & R & T & MB & N & A & D). exists m. split; auto. unfold try_parse_forward, forward_type.
  rewrite T, beq_refl. cbn [negb]. rewrite MB, N, A, D. reflexivity.
Qed.
Lemma unwrap_mine pt next v : forward_to C pt next v -> mine dir own next -> go (try_unwrap C pt) (fun r => r = Ok (Some (print v))).
Proof.
  intros F M. destruct (forward_parses _ _ _ F) as (m & R & P). unfold try_unwrap. rewrite R. eapply safe_ret; [reflexivity|]. cbv beta iota. rewrite P.
  cbn [pf_next pf_forwarded]. eapply safe_then; [apply mine_has, M|]. reflexivity.
Qed.
Lemma unwrap_kept' pt : message_from_str (fparse C) pt = Err Malformed
       \/ (exists m, message_from_str (fparse C) pt = Ok m /\ forall next v, ~ forward_to C pt next v)
       \/ (exists next v, forward_to C pt next v /\ foreign dir own next) -> go (try_unwrap C pt) (fun r => r = Ok None).
Proof.
  unfold try_unwrap. intros [E|[(m & R & N)|(next & v & F & M)]].
  - rewrite E. reflexivity.
  - rewrite R. eapply safe_ret; [reflexivity|]. cbv beta iota. pose proof (try_parse_forward_spec C pt m R) as S.
    destruct (try_parse_forward m) as [f|]; [|reflexivity]. destruct (N _ _ S).
  - destruct (forward_parses _ _ _ F) as (m & R & P). rewrite R. eapply safe_ret; [reflexivity|]. cbv beta iota. rewrite P.
    cbn [pf_next pf_forwarded]. eapply safe_then; [apply foreign_has, M|]. reflexivity.
Qed.

Lemma layers_accept o n text rew anon text1 : layers C dir own (opens_each C own) o n text rew anon text1 -> forall fuel md x, n < fuel ->
  go (unpack_rest C text1 o (md_of rew anon md)) (fun r => r = Ok x) ->
  go (unpack_loop C fuel text o md) (fun r => r = Some (Ok x)).
Proof.
  induction 1 as [text N|text j alg pt A K|n text j alg pt next v rew last text' A U F M L IH]; intros fuel md x LT R;
    (destruct fuel as [|fuel]; [inversion LT|]); cbn [unpack_loop].
  - eapply safe_bind; [apply anon_other, N|]. intros r ->. cbv iota. eapply safe_bind.
    { replace md with (md_of false None md) by (now destruct md). exact R. }
    intros r ->. reflexivity.
  - eapply safe_bind; [apply anon_accept, A|]. intros r ->. cbv iota.
    assert (R' : go (unpack_rest C pt o (md_anon (recipient_kids j) alg md)) (fun r => r = Ok x)) by exact R.
    destruct (uo_unwrap o).
    + eapply safe_bind; [apply unwrap_kept', K; reflexivity|]. intros r ->. eapply safe_bind; [exact R'|]. intros r ->. reflexivity.
    + eapply safe_bind; [exact R'|]. intros r ->. reflexivity.
  - eapply safe_bind; [apply anon_accept, A|]. intros r ->. cbv iota. rewrite U.
    eapply safe_bind; [eapply unwrap_mine; eauto|]. intros r ->. cbv iota. apply IH; [lia|].
    replace (md_of rew last (md_rewrapped (md_anon (recipient_kids j) alg md)))
      with (md_of true (match last with Some l => Some l | None => Some (recipient_kids j, alg) end) md); [exact R|].
    unfold md_of, md_rewrapped, md_anon. cbn. destruct last; cbn; rewrite ?Bool.orb_true_r; reflexivity.
Qed.

Lemma valid_accepted o n text m md fuel : valid C dir own o n text m md -> n < fuel ->
  go (unpack C fuel text o) (fun r => r = Some (Ok (m, md))).
Proof.
  intros (rew & anon & auth & sign & prior & t1 & t2 & t3 & L & A & S & R & T & P & ->) LT. unfold unpack.
  eapply layers_accept; [exact L|exact LT|]. unfold unpack_rest.
  set (md0 := md_of rew anon um_init).
  set (md1 := match auth with Some (kids, from) => md_auth kids from md0 | None => md0 end).
  eapply (safe_then _ _ (option_map (fun '(kids, from) => (t2, md_auth kids from md0)) auth)).
  { destruct auth as [[kids from]|].
    - destruct A as (j & A & ->). apply auth_accept, A.
    - destruct A as [-> A]. apply auth_other, A. }
  cbv beta. replace (match option_map _ auth with Some (m0, d) => (m0, d) | None => (t1, md0) end) with (t2, md1)
    by (subst md1; destruct auth as [[kids from]|]; [reflexivity|destruct A as [-> _]; reflexivity]).
  cbv iota zeta.
  set (md2 := match sign with Some (kid, sa) => md_sign sa kid t2 md1 | None => md1 end).
  eapply (safe_then _ _ (option_map (fun '(kid, sa) => (t3, md_sign sa kid t2 md1)) sign)).
  { destruct sign as [[kid sa]|].
    - apply sign_accept, S.
    - destruct S as [-> S]. unfold try_sign. rewrite S. reflexivity. }
  cbv beta. replace (match option_map _ sign with Some (m0, d) => (m0, d) | None => (t2, md1) end) with (t3, md2)
    by (subst md2; destruct sign as [[kid sa]|]; [reflexivity|destruct S as [-> _]; reflexivity]).
  cbv iota zeta. eapply safe_then; [eapply plain_accept; eauto|]. cbn [ok_or safe]. do 2 f_equal.
  subst md2 md1 md0. unfold with_prior, md_of, md_auth, md_sign, md_prior, um_init.
  destruct prior as [[p kid]|], sign as [[kid' sa]|], auth as [[kids from]|], anon as [[ks al]|], rew; reflexivity.
Qed.
End Accept.
