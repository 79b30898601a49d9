(** Malformed, InvalidState and Unsupported from packing. *)
From Verif.Model Require Import Prelude Utf8 Base64 Json Serde Base58 DidDoc Crypto Keys Effects Jws Jwe Message FromPrior Pack Routing Unpack.
From Verif.Spec Require Import Small Events Packing Conc Asked Blame Grammar Cause.
From Verif.Proofs Require Import JsonP Lib SmallP Errs Wp UnpackInv UnpackP SealP PackP RouteP AskedP BlameP GrammarP SpellP CauseP.

(** ** Keys *)
Definition key_error (mb : Prop) (alg : kalg) (k : errkind) : Prop :=
  k = Malformed \/ mb /\ (k = IllegalArgument \/ k = InvalidState) \/ k = Unsupported /\ alg = KUnsupported.
Lemma vm_pair_err C vm k : vm_key_pair C vm = Err k -> key_error (exists s, vm_material vm = MMultibase s) (vm_key_alg vm) k.
Proof. intros E. revert k E. apply ck_vm; unfold key_error; [now left| |tauto]. intros s M. split; right; left; eauto. Qed.
Lemma sec_pair_err C sec k : sec_key_pair C sec = Err k -> key_error (exists s, sec_material sec = MMultibase s) (sec_key_alg sec) k.
Proof. intros E. revert k E. apply ck_sec; unfold key_error; [now left| |tauto]. intros s M. split; right; left; eauto. Qed.
Lemma kalg_dec (a b : kalg) : {a = b} + {a <> b}. Proof. decide equality. Qed.
Lemma as_err {C} a alg kp k : (forall a' x, kp = Ok (a', x) -> a' = alg) -> as_alg C a alg kp = Err k -> k = InvalidState /\ alg <> a \/ alg = a /\ kp = Err k.
Proof.
  intros V E. unfold as_alg in E. destruct (kalg_dec alg a) as [->|N].
  - right. split; auto. replace (kalg_eqb a a) with true in E by now destruct a. destruct kp as [[a' x]| |]; cbn in E; try discriminate; [|injection E as ->; reflexivity].
    rewrite (V a' x eq_refl) in E. replace (kalg_eqb a a) with true in E by now destruct a. discriminate.
  - left. split; auto. destruct (kalg_eqb alg a) eqn:X; [apply kalg_eqb_eq in X; contradiction|]. congruence.
Qed.
Lemma vm_as_err C a vm k : vm_as C a vm = Err k -> k = InvalidState /\ vm_key_alg vm <> a \/ vm_key_alg vm = a /\ vm_key_pair C vm = Err k.
Proof. apply as_err. apply vm_alg. Qed.
Lemma sec_as_err C a s k : sec_as C a s = Err k -> k = InvalidState /\ sec_key_alg s <> a \/ sec_key_alg s = a /\ sec_key_pair C s = Err k.
Proof. apply as_err. apply sec_alg. Qed.
Lemma find_vm_err e doc kid k : find_vm e doc kid = Err k -> k = e /\ undescribed doc kid.
Proof.
  unfold find_vm. intros E. destruct (find_first _ _) eqn:F; [discriminate|]. injection E as <-. split; auto. intros vm I Ev.
  pose proof (find_first_none _ _ F vm I) as X. cbv beta in X. now rewrite Ev, beq_refl in X.
Qed.
Lemma rmap_err {X Y} (f : X -> res Y) l k : rmap f l = Err k -> exists x, In x l /\ f x = Err k.
Proof.
  induction l as [|x l IH]; cbn; [discriminate|]. destruct (f x) eqn:E; cbn; intros H; try discriminate.
  - destruct (rmap f l) eqn:E2; cbn in H; try discriminate. injection H as ->. destruct (IH eq_refl) as (y & I & Fy). eauto.
  - injection H as ->. eauto.
Qed.

Section Pack.
Context (C : crypto) (A : event -> Prop) (m : message) (to : bytes) (from sign_by : option bytes) (o : pack_options).
Notation P := (fun (_ : list event) (_ : op) => True).
Notation cause := (pack_cause C m to from sign_by o).
Notation names := (pack_names m to from sign_by o).
Definition pcauses {X} (h : list event) (x : res X) : Prop := match x with Err k => cause h k | _ => True end.
Notation Q := pcauses.
Lemma pc_raised h e k : failed e k -> cause (h ++ [e]) k.
Proof. intros F. left. exists e. split; auto. apply last_last. Qed.
Lemma pc_st h : pack_state C m to from sign_by o h -> cause h InvalidState. Proof. intros H. now right. Qed.
Lemma pc_by h : pack_beyond m to from sign_by o h -> cause h Unsupported. Proof. intros H. now right. Qed.
Lemma pc_mal h : pack_malformed C m to from sign_by o h -> cause h Malformed. Proof. intros H. now right. Qed.
Lemma pc_back h : refusing C -> cause h InvalidState. Proof. intros H. now apply pc_st, ps_backend. Qed.
Lemma pc_pure {X Y} h (r : res X) k : kinds (cause h) r -> r = Err k -> Q h (@Err Y k).
Proof. intros H E. now apply H. Qed.
Lemma pc_token h : msg_from_prior m <> None -> cause h Malformed. Proof. intros H. now apply pc_mal, pm_token. Qed.
Ltac leaf := cbv beta; lazymatch goal with
  | |- pcauses _ (Ok _) => exact I
  | |- pcauses _ Panic => exact I
  | |- pcauses (?h ++ [?e]) (Err ?k) => cbn [pcauses]; first [apply pc_raised; reflexivity|right; exact I|idtac]
  | |- pcauses _ (Err ?k) => cbn [pcauses]; try (right; exact I)
  | |- True => exact I
  | |- _ => idtac
  end.
Ltac pure lem := match goal with E : ?r = Err ?k |- _ => eapply (@pc_pure _ unit); [|exact E]; eapply lem; auto end.
Ltac none := match goal with E : ok_or _ ?x = Err _ |- _ => destruct x; [discriminate|]; injection E as <-; right; exact I end.
Lemma pc_vm h did doc vm k : resolved h did doc -> In vm (doc_verification_method doc) -> vm_key_alg vm <> KUnsupported -> vm_key_pair C vm = Err k -> cause h k.
Proof.
  intros R I N E. destruct (vm_pair_err C vm k E) as [->|[[(s & M) [->| ->]]|[-> U]]]; [|right; exact Logic.I| |contradiction].
  - eapply pc_mal, pm_key; eauto.
  - apply pc_st, ps_multibase. left. eauto 8.
Qed.
Lemma pc_sec h id sec k : held h id sec -> sec_key_pair C sec = Err k -> (sec_key_alg sec = KUnsupported -> cause h Unsupported) -> cause h k.
Proof.
  intros R E N. destruct (sec_pair_err C sec k E) as [->|[[(s & M) [->| ->]]|[-> U]]]; [|right; exact Logic.I| |auto].
  - eapply pc_mal, pm_secret; eauto.
  - apply pc_st, ps_multibase. right. eauto 8.
Qed.
Lemma qprior jwt h : msg_from_prior m = Some jwt -> wp A P h (from_prior_unpack C jwt) Q.
Proof.
  intros J. assert (T : forall h, cause h Malformed) by (intros; apply pc_token; congruence).
  unfold from_prior_unpack. wstep; leaf; [|pure ck_compact]. cbv zeta. wstep; [wstep; leaf; auto|].
  destruct (did_or_url (ch_kid (pc_parsed a))) as [did url] eqn:Ed. wstep; [wstep; leaf; auto|].
  assert (S : token_header m (ch_kid (pc_parsed a)) (ch_alg (pc_parsed a))).
  { apply parse_compact_Ok in E as (-> & N1 & N2 & N3 & hb & Hb & Hh).
    exists (pc_header a), (pc_payload a), (pc_signature a), hb, (pc_parsed a). auto 9. }
  wstep; leaf. wstep; leaf. 2: none.
  apply ok_or_Ok in E2. subst a0. wstep; leaf.
  2:{ apply unlisted_use in E2 as [-> X]. right. exact I. }
  assert (a0 = ch_kid (pc_parsed a)) by (apply ok_or_Ok in E2; apply find_first_some in E2 as [_ X]; now apply beq_eq in X). subst a0.
  wstep; leaf. 2:{ apply (unlisted_vm doc_authentication) in E3 as [-> X]. right. exact I. }
  apply ok_or_Ok in E3. apply find_first_some in E3 as [Iv Ev0]. apply beq_eq in Ev0.
  wstep; leaf. 2:{ pure ck_verify_alg. intros n Hn. apply pc_by. eapply pb_token. rewrite <- Hn. exact S. }
  apply works in E3 as E4. destruct E4 as [W Nu].
  wstep; leaf. 2:{ apply vm_as_err in E4 as [[-> N]|[Ea E4]].
    - apply pc_st. eapply ps_token; eauto. apply in_last.
    - eapply pc_vm; eauto; [apply in_last|congruence]. }
  wstep; leaf; [|pure ck_compact_verify; eauto]. wstep; [wstep; leaf; auto|]. wstep; leaf; [|pure kinds_ok_or].
  wstep; [wstep; leaf; auto|]. wstep; leaf; [|pure kinds_kind]. wstep; leaf.
Qed.
Lemma qplain h : wp A P h (pack_plaintext C m) Q.
Proof.
  unfold pack_plaintext. wstep. destruct (msg_from_prior m) as [jwt|] eqn:J.
  - wstep. eapply wp_mono; [|apply (qprior jwt); eauto]. intros h' [[p kid]|k|] X; cbn [wpr wp]; auto.
    wstep; leaf; [wstep; leaf|].
    assert (T : forall h, cause h Malformed) by (intros; apply pc_token; congruence).
    eapply (@pc_pure _ unit); [|exact E]. unfold validate_pack_plaintext. apply kinds_bind.
    + unfold validate_pack. repeat match goal with |- kinds _ (if ?x then _ else _) => destruct x | |- kinds _ (let (_, _) := ?x in _) => destruct x
        | |- kinds _ (match ?x with _ => _ end) => destruct x end; first [apply kinds_Ok|apply kinds_Err; first [apply T|right; exact I]].
    + intros _ _. destruct (msg_from m); [|apply kinds_Ok]. destruct (negb _); [apply kinds_Err, T|apply kinds_Ok].
  - cbn [wp wpr]. wstep; leaf; [wstep; leaf|]. cbn in E. discriminate.
Qed.
Lemma qsigned s h : sign_by = Some s -> wp A P h (pack_signed C m s) Q.
Proof.
  intros S. unfold pack_signed. destruct (is_did s); cbn [negb]; [|wstep; leaf]. destruct (did_or_url s) as [did key_id] eqn:Ed.
  wstep; leaf. wstep; leaf. 2: none. apply ok_or_Ok in E. subst a.
  wstep; leaf.
  2:{ destruct key_id as [kid'|]; [|discriminate]. destruct (ok_or _ _) eqn:F in E; cbn in E; try discriminate. injection E as <-. apply unlisted_use in F as [-> X]. right. exact I. }
  wstep; leaf. wstep; leaf. 2: none. wstep; leaf. wstep; leaf. 2: none.
  match goal with E : ok_or _ ?o = Ok ?x |- _ => apply ok_or_Ok in E; subst o end.
  assert (B : forall h' id sec, In (Ev (OGetSecret id) (Ok (Some sec))) h' -> (forall alg, ~ works_with alg (sec_key_alg sec)) -> cause h' Unsupported).
  { intros h' id sec I N. apply pc_by. eapply pb_signer; eauto. }
  wstep; leaf. 2:{ eapply pc_sec; [apply in_last|eassumption|]. intros U. eapply B; [apply in_last|]. rewrite U. intros alg W. inversion W. }
  match goal with |- context [let (_, _) := ?x in _] => destruct x as [ka k] end. apply sec_alg in E1 as ->.
  wstep. eapply wp_mono; [|apply wp_hist; apply qplain].
  intros h' [pl|k'|] (X & t & ->); cbn [wpr]; auto. wstep; leaf.
  2:{ assert (k0 = Unsupported /\ forall alg, ~ works_with alg (sec_key_alg a4)) as [-> N].
      { unfold sign_alg_of in E1. destruct (sec_key_alg a4); try discriminate; injection E1 as <-; (split; auto; intros alg W; inversion W). }
      eapply B; [apply in_app_l, in_last|exact N]. }
  wstep; leaf. 2:{ unfold jws_sign in E2. destruct (sec_key_alg a4); try discriminate E1; injection E1 as <-; cbn [sig_type rbind] in E2;
    (destruct (key_sign _ _ _ _ _) eqn:Ks in E2; cbn in E2; [discriminate|]; injection E2 as <-; eapply pc_back, rf_sign; eauto). }
  wstep; leaf.
Qed.
Lemma qencrypt ce d ka pt alg enc sender rs h : (d = Kdf1pu -> sender <> None) -> wp A P h (jwe_encrypt C ce d ka pt alg enc sender rs) Q.
Proof.
  intros Hs. unfold jwe_encrypt. cbv zeta. rewrite wp_pbind. unfold random. cbn [wp]. split; [exact I|]. intros r _. cbn [wpr]. wstep; leaf.
  2:{ destruct (cek_gen _ _ _) eqn:X in E; [discriminate|]. injection E as <-. eapply pc_back, rf_cek; eauto. }
  rewrite wp_pbind. cbn [wp]. split; [exact I|]. intros r' _. cbn [wpr]. wstep; leaf.
  2:{ destruct (key_gen _ _ _) eqn:X in E0; [discriminate|]. injection E0 as <-. eapply pc_back, rf_key; eauto. }
  wstep; leaf. 2:{ destruct (to_jwk_public _ _ _) eqn:X in E1; [discriminate|]. injection E1 as <-. eapply pc_back, rf_jwk; eauto. }
  rewrite wp_pbind. cbn [wp]. split; [exact I|]. intros r'' _. cbn [wpr]. wstep; leaf.
  2:{ destruct (aead_enc _ _ _ _ _ _) eqn:X in E2; [discriminate|]. injection E2 as <-. eapply pc_back, rf_seal; eauto. }
  match goal with |- context [let (_, _) := ?x in _] => destruct x as [ct tag] end.
  wstep; leaf. 2:{ apply rmap_err in E3 as (x & _ & Ex). unfold wrap_one, derive_key in Ex. destruct d.
    - destruct (ecdh_es _ _ _ _ _ _ _ _) eqn:X in Ex; cbn in Ex; [|injection Ex as <-; eapply pc_back, rf_es; eauto].
      destruct (kw_wrap _ _ _) eqn:Y in Ex; cbn in Ex; [discriminate|injection Ex as <-; eapply pc_back, rf_wrap; eauto].
    - destruct sender as [[f fk]|]; [|now destruct (Hs eq_refl)]. cbn [option_map snd] in Ex.
      destruct (ecdh_1pu _ _ _ _ _ _ _ _ _ _) eqn:X in Ex; cbn in Ex; [|injection Ex as <-; eapply pc_back, rf_1pu; eauto].
      destruct (kw_wrap _ _ _) eqn:Y in Ex; cbn in Ex; [discriminate|injection Ex as <-; eapply pc_back, rf_wrap; eauto]. }
  wstep; leaf.
Qed.
Lemma qanon_encrypt ka alg msg rs h : wp A P h (anon_encrypt C ka alg msg rs) Q.
Proof. unfold anon_encrypt. destruct alg; apply qencrypt; discriminate. Qed.
Lemma keys_in e doc kids keys vm : rmap (find_vm e doc) kids = Ok keys -> In vm keys -> In vm (doc_verification_method doc) /\ In (vm_id vm) kids.
Proof.
  intros E I. apply entries in E. induction E as [|x y l l' [Ei Fx] F IH]; [destruct I|]. destruct I as [<-|I].
  - split; [|left; congruence]. destruct Fx as (l1 & l2 & -> & _). apply in_or_app. right. now left.
  - destruct (IH I). split; auto. now right.
Qed.
Lemma qrecipients h did doc e kids keys ka k : resolved h did doc -> rmap (find_vm e doc) kids = Ok keys -> agreement ka ->
  rmap (vm_recipient C ka) (filter (fun vm => kalg_eqb (vm_key_alg vm) ka) keys) = Err k -> cause h k.
Proof.
  intros R E Ag X. apply rmap_err in X as (vm & I & X). apply filter_In in I as [I Ka]. apply kalg_eqb_eq in Ka. destruct (keys_in _ _ _ _ _ E I) as [Iv _].
  unfold vm_recipient in X. destruct (vm_as C ka vm) eqn:V; cbn in X; try discriminate. injection X as ->.
  apply vm_as_err in V as [[_ N]|[_ V]]; [contradiction|]. eapply pc_vm; eauto. rewrite Ka. destruct Ag; subst; discriminate.
Qed.
Lemma qanon to' msg alg h : names h doc_key_agreement to' -> wp A P h (anoncrypt C to' msg alg) Q.
Proof.
  intros N. unfold anoncrypt. destruct (did_or_url to') as [did kid] eqn:Ed. pose proof (did_part_spec _ _ _ Ed) as DP.
  wstep; leaf. wstep; leaf. 2: none. apply ok_or_Ok in E. subst a.
  match goal with |- wp _ _ ?h _ _ => set (h1 := h) end. assert (R1 : resolved h1 did a0) by apply in_last.
  assert (As : asks_for m to from sign_by o h1 to' a0 (select_kids kid (doc_key_agreement a0))).
  { exists did. split; [eapply names_more; [apply incl_snoc|exact N]|]. split; auto. split; auto. eapply select_wanted; eauto. }
  cbv zeta. destruct (select_kids kid (doc_key_agreement a0)) as [|k0 ks] eqn:S; [wstep; leaf|].
  rewrite <- S in *. assert (NE : select_kids kid (doc_key_agreement a0) <> []) by (rewrite S; discriminate). clear S. wstep; leaf.
  2:{ apply rmap_err in E as (x & I & E). apply find_vm_err in E as [-> U]. apply pc_by. eapply pb_undescribed; eauto. }
  wstep; leaf.
  2:{ destruct (filter _ _) eqn:F in E0; [|discriminate]. injection E0 as <-. apply pc_st.
      destruct a as [|vm keys]. { apply entries in E. inversion E. congruence. }
      destruct (keys_in _ _ _ _ vm E (or_introl eq_refl)) as [I1 I2]. eapply ps_recipient; eauto.
      cbn in F. unfold supported in F. destruct (vm_key_alg vm); try discriminate F. intros [|]; discriminate. }
  assert (K : exists vm, In vm a /\ vm_key_alg vm = a1).
  { apply ok_or_Ok in E0. destruct (filter _ a) eqn:F in E0; [discriminate|]. injection E0 as <-. exists v. split; auto.
    assert (I : In v (v :: l)) by now left. rewrite <- F in I. now apply filter_In in I. }
  destruct K as (vm & Iv & Ka). destruct (keys_in _ _ _ _ vm E Iv) as [I1 I2].
  assert (G : ~ agreement a1 -> cause h1 InvalidState) by (intros G; apply pc_st; eapply ps_recipient; eauto; congruence).
  wstep. destruct a1; try (cbn [wp wpr pcauses]; apply G; intros [|]; discriminate);
    (wstep; leaf; [|eapply qrecipients; eauto; unfold agreement; auto]; eapply wp_mono; [|apply qanon_encrypt]; intros h' [x|k|] X; cbn [wpr wp]; auto).
Qed.
Lemma qauth f msg au an protect h : from = Some f -> wp A P h (authcrypt C to f msg au an protect) Q.
Proof.
  intros F. unfold authcrypt. destruct (did_or_url to) as [did kid] eqn:DT. pose proof (did_part_spec _ _ _ DT) as DP.
  wstep; leaf. wstep; leaf. 2: none. apply ok_or_Ok in E. subst a.
  destruct (did_or_url f) as [fdid fkid] eqn:DF. pose proof (did_part_spec _ _ _ DF) as FP.
  wstep. cbn [wp]; split; [exact I|intros [?|?|] ?; cbn [wpr]; leaf].
  wstep; leaf. 2: none. apply ok_or_Ok in E. subst a.
  match goal with |- wp _ _ ?h _ _ => set (h1 := h) end.
  assert (R1 : resolved h1 did a0) by (unfold h1; apply in_app_l; apply in_last). assert (R2 : resolved h1 fdid a1) by (apply in_last).
  assert (At : forall h2, incl h1 h2 -> asks_for m to from sign_by o h2 to a0 (select_kids kid (doc_key_agreement a0))).
  { intros h2 I. exists did. split; [apply pn_to|]. split; auto. split; [apply I, R1|]. eapply select_wanted; eauto. }
  assert (Af : forall h2, incl h1 h2 -> asks_for m to from sign_by o h2 f a1 (select_kids fkid (doc_key_agreement a1))).
  { intros h2 I. exists fdid. split; [now apply pn_from|]. split; auto. split; [apply I, R2|]. eapply select_wanted; eauto. }
  destruct (select_kids fkid (doc_key_agreement a1)) as [|k0 ks] eqn:SF; [wstep; leaf|].
  rewrite <- SF in *. wstep; leaf. destruct a as [|k1 found]; [wstep; leaf|].
  match goal with |- wp _ _ ?h _ _ => set (h2 := h) end. assert (I2 : incl h1 h2) by apply incl_snoc.
  assert (Rp : reported h2 (select_kids fkid (doc_key_agreement a1)) (k1 :: found)) by apply in_last.
  wstep; leaf.
  2:{ apply rmap_err in E as (x & I & E). apply find_vm_err in E as [-> U]. apply pc_mal. eapply pm_reported; eauto. apply I2, R2. }
  destruct (select_kids kid (doc_key_agreement a0)) as [|k2 ks2] eqn:ST; [wstep; leaf|].
  rewrite <- ST in *. wstep; leaf.
  2:{ apply rmap_err in E0 as (x & I & E0). apply find_vm_err in E0 as [-> U]. apply pc_mal. eapply pm_undescribed; eauto. }
  wstep; leaf.
  2:{ destruct (find_first _ _) eqn:FF in E1; [discriminate|]. injection E1 as <-. right. exact I. }
  apply ok_or_Ok in E1. apply find_first_some in E1 as [If _]. apply filter_In in If as [If Sf]. destruct (keys_in _ _ _ _ _ E If) as [I4 I5].
  wstep; leaf. match goal with |- wp _ _ (_ ++ [Ev (OGetSecret _) (Ok ?x)]) _ _ => rename x into osec end.
  wstep; leaf.
  2:{ destruct osec; [discriminate|]. injection E1 as <-. apply pc_st. eapply ps_secret; [apply in_app_l; exact Rp|exact I5|apply last_last]. }
  apply ok_or_Ok in E1. subst osec. cbv zeta. wstep.
  match goal with |- wp _ _ ?h _ _ => set (h3 := h) end. assert (I3 : incl h1 h3) by (intros e Ie; apply in_app_l; now apply I2).
  assert (Hs : held h3 (vm_id a3) a4) by apply in_last.
  assert (G : forall ka, agreement ka -> vm_key_alg a3 = ka -> wp A P h3 (auth_encrypt C ka au an protect msg a3 a4 (filter (fun t => kalg_eqb (vm_key_alg t) ka) a2)) Q).
  { intros ka Ag Ka. unfold auth_encrypt. wstep; leaf; [|eapply qrecipients; [apply I3; exact R1|exact E0|exact Ag|eassumption]].
    wstep; leaf.
    2:{ match goal with E : sec_as _ _ _ = Err _ |- _ => apply sec_as_err in E as [[-> N]|[Ea X]] end.
        - apply pc_st. eapply (ps_secret_type _ _ _ _ _ _ _ (vm_id a3) a4 fdid a1 a3); [exact Hs|apply I3; exact R2|exact I4|reflexivity|now rewrite Ka].
        - eapply pc_sec; eauto. intros U. destruct Ag; congruence. }
    wstep. destruct au. eapply wp_mono; [|apply qencrypt; discriminate].
    intros h' [x|?|] X; cbn [wpr]; auto. destruct protect; [|wstep; leaf]. apply qanon_encrypt. }
  match goal with |- context [match ?k with KX25519 => _ | _ => _ end] => destruct k eqn:KA end;
    try (cbn [wp wpr pcauses]; apply pc_by; eapply pb_sender; eauto; rewrite KA; intros [|]; discriminate);
    (eapply wp_mono; [|apply G; unfold agreement; auto]; intros h' [x|k|] X; cbn [wpr wp]; auto).
Qed.
Lemma qservice did sid h : wp A P h (find_service did sid) Q.
Proof.
  unfold find_service. wstep; leaf. wstep; leaf. 2: none. apply ok_or_Ok in E. subst a.
  destruct sid as [i|]; [|wstep; leaf]. wstep; leaf; [|none].
  destruct (svc_kind a) as [ms|v] eqn:K; [destruct (accepts_v2 ms) eqn:Ac|]; wstep; leaf.
Qed.
Definition served (did : bytes) (sid : option bytes) (h : list event) (h' : list event) (x : res (option (bytes * messaging_service))) : Prop :=
  forall r, x = Ok r -> exists doc, h' = h ++ [Ev (OResolve did) (Ok (Some doc))] /\
    match r with Some (id, ms) => chosen doc sid id ms | None => sid = None /\ forall s ms, In s (doc_service doc) -> ~ usable s ms end.
Lemma qserved did sid h : wp A P h (find_service did sid) (fun h' x => Q h' x /\ served did sid h h' x).
Proof.
  apply wp_both; [apply qservice|]. intros tr x E r ->. apply find_service_Ok in E as (doc & -> & R). eauto.
Qed.
Lemma qchain h : po_forward o = true -> wp A P h (services_chain to (po_messaging_service o)) Q.
Proof.
  intros Fw. unfold services_chain. destruct (did_or_url to) as [did u] eqn:DU. pose proof (did_part_spec _ _ _ DU) as DP. wstep.
  eapply wp_mono; [|apply qserved]. intros h' [[[id ms]|]|k|] [X S]; cbn [wpr]; auto. cbn [snd chain_loop].
  destruct (S _ eq_refl) as (doc & -> & Ch). clear S.
  destruct (is_did (ms_uri ms)) eqn:D; [|wstep; leaf]. apply is_did_text in D. cbn [List.length Nat.ltb Nat.leb]. wstep. eapply wp_mono; [|apply qserved].
  intros h2 [s|k|] [X2 S]; cbn [wpr]; auto. destruct (S _ eq_refl) as (mdoc & -> & Ch'). clear S.
  assert (B : (forall mid mms, chosen mdoc None mid mms -> did_text (ms_uri mms)) ->
    cause ((h ++ [Ev (OResolve did) (Ok (Some doc))]) ++ [Ev (OResolve (ms_uri ms)) (Ok (Some mdoc))]) InvalidState).
  { intros U. apply pc_st. eapply ps_no_mediator; eauto; [apply in_app_l, in_last|apply last_last]. }
  destruct s as [[mid mms]|].
  - wstep; leaf; [|discriminate]. injection E as <-. cbn [snd chain_loop].
    destruct (is_did (ms_uri mms)) eqn:D'; cbn [List.length Nat.ltb Nat.leb]; wstep; leaf. apply is_did_text in D'.
    apply B. intros mid' mms' (s' & F' & U' & _). destruct Ch' as (s & F0 & U0 & _). pose proof (first_with_fun _ _ _ _ F0 F') as <-.
    destruct U' as [K' _]. destruct U0 as [K0 _]. rewrite K0 in K'. injection K' as <-. exact D'.
  - wstep; leaf; [discriminate|]. injection E as <-. apply B. intros mid mms (s & F0 & U0 & _). destruct Ch' as [_ N]. destruct (N s mms); auto.
    destruct F0 as (l1 & l2 & -> & _). apply in_or_app. right. now left.
Qed.
Lemma qwrap headers alg hops : po_forward o = true -> forall msg h, (forall k, In k (map fst hops) -> names h doc_key_agreement k) ->
  wp A P h (wrap_loop C msg headers hops alg) Q.
Proof.
  intros Fw. induction hops as [|[k next] hops IH]; intros msg h N; cbn [wrap_loop]; [wstep; leaf|]. wstep.
  eapply wp_mono; [|apply wp_hist with (Q := Q)].
  2:{ unfold build_forward. wstep; leaf; [|pure kinds_kind; now apply pc_mal, pm_forward]. wstep. unfold random. cbn [wp]. split; [exact I|]. intros r _. cbn [wpr wp]. leaf. }
  intros h' [x|?|] (X & t & ->); cbn [wpr]; auto. wstep. eapply wp_mono; [|apply wp_hist with (Q := Q), qanon].
  2:{ eapply names_more; [apply incl_snoc|]. apply N. now left. }
  intros h' [[y ks]|?|] (Y & t' & ->); cbn [wpr]; auto. apply IH; auto. intros k' I'. rewrite <- app_assoc. eapply names_more; [apply incl_snoc|]. apply N. now right.
Qed.
Lemma qforward msg h : wp A P h (wrap_if_needed C msg to o) Q.
Proof.
  unfold wrap_if_needed. destruct (po_forward o) eqn:F; cbn [negb]; [|wstep; leaf]. wstep.
  eapply wp_mono; [|apply wp_both with (Q2 := fun h' r => forall chain, r = Ok chain -> exists tr, h' = h ++ tr /\ chain_is to (po_messaging_service o) tr chain); [now apply qchain|]].
  2:{ intros tr x E chain ->. exists tr. split; auto. now apply services_chain_Ok. }
  intros h' [chain|?|] [X Hc]; cbn [wpr]; auto. destruct (Hc chain eq_refl) as (tr & -> & Ch). clear Hc.
  assert (W : forall keys, keys <> [] -> (forall k, In k keys -> names (h ++ tr) doc_key_agreement k) -> wp A P (h ++ tr) (wrap_in_forward C msg (po_forward_headers o) to keys (po_enc_alg_anon o)) Q).
  { intros keys NE K. unfold wrap_in_forward. destruct keys as [|k0 keys]; [congruence|]. cbv zeta. apply qwrap; auto. intros k I0. apply K.
    apply in_map_iff in I0 as ([k' n] & <- & I0). apply in_combine_l in I0. now apply in_rev in I0. }
  destruct Ch as [did doc DP S N|did doc id ms DP Ch N|did doc id ms mdoc mid mms DP Ch Dt Ch' N]; [wstep; leaf| |]; cbv zeta; cbn [last map app snd fst].
  - destruct (ms_routing_keys ms) as [|k0 keys] eqn:K; [wstep; leaf|]. rewrite <- K. wstep. eapply wp_mono; [|apply W].
    + intros h' [x|?|] Y; cbn [wpr wp]; auto.
    + rewrite K. discriminate.
    + intros k Ik. eapply pn_hop; eauto. apply in_last.
  - wstep. eapply wp_mono; [|apply W].
    + intros h' [x|?|] Y; cbn [wpr wp]; auto.
    + discriminate.
    + intros k [<-|Ik]; (eapply pn_hop; eauto; apply in_app_r; now left).
Qed.
Lemma qpack : wp A P [] (pack_encrypted C m to from sign_by o) Q.
Proof.
  unfold pack_encrypted.
  wstep; leaf; (destruct (validate_cases m to from sign_by) as [[V R]|[V R]]; rewrite V in E; try discriminate).
  2:{ injection E as <-. right. exact I. }
  wstep. eapply wp_mono with (Q := Q).
  2:{ destruct sign_by as [s|] eqn:S; rewrite <- S in *.
      - wstep. eapply wp_mono; [|apply (qsigned s); auto]. intros h' [[x y]|?|] X; cbn [wpr wp]; auto.
      - wstep. eapply wp_mono; [|apply qplain; auto]. intros h' [x|?|] X; cbn [wpr wp]; auto. }
  intros h' [[msg kid]|?|] X; cbn [wpr]; auto. wstep. eapply wp_mono with (Q := Q).
  2:{ destruct from as [f|] eqn:S; rewrite <- S in *.
      - wstep. eapply wp_mono; [|apply (qauth f); auto]. intros h2 [[[x y] z]|?|] Y; cbn [wpr wp]; auto.
      - wstep. eapply wp_mono; [|apply qanon; apply pn_to]. intros h2 [[x y]|?|] Y; cbn [wpr wp]; auto. }
  intros h2 [[[msg2 fk] tk]|?|] Y; cbn [wpr]; auto. wstep. eapply wp_mono; [|now apply qforward].
  intros h3 [[[w sm]|]|?|] Z; cbn [wpr wp]; auto.
Qed.
End Pack.
Lemma pack_causes C m to from sign_by o tr k : exec (pack_encrypted C m to from sign_by o) tr (Err k) -> pack_cause C m to from sign_by o tr k.
Proof.
  intros E. apply (wp_exec (fun _ => True) (fun _ _ => True) []) with (Q := pcauses C m to from sign_by o) in E; [now destruct E|apply qpack|now apply Forall_forall].
Qed.
Lemma signed_causes C m s tr k to o : exec (pack_signed C m s) tr (Err k) -> pack_cause C m to None (Some s) o tr k.
Proof.
  intros E. apply (wp_exec (fun _ => True) (fun _ _ => True) []) with (Q := pcauses C m to None (Some s) o) in E; [now destruct E|now apply qsigned|now apply Forall_forall].
Qed.
Lemma plain_causes C m tr k to o : exec (pack_plaintext C m) tr (Err k) -> pack_cause C m to None None o tr k.
Proof.
  intros E. apply (wp_exec (fun _ => True) (fun _ _ => True) []) with (Q := pcauses C m to None None o) in E; [now destruct E|apply qplain|now apply Forall_forall].
Qed.
