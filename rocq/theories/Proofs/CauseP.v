(** InvalidState and Unsupported. *)
From Verif.Model Require Import Prelude Utf8 Base64 Json Serde Base58 DidDoc Crypto Keys Effects Jws Jwe Message FromPrior Pack Routing Unpack.
From Verif.Spec Require Import Small Events Packing Conc Asked Blame Grammar Cut Cause.
From Verif.Proofs Require Import JsonP Lib SmallP Errs Wp UnpackInv UnpackP SealP PackP RouteP AskedP BlameP GrammarP SpellP CutE.

(** ** Functions without calls *)
Section Kinds.
Variable K : errkind -> Prop.
Hypothesis KM : K Malformed.
Ltac kd := repeat (cbv beta iota zeta; lazymatch goal with
  | |- forall _, _ => intro
  | |- kinds K (Ok _) => apply kinds_Ok
  | |- kinds K (Err Malformed) => apply kinds_Err; exact KM
  | |- kinds K (Err _) => apply kinds_Err
  | |- kinds K Panic => apply kinds_Panic
  | |- kinds K (rbind _ _) => apply kinds_bind
  | |- kinds K (ok_or Malformed _) => apply kinds_ok_or; exact KM
  | |- kinds K (kind Malformed _) => apply kinds_kind; exact KM
  | |- kinds K (if ?x then _ else _) => destruct x eqn:?
  | |- kinds K (match ?x with _ => _ end) => destruct x eqn:?
  end).
Lemma ck_json {A} (dec : raw -> res A) t : (forall r, clean syn r -> errs (fun k => k = Malformed) (dec r)) -> errs json_kind (from_json dec t) ->
  (cut_off t -> K InvalidState) -> kinds K (from_json dec t).
Proof. intros H J N k E. destruct (json_cut dec t H J k E) as [->|[-> X]]; auto. Qed.
Lemma ck_jwe t : (cut_off t -> K InvalidState) -> kinds K (jwe_from_str t).
Proof. apply ck_json; [apply errs_jwe; [reflexivity|exact syn_kind]|apply jwe_str_errs]. Qed.
Lemma ck_jws t : (cut_off t -> K InvalidState) -> kinds K (jws_from_str t).
Proof. apply ck_json; [apply errs_jws; [reflexivity|exact syn_kind]|apply jws_str_errs]. Qed.
Lemma ck_msg fp t : (cut_off t -> K InvalidState) -> kinds K (message_from_str fp t).
Proof. apply ck_json; [apply errs_message; [reflexivity|exact syn_kind]|apply msg_str_errs]. Qed.
Lemma ck_soft {A} (r : res A) : kinds K r -> kinds K (soft r).
Proof. intros H. destruct r as [|k|]; cbn; [apply kinds_Ok| |apply kinds_Panic]. specialize (H k eq_refl). destruct k; first [apply kinds_Ok|now apply kinds_Err]. Qed.
Lemma ck_jwe_parse C j : (forall b, b64dec (jwe_protected j) = Some b -> cut_off b -> K InvalidState) -> kinds K (jwe_parse C j).
Proof.
  intros H. unfold jwe_parse. kd. apply ck_json; [apply errs_jwe_header; [reflexivity|exact syn_kind]|apply jwe_header_errs|].
  apply H. now apply ok_or_Ok in H0.
Qed.
Lemma ck_verify C p : kinds K (verify_didcomm C p).
Proof. unfold verify_didcomm. kd. Qed.
Lemma ck_recipients l : kinds K (check_recipients l).
Proof. unfold check_recipients. kd. Qed.
Lemma ck_decrypt C ce d ka p s kid k :
  (option_map fst s <> pj_apu p -> K InvalidState) -> (~ In kid (map rc_kid (jwe_recipients (pj_jwe p))) -> K InvalidState) ->
  (forall e alg apu apv, ecdh_es C ka e k alg apu apv true = None -> K InvalidState) ->
  (forall e s k alg apu apv tag, ecdh_1pu C ka e s k alg apu apv tag true = None -> K InvalidState) ->
  (d = Kdf1pu -> s <> None) -> kinds K (jwe_decrypt C ce d ka p s kid k).
Proof.
  intros H1 H2 H3 H4 H5. unfold jwe_decrypt. cbv zeta. destruct (beq_opt (option_map fst s) (pj_apu p)) eqn:E; cbn [negb].
  2:{ apply kinds_Err, H1. intros X. rewrite X in E. destruct (pj_apu p); cbn in E; [now rewrite beq_refl in E|discriminate]. }
  apply kinds_bind.
  { destruct (find_first _ _) eqn:F; cbn; [apply kinds_Ok|]. apply kinds_Err, H2. intros I. apply in_map_iff in I as (r & Er & I).
    pose proof (find_first_none _ _ F r I) as X. cbv beta in X. now rewrite Er, beq_refl in X. }
  kd. unfold derive_key. destruct d.
  - destruct (ecdh_es _ _ _ _ _ _ _ _) eqn:X; cbn; [apply kinds_Ok|apply kinds_Err; eauto].
  - destruct s as [[? ?]|]; cbn; [|now destruct (H5 eq_refl)]. destruct (ecdh_1pu _ _ _ _ _ _ _ _ _ _) eqn:X; cbn; [apply kinds_Ok|apply kinds_Err; eauto].
Qed.
Lemma ck_anon_open C p kid ka k :
  (pj_apu p <> None -> K InvalidState) -> (~ In kid (map rc_kid (jwe_recipients (pj_jwe p))) -> K InvalidState) ->
  (forall e alg apu apv, ecdh_es C ka e k alg apu apv true = None -> K InvalidState) ->
  (forall n, ph_enc (pj_protected p) = JweEncOther n -> K Unsupported) -> (~ agreement ka -> K Unsupported) ->
  kinds K (anon_open C p kid ka k).
Proof.
  intros H1 H2 H3 H4 H5. unfold anon_open, anon_cenc.
  assert (X : forall ce, kinds K (jwe_decrypt C ce KdfEs ka p None kid k)).
  { intros ce. unfold jwe_decrypt. cbv zeta. cbn [option_map]. destruct (beq_opt None (pj_apu p)) eqn:E; cbn [negb].
    2:{ apply kinds_Err, H1. intros X. rewrite X in E. discriminate. }
    apply kinds_bind.
    { destruct (find_first _ _) eqn:F; cbn; [apply kinds_Ok|]. apply kinds_Err, H2. intros I. apply in_map_iff in I as (r & Er & I).
      pose proof (find_first_none _ _ F r I) as X. cbv beta in X. now rewrite Er, beq_refl in X. }
    kd. cbn [derive_key]. destruct (ecdh_es _ _ _ _ _ _ _ _) eqn:X; cbn; [apply kinds_Ok|apply kinds_Err; eauto]. }
  destruct ka; try (apply kinds_Err, H5; intros [|]; discriminate).
  - apply kinds_bind; [destruct (ph_enc _) eqn:E; try apply kinds_Ok; apply kinds_Err; eauto|]. intros [ce alg] _. apply kinds_bind; [apply X|]. intros; apply kinds_Ok.
  - apply kinds_bind; [destruct (ph_enc _) eqn:E; try apply kinds_Ok; apply kinds_Err; eauto|]. intros [ce alg] _. apply kinds_bind; [apply X|]. intros; apply kinds_Ok.
Qed.
Lemma ck_auth_open C p f fk kid ka k :
  pj_apu p = Some f -> (~ In kid (map rc_kid (jwe_recipients (pj_jwe p))) -> K InvalidState) ->
  (forall ka e s k alg apu apv tag, ecdh_1pu C ka e s k alg apu apv tag true = None -> K InvalidState) ->
  (ph_enc (pj_protected p) <> A256cbcHs512 -> K Unsupported) -> (~ agreement (fst fk) -> K Unsupported) -> (~ agreement ka -> K Unsupported) ->
  kinds K (auth_open C p f fk kid ka k).
Proof.
  intros H1 H2 H3 H4 H5 H6. unfold auth_open. destruct fk as [fa fk]. cbn [fst snd] in *.
  assert (X : forall ce ka, kinds K (jwe_decrypt C ce Kdf1pu ka p (Some (f, fk)) kid k)).
  { intros ce ka0. unfold jwe_decrypt. cbv zeta. cbn [option_map fst snd]. rewrite H1. cbn [beq_opt]. rewrite beq_refl. cbn [negb].
    apply kinds_bind.
    { destruct (find_first _ _) eqn:F; cbn; [apply kinds_Ok|]. apply kinds_Err, H2. intros I. apply in_map_iff in I as (r & Er & I).
      pose proof (find_first_none _ _ F r I) as X. cbv beta in X. now rewrite Er, beq_refl in X. }
    kd. cbn [derive_key]. destruct (ecdh_1pu _ _ _ _ _ _ _ _ _ _) eqn:X; cbn; [apply kinds_Ok|apply kinds_Err; eauto]. }
  destruct fa; try (apply kinds_Err, H5; intros [|]; discriminate);
    (destruct ka; [apply kinds_Err, H6; intros [|]; discriminate| | |apply kinds_Err, H6; intros [|]; discriminate|apply kinds_Err, H6; intros [|]; discriminate]);
    try (apply kinds_Err; exact KM); destruct (ph_enc _) eqn:E; try apply X; apply kinds_Err, H4; discriminate.
Qed.
Lemma ck_jws_parse j : (forall sg b, In sg (jws_signatures j) -> b64dec (sig_protected sg) = Some b -> cut_off b -> K InvalidState) -> kinds K (jws_parse j).
Proof.
  intros H. unfold jws_parse. kd. apply kinds_rmap. intros s I. unfold parse_jws_header. kd.
  apply ck_json; [apply errs_jws_header; [reflexivity|exact syn_kind]|apply jws_header_errs|]. apply (H s); auto. now apply ok_or_Ok in H0.
Qed.
Lemma ck_verify_alg a : (forall n, a = JwsAlgOther n -> K Unsupported) -> kinds K (verify_alg_of a).
Proof. intros H. unfold verify_alg_of. kd. eauto. Qed.
Lemma ck_sign_md a : (forall n, a = JwsAlgOther n -> K Unsupported) -> kinds K (sign_alg_md a).
Proof. intros H. unfold sign_alg_md. kd. eauto. Qed.
Lemma ck_compact s : kinds K (parse_compact s).
Proof. unfold parse_compact. kd. Qed.
Lemma ck_jws_verify C j sg h kid ka k a : jws_signatures j = [sg] -> sig_kid sg = kid -> verify_alg_of (jh_alg h) = Ok a -> kinds K (jws_verify C (j, [h]) kid ka k).
Proof.
  intros E1 E2 V. unfold jws_verify. rewrite E1. cbn [find_sig]. rewrite E2, beq_refl. cbn [rbind hd_error ok_or]. destruct (jh_alg h); try discriminate; cbn [sig_type]; kd.
Qed.
Lemma ck_compact_verify C pc ka k a : verify_alg_of (ch_alg (pc_parsed pc)) = Ok a -> kinds K (compact_verify C pc ka k).
Proof. intros V. unfold compact_verify. destruct (ch_alg _); try discriminate; cbn [sig_type]; kd. Qed.
Lemma ck_validate m : kinds K (msg_validate m).
Proof. unfold msg_validate. kd. Qed.
(** Keys. *)
Lemma ck_multibase cd s : K IllegalArgument -> K InvalidState -> kinds K (multibase_key cd s).
Proof. intros KI KS. unfold multibase_key, from_multicodec, codec_by_prefix, split_at. kd; auto. apply kinds_ok_or; auto. Qed.
Lemma ck_jwk C a v : kinds K (jwk_key C a v). Proof. unfold jwk_key. kd. Qed.
Lemma ck_vm C vm : (forall s, vm_material vm = MMultibase s -> K IllegalArgument /\ K InvalidState) -> (vm_key_alg vm = KUnsupported -> K Unsupported) -> kinds K (vm_key_pair C vm).
Proof.
  intros KI KU. unfold vm_key_pair, vm_key_alg, key_alg in *. destruct (vm_type vm), (vm_material vm) eqn:M; kd; try apply ck_jwk; auto;
    (apply ck_multibase; eapply KI; eauto).
Qed.
Lemma ck_sec C sec : (forall s, sec_material sec = MMultibase s -> K IllegalArgument /\ K InvalidState) -> (sec_key_alg sec = KUnsupported -> K Unsupported) -> kinds K (sec_key_pair C sec).
Proof.
  intros KI KU. unfold sec_key_pair, sec_key_alg, key_alg, x25519_secret_key, ed25519_secret_key, split_at in *.
  destruct (sec_type sec), (sec_material sec) eqn:M; kd; try apply ck_jwk; auto; (apply ck_multibase; eapply KI; eauto).
Qed.
Lemma ck_as C a vm : (vm_key_alg vm <> a -> K InvalidState) -> (vm_key_alg vm = a -> kinds K (vm_key_pair C vm)) -> kinds K (vm_as C a vm).
Proof.
  intros H V. unfold vm_as, as_alg. destruct (kalg_eqb (vm_key_alg vm) a) eqn:E; [|apply kinds_Err, H; intros X; subst; now destruct (vm_key_alg vm)].
  apply kinds_bind; [apply V; now destruct (vm_key_alg vm), a|]. intros [a' k] P. assert (a' = vm_key_alg vm).
  { unfold vm_key_pair, vm_key_alg, key_alg, jwk_key in *. destruct (vm_type vm), (vm_material vm); try discriminate;
      repeat match goal with P : context [match ?x with _ => _ end] |- _ => destruct x eqn:?; cbn in P; try discriminate
        | P : (let? _ := ?x in _) = _ |- _ => destruct x eqn:?; cbn in P; try discriminate end; congruence. }
  subst a'. rewrite E. apply kinds_Ok.
Qed.
End Kinds.
Lemma sec_alg C sec a k : sec_key_pair C sec = Ok (a, k) -> a = sec_key_alg sec.
Proof.
  intros P. unfold sec_key_pair, sec_key_alg, key_alg, x25519_secret_key, ed25519_secret_key, jwk_key in *. destruct (sec_type sec), (sec_material sec); try discriminate;
      repeat match goal with P : context [match ?x with _ => _ end] |- _ => destruct x eqn:?; cbn in P; try discriminate
        | P : (let? _ := ?x in _) = _ |- _ => destruct x eqn:?; cbn in P; try discriminate end; congruence.
Qed.
Lemma vm_alg C vm a k : vm_key_pair C vm = Ok (a, k) -> a = vm_key_alg vm.
Proof.
  intros P. unfold vm_key_pair, vm_key_alg, key_alg, jwk_key in *. destruct (vm_type vm), (vm_material vm); try discriminate;
      repeat match goal with P : context [match ?x with _ => _ end] |- _ => destruct x eqn:?; cbn in P; try discriminate
        | P : (let? _ := ?x in _) = _ |- _ => destruct x eqn:?; cbn in P; try discriminate end; congruence.
Qed.

(** ** Unpack *)
Section Unpack.
Context (C : crypto) (A : event -> Prop) (text : bytes).
Notation P := (fun (_ : list event) (_ : op) => True).
Notation cause := (unpack_cause C text).
Notation met := (met C text).
Definition causes {X} (h : list event) (x : res X) : Prop := match x with Err k => cause h k | _ => True end.
Notation Q := causes.
Definition common (k : errkind) : Prop := k <> InvalidState /\ k <> Unsupported.
Lemma cc_common h k : common k -> cause h k.
Proof. intros [N1 N2]. right. destruct k; try exact I; congruence. Qed.
Lemma cc_raised h e k : failed e k -> cause (h ++ [e]) k.
Proof. intros F. left. exists e. split; auto. apply last_last. Qed.
Lemma cc_pure {X Y} h (r : res X) k : kinds (cause h) r -> r = Err k -> Q h (@Err Y k).
Proof. intros H E. now apply H. Qed.
Lemma cc_mal h : cause h Malformed. Proof. right. exact I. Qed.
Lemma cc_st h : state_trouble C text h -> cause h InvalidState. Proof. intros H. now right. Qed.
Lemma cc_by h : beyond C text h -> cause h Unsupported. Proof. intros H. now right. Qed.
Hint Resolve cc_mal cc_st cc_by : core.
Ltac leaf := cbv beta; lazymatch goal with
  | |- causes _ (Ok _) => exact I
  | |- causes _ Panic => exact I
  | |- causes (?h ++ [?e]) (Err ?k) => cbn [causes]; first [apply cc_raised; reflexivity|right; exact I|idtac]
  | |- causes _ (Err ?k) => cbn [causes]; try (right; exact I)
  | |- True => exact I
  | |- _ => idtac
  end.
Ltac pure lem := match goal with E : ?r = Err ?k |- _ => eapply (@cc_pure _ unit); [|exact E]; apply lem; auto end.
Lemma multi_vm h did doc vm : resolved h did doc -> In vm (doc_verification_method doc) -> forall s, vm_material vm = MMultibase s ->
  cause h IllegalArgument /\ cause h InvalidState.
Proof. intros R I s M. split; [right; exact Logic.I|]. apply cc_st, st_multibase. left. eauto 8. Qed.
Lemma multi_sec h id sec : held h id sec -> forall s, sec_material sec = MMultibase s -> cause h IllegalArgument /\ cause h InvalidState.
Proof. intros R s M. split; [right; exact Logic.I|]. apply cc_st, st_multibase. right. eauto 8. Qed.
Lemma cloop {X} all (open : bytes -> kalg -> key C -> res X) h0 ids found0 found : reported h0 ids found0 ->
  (forall h id sec k, incl h0 h -> In id found0 -> held h id sec -> kinds (cause h) (open id (sec_key_alg sec) k)) ->
  incl found found0 -> forall last h, incl h0 h -> (found <> [] \/ last <> None) -> wp A P h (open_loop C all open found last) Q.
Proof.
  intros R O. induction found as [|kid found IH]; intros Inc last h Hi Ne; cbn [open_loop].
  { wstep. destruct last; cbn [ok_or]; [leaf|]. destruct Ne; congruence. }
  assert (R1 : forall e, incl h0 (h ++ [e])) by (intros e x I; apply in_app_l; auto).
  wstep; leaf. wstep; leaf.
  2:{ destruct a; cbn in E; try discriminate; injection E as <-. apply cc_st. eapply st_secret; [apply R1; exact R| |apply last_last]. apply Inc. now left. }
  apply ok_or_Ok in E. subst a. wstep; leaf.
  2:{ eapply (@cc_pure _ unit); [|exact E]. apply ck_sec; auto; [eapply multi_sec; apply in_last|].
      intros U. apply cc_by. eapply by_secret; [apply in_last|]. rewrite U. intros [|]; discriminate. }
  match goal with |- context [let (_, _) := ?x in _] => destruct x as [ka k] end. apply sec_alg in E as ->. wstep; leaf.
  2:{ eapply (@cc_pure _ unit); [|exact E]. apply O; auto; [apply Inc; now left|apply in_last]. }
  wstep; [apply IH; auto; [intros x I; apply Inc; now right|right; discriminate]|wstep; leaf].
Qed.
Lemma canon t o md h : met t -> wp A P h (try_anoncrypt C t o md) Q.
Proof.
  intros R. unfold try_anoncrypt. wstep; leaf; [|pure ck_soft; apply ck_jwe; auto; intros; apply cc_st; eapply st_text; eauto].
  destruct a as [j|]; [|wstep; leaf]. apply soft_Some in E.
  wstep; leaf; [|pure ck_jwe_parse; intros; apply cc_st; eapply st_header; eauto]. apply jwe_parse_Ok in E0 as (Ej & (hb & Hb & Hh) & Ha & Hu).
  destruct (ph_alg _) eqn:Al; try (wstep; leaf; fail). wstep; leaf; [|pure ck_verify]. apply verify_didcomm_Ok in E0 as (-> & _).
  wstep; leaf; [|pure ck_recipients]. wstep; leaf. assert (Env : envelope C t j (pj_protected a)) by (split; eauto).
  match goal with |- context [match ?f with [] => _ | _ :: _ => _ end] => destruct f as [|k0 fs] end; [wstep; leaf|].
  wstep. eapply wp_mono; [|eapply cloop; [apply in_last| |apply incl_refl|apply incl_refl|left; discriminate]].
  { intros h' [[pt alg]|k|] X; cbn [wpr]; auto. destruct (utf8 pt); wstep; leaf. }
  intros h' id sec k Rp I Hd. apply ck_anon_open; auto.
  - intros N. apply cc_st. destruct (pj_apu a) as [u|] eqn:Eu; [|congruence]. eapply st_apu; eauto.
  - rewrite Ej. intros N. apply cc_st. eapply st_stranger; [apply Rp; apply in_last|eauto|exact N].
  - intros. apply cc_st. eapply st_es; eauto.
  - intros n N. apply cc_by. eapply by_enc; eauto.
  - intros N. apply cc_by. eapply by_secret; eauto.
Qed.
Lemma cauth t o md h : met t -> wp A P h (try_authcrypt C t o md) Q.
Proof.
  intros R. unfold try_authcrypt. wstep; leaf; [|pure ck_soft; apply ck_jwe; auto; intros; apply cc_st; eapply st_text; eauto].
  destruct a as [j|]; [|wstep; leaf]. apply soft_Some in E.
  wstep; leaf; [|pure ck_jwe_parse; intros; apply cc_st; eapply st_header; eauto]. apply jwe_parse_Ok in E0 as (Ej & (hb & Hb & Hh) & Ha & Hu).
  destruct (ph_alg _) eqn:Al; try (wstep; leaf; fail). wstep; leaf; [|pure ck_verify]. apply verify_didcomm_Ok in E0 as (-> & _).
  assert (Env : envelope C t j (pj_protected a)) by (split; eauto).
  wstep; leaf; [|pure kinds_ok_or]. apply ok_or_Ok in E0.
  wstep; [wstep; leaf|]. destruct (did_or_url a0) as [did url] eqn:Ed. wstep; [wstep; leaf|].
  assert (U : url_of did a0) by (eapply url_here; eauto; now destruct url).
  assert (N : names_key C text doc_key_agreement a0).
  { eapply nk_sender with (j := j) (h := pj_protected a); eauto. rewrite E0 in Hu. exact Hu. }
  wstep; leaf. 2:{ apply cc_st. eapply st_sender; eauto. apply last_last. }
  wstep; leaf. 2:{ destruct a1; [discriminate|]. injection E3 as <-. leaf. right. exact I. }
  apply ok_or_Ok in E3. subst a1. wstep; leaf. 2:{ apply unlisted_use in E3 as [-> X]. right. exact I. }
  assert (a1 = a0) by (apply ok_or_Ok in E3; apply find_first_some in E3 as [_ X]; now apply beq_eq in X). subst a1.
  wstep; leaf. 2:{ apply (unlisted_vm doc_key_agreement) in E4 as [-> X]. right. exact I. }
  apply ok_or_Ok in E4. apply find_first_some in E4 as [Iv Ev0]. apply beq_eq in Ev0.
  wstep; leaf. 2:{ pure ck_vm; [eapply multi_vm; eauto; apply in_last|]. intros X. apply cc_by. eapply by_sender; eauto; [apply in_last|]. rewrite X. intros [|]; discriminate. }
  destruct a3 as [fa fk]. apply vm_alg in E4 as ->.
  wstep; leaf; [|pure ck_recipients]. wstep; leaf.
  match goal with |- context [match ?f with [] => _ | _ :: _ => _ end] => destruct f as [|k0 fs] end; [wstep; leaf|].
  wstep. eapply wp_mono; [|eapply cloop; [apply in_last| |apply incl_refl|apply incl_refl|left; discriminate]].
  { intros h' [pt|k|] X; cbn [wpr]; auto. destruct (utf8 pt); wstep; leaf. }
  intros h' id sec k Rp I Hd. apply ck_auth_open; auto.
  - rewrite Ej. intros N'. apply cc_st. eapply st_stranger; [apply Rp; apply in_last|eauto|exact N'].
  - intros. apply cc_st. eapply st_1pu; eauto.
  - intros N'. apply cc_by. eapply by_auth_enc; eauto.
  - cbn [fst]. intros N'. apply cc_by. eapply by_sender; eauto. apply Rp, in_app_l, in_last.
  - intros N'. apply cc_by. eapply by_secret; eauto.
Qed.
Lemma works a kalg' : verify_alg_of a = Ok kalg' -> works_with a kalg' /\ kalg' <> KUnsupported.
Proof. destruct a; intros [= <-]; (split; [constructor|discriminate]). Qed.
Lemma vm_state h use kid did doc vm alg a k : names_key C text use kid -> signed_with C text kid alg -> verify_alg_of alg = Ok a ->
  In vm (doc_verification_method doc) -> vm_id vm = kid -> vm_as C a vm = Err k -> cause (h ++ [Ev (OResolve did) (Ok (Some doc))]) k.
Proof.
  intros N S V I Ei E. apply works in V as [W Nu]. eapply (@cc_pure _ unit); [|exact E]. apply ck_as; auto.
  - intros X. apply cc_st. eapply st_type; eauto. apply last_last.
  - intros X. apply ck_vm; auto; [eapply multi_vm; eauto; apply in_last|]. congruence.
Qed.
Lemma csign t md h : met t -> wp A P h (try_sign C t md) Q.
Proof.
  intros R. unfold try_sign. wstep; leaf; [|pure ck_soft; apply ck_jws; auto; intros; apply cc_st; eapply st_text; eauto].
  destruct a as [j|]; [|wstep; leaf]. apply soft_Some in E. wstep; leaf; [|pure ck_jws_parse; intros; apply cc_st; eapply st_sig_header; eauto].
  apply jws_parse_Ok in E0 as [Ej F].
  destruct (snd a) as [|x [|]] eqn:Es; try (wstep; leaf; fail).
  destruct (jws_signatures j) as [|sg l] eqn:Ej'; [inversion F|].
  inversion F as [|? ? ? ? Hx F']; subst. inversion F'; subst. clear F F'. destruct Hx as (hb & Hb & Hh).
  destruct (did_or_url (sig_kid sg)) as [did url] eqn:Ed. wstep; [wstep; leaf|].
  assert (N : names_key C text doc_authentication (sig_kid sg)) by (eapply nk_signer; eauto).
  assert (S : signed_with C text (sig_kid sg) (jh_alg x)) by (eapply sw_message; eauto).
  wstep; leaf. wstep; leaf. 2:{ destruct a0; [discriminate|]. injection E1 as <-. right. exact I. }
  apply ok_or_Ok in E1. subst a0. wstep; leaf.
  2:{ apply unlisted_use in E1 as [-> X]. right. exact I. }
  assert (a0 = sig_kid sg) by (apply ok_or_Ok in E1; apply find_first_some in E1 as [_ X]; now apply beq_eq in X). subst a0.
  wstep; leaf. 2:{ apply (unlisted_vm doc_authentication) in E2 as [-> X]. right. exact I. }
  apply ok_or_Ok in E2. apply find_first_some in E2 as [Iv Ev0]. apply beq_eq in Ev0.
  wstep; leaf. 2:{ pure ck_verify_alg. intros n Hn. apply cc_by. eapply by_alg. rewrite <- Hn. exact S. }
  wstep; leaf. 2:{ pure ck_sign_md. intros n Hn. apply cc_by. eapply by_alg. rewrite <- Hn. exact S. }
  wstep; leaf. 2:{ eapply vm_state; eauto. }
  wstep; leaf. 2:{ destruct a as [j0 hs]. cbn in *. subst hs. eapply (@cc_pure _ unit); [|eassumption]. eapply ck_jws_verify; eauto. }
  wstep; [wstep; leaf|]. wstep; leaf; [|pure kinds_ok_or].
  match goal with |- context [utf8 ?x] => destruct (utf8 x) end; wstep; leaf.
Qed.
Lemma cprior t m jwt h : met t -> message_from_str (fparse C) t = Ok m -> msg_from_prior m = Some jwt ->
  wp A P h (from_prior_unpack C jwt) Q.
Proof.
  intros R M J. unfold from_prior_unpack. wstep; leaf; [|pure ck_compact]. cbv zeta. wstep; [wstep; leaf|].
  destruct (did_or_url (ch_kid (pc_parsed a))) as [did url] eqn:Ed. wstep; [wstep; leaf|].
  assert (NS : names_key C text doc_authentication (ch_kid (pc_parsed a)) /\ signed_with C text (ch_kid (pc_parsed a)) (ch_alg (pc_parsed a))).
  { apply parse_compact_Ok in E as (Ej & N1 & N2 & N3 & hb & Hb & Hh). split.
    - eapply nk_prior; eauto. subst jwt. exists (pc_header a), (pc_payload a), (pc_signature a), hb, (pc_parsed a). auto 9.
    - eapply sw_token; eauto. }
  destruct NS as [N S].
  wstep; leaf. wstep; leaf. 2:{ destruct a0; [discriminate|]. injection E2 as <-. right. exact I. }
  apply ok_or_Ok in E2. subst a0. wstep; leaf.
  2:{ apply unlisted_use in E2 as [-> X]. right. exact I. }
  assert (a0 = ch_kid (pc_parsed a)) by (apply ok_or_Ok in E2; apply find_first_some in E2 as [_ X]; now apply beq_eq in X). subst a0.
  wstep; leaf. 2:{ apply (unlisted_vm doc_authentication) in E3 as [-> X]. right. exact I. }
  apply ok_or_Ok in E3. apply find_first_some in E3 as [Iv Ev0]. apply beq_eq in Ev0.
  wstep; leaf. 2:{ pure ck_verify_alg. intros n Hn. apply cc_by. eapply by_alg. rewrite <- Hn. exact S. }
  wstep; leaf. 2:{ eapply vm_state; eauto. }
  wstep; leaf; [|eapply (@cc_pure _ unit); [|eassumption]; eapply ck_compact_verify; eauto]. wstep; [wstep; leaf|]. wstep; leaf; [|pure kinds_ok_or].
  wstep; [wstep; leaf|]. wstep; leaf; [|pure kinds_kind]. wstep; leaf.
Qed.
Lemma cplain t md h : met t -> wp A P h (try_plaintext C t md) Q.
Proof.
  intros R. unfold try_plaintext. wstep; leaf; [|pure ck_soft; apply ck_msg; auto; intros; apply cc_st; eapply st_text; eauto].
  destruct a as [m|]; [|wstep; leaf]. apply soft_Some in E. wstep; leaf; [|pure ck_validate].
  assert (m = a) by (unfold msg_validate in E0; destruct (beq _ _); [now injection E0|discriminate]). subst a.
  destruct (msg_from_prior m) as [jwt|] eqn:J; [|wstep; leaf]. wstep. eapply wp_mono; [|eapply cprior; eauto].
  intros h' [[p k]|k|] X; cbn [wpr wp]; auto.
Qed.
Lemma cunwrap t h : met t -> wp A P h (try_unwrap C t) Q.
Proof.
  intros R. unfold try_unwrap. wstep; leaf; [|pure ck_soft; apply ck_msg; auto; intros; apply cc_st; eapply st_text; eauto].
  destruct a as [m|]; [|wstep; leaf]. apply soft_Some in E.
  destruct (try_parse_forward m) as [f|]; [|wstep; leaf].
  wstep. eapply wp_mono with (Q := Q); [intros h' [b|k|] X; cbn [wpr]; auto; wstep; leaf|].
  unfold has_secret. destruct (did_or_url (pf_next f)) as [did [url|]] eqn:Ed.
  - wstep; leaf; [|discriminate]. wstep; leaf. wstep; leaf.
  - rewrite wp_pbind. eapply wp_mono with (Q := Q).
    + intros h' [ids|k|] X; cbn [wpr]; auto. wstep; leaf. wstep; leaf.
    + wstep; leaf. wstep; leaf. 2:{ destruct a; [discriminate|]. injection E0 as <-. right. exact I. } apply ok_or_Ok in E0. subst a. wstep. leaf.
Qed.
Lemma crest t o md h : met t -> wp A P h (unpack_rest C t o md) Q.
Proof.
  intros R. unfold unpack_rest. wstep. eapply wp_mono; [|eapply wp_both with (Q2 := fun _ r => met_res C text r); [now apply cauth|]].
  2:{ intros tr [[[pt md']|]|k|] E; try exact I. apply try_authcrypt_Some in E as (j & from & O & _). eapply auth_met; eauto. }
  intros h1 [a|k|] [X1 Ma]; cbn [wpr]; auto.
  assert (M2 : met (fst (match a with Some (m, d) => (m, d) | None => (t, md) end))) by (destruct a as [[]|]; auto).
  destruct (match a with Some _ => _ | None => _ end) as [t2 md2]. cbn [fst] in M2.
  wstep. eapply wp_mono; [|eapply wp_both with (Q2 := fun _ r => met_res C text r); [now apply csign|]].
  2:{ intros tr [[[pt md']|]|k|] E; try exact I. apply try_sign_Some in E as (kid & sa & O & _). eapply sign_met; eauto. }
  intros h2 [s|k|] [X2 Ms]; cbn [wpr]; auto.
  assert (M3 : met (fst (match s with Some (m, d) => (m, d) | None => (t2, md2) end))) by (destruct s as [[]|]; auto).
  destruct (match s with Some _ => _ | None => _ end) as [t3 md3]. cbn [fst] in M3. wstep. eapply wp_mono; [|now apply cplain].
  intros h3 [p|k|] X; cbn [wpr]; auto. wstep. destruct p; cbn [ok_or]; leaf.
Qed.
Definition ocauses {X} (h : list event) (x : option (res X)) : Prop := match x with Some y => Q h y | None => True end.
Lemma call fuel : forall t o md h, met t -> wp A P h (unpack_loop C fuel t o md) ocauses.
Proof.
  induction fuel as [|f IH]; intros t o md h R; cbn [unpack_loop]; [exact I|].
  assert (G : forall t' md' h', met t' -> wp A P h' (bind (unpack_rest C t' o md') (fun x => Ret (Some x))) ocauses).
  { intros t' md' h' R'. rewrite wp_bind. eapply wp_mono; [|now apply crest]. intros h2 x X. exact X. }
  rewrite wp_bind. eapply wp_mono; [|eapply wp_both with (Q2 := fun _ r => met_res C text r); [now apply canon|]].
  2:{ intros tr x E. destruct x as [[[pt md']|]|k|]; try exact I. apply try_anoncrypt_Some in E as (j & alg & O & _). eapply anon_met; eauto. }
  intros h' [[[pt md']|]|k|] [X M]; try exact X; [|now apply G]. cbn [met_res] in M. destruct (uo_unwrap o); [|now apply G].
  rewrite wp_bind. eapply wp_mono; [|eapply wp_both with (Q2 := fun _ r => match r with Ok (Some t') => met t' | _ => True end); [now apply cunwrap|]].
  - intros h2 [[t'|]|k|] [X2 Q2]; try exact X2; [now apply IH|now apply G].
  - intros tr x E. destruct x as [[t'|]|k|]; auto.
    apply try_unwrap_Ok in E as (next & v & kid & found & F & _ & ->). eapply met_forward; eauto.
Qed.
End Unpack.
Lemma unpack_causes C fuel text o tr k : exec (unpack C fuel text o) tr (Some (Err k)) -> unpack_cause C text tr k.
Proof.
  intros E. unfold unpack in E. apply (wp_exec (fun _ => True) (fun _ _ => True) []) with (Q := ocauses C text) in E; [now destruct E| |].
  - apply call. constructor.
  - now apply Forall_forall.
Qed.
