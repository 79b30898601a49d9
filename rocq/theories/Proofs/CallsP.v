(** Proofs about the remaining calls (C86).  The arguments follow AskedP and BlameP. *)
From Verif.Model Require Import Prelude Utf8 Base64 Json Serde DidDoc Crypto Keys Effects Jws Jwe Message FromPrior Pack Routing Unpack.
From Verif.Spec Require Import Small Events Packing Conc Asked Blame Calls.
From Verif.Proofs Require Import Lib SmallP Wp UnpackInv UnpackP SealP PackP RouteP AskedP BlameP.

(** ** Whom they ask *)
Section Asks.
Context (C : crypto) (A : event -> Prop) (dids : bytes -> Prop) (seeks : list event -> list bytes -> Prop) (draws : Prop).
Definition call (h : list event) (c : op) : Prop :=
  match c with
  | OResolve did => dids did
  | OFindSecrets ids => seeks h ids
  | OGetSecret id => exists ids found, seeks h ids /\ reported h ids found /\ In id found
  | ORandom _ => draws
  end.
Notation P := call.
Lemma asks_of {X} (m : prog X) tr x : exec m tr x -> wp (fun _ => True) P [] m T -> asks_only dids seeks draws tr.
Proof.
  intros E W. apply (wp_exec (fun _ => True) P []) with (Q := T) in E; auto.
  - intros t1 c r t2 H. destruct E as [_ E]. exact (E t1 c r t2 H).
  - now apply Forall_forall.
Qed.
Lemma token_asks jwt h : (forall did, token_names jwt did -> dids did) -> wp A P h (from_prior_unpack C jwt) T.
Proof.
  intros J. unfold from_prior_unpack. wstep; try exact I. wstep; try exact I. destruct (did_or_url (ch_kid (pc_parsed a))) as [did url] eqn:Ed.
  wstep; try exact I. wstep; try exact I.
  - apply J. apply parse_compact_Ok in E as (-> & N1 & N2 & N3 & hb & Hb & Hh).
    exists (pc_header a), (pc_payload a), (pc_signature a), hb, (pc_parsed a). do 6 (split; auto). eapply url_here; eauto. now destruct url.
  - do 6 (wstep; try exact I). wstep; try exact I. wstep; try exact I. wstep; try exact I. wstep; try exact I.
Qed.
Lemma plaintext_calls m h : (forall did, prior_dids m did -> dids did) -> wp A P h (pack_plaintext C m) T.
Proof.
  intros D. unfold pack_plaintext. wstep. destruct (msg_from_prior m) as [jwt|] eqn:J.
  - wstep. eapply wp_mono; [|apply token_asks; intros did N; apply D; exists jwt; auto]. intros h' [p|k|] _; cbn [wpr wp]; try exact I. wstep; try exact I.
  - cbn [wp wpr]. wstep; try exact I.
Qed.
Lemma signed_calls m s h : (forall did, did_part s did \/ prior_dids m did -> dids did) -> (forall h' ids, signing_keys s h' ids -> seeks h' ids) -> wp A P h (pack_signed C m s) T.
Proof.
  intros D S. unfold pack_signed. wstep; try exact I. destruct (did_or_url s) as [did key_id] eqn:Ed. pose proof (did_part_spec _ _ _ Ed) as DP.
  wstep; try exact I; [apply D; auto|]. wstep; try exact I. apply ok_or_Ok in E0. subst a. wstep; try exact I.
  match goal with |- wp _ _ ?h _ _ => set (h1 := h) end.
  assert (W : auth_wanted s a0 a).
  { destruct key_id as [kid'|].
    - right. apply did_or_url_some in Ed as DU'. destruct DU' as [-> _]. apply url_of_some in Ed.
      apply rbind_Ok in E0 as (x & E1 & E1'). apply Ok_inj in E1'. subst a. apply ok_or_Ok in E1. apply find_first_some in E1 as [I E1]. apply beq_eq in E1. subst x.
      split; [eapply url_has_hash; eauto|]. auto.
    - left. apply Ok_inj in E0. split; auto. destruct DP as [U|[N _]]; auto. apply url_of_some in U. congruence. }
  assert (K : forall t, seeks (h1 ++ t) a).
  { intros t. apply S. exists did, a0. split; auto. split; auto. apply in_app_l. apply in_app_r. now left. }
  wstep; try exact I; [pose proof (K []) as K0; now rewrite app_nil_r in K0|]. wstep; try exact I.
  wstep; try exact I.
  - exists a, a1. split; [apply K|]. split; [apply in_app_r; now left|]. apply ok_or_Ok in E1. destruct a1; [discriminate|]. injection E1 as ->. now left.
  - wstep; try exact I. wstep; try exact I. match goal with |- context [let (_, _) := ?x in _] => destruct x as [ka k] end. wstep. eapply wp_mono; [|apply plaintext_calls; auto].
    intros h' [pl|k'|] _; cbn [wpr]; try exact I. wstep; try exact I. wstep; try exact I.
Qed.
Lemma encrypt_calls ce d ka pt alg enc sender rs h : draws -> wp A P h (jwe_encrypt C ce d ka pt alg enc sender rs) T.
Proof.
  intros D. unfold jwe_encrypt. cbv zeta. rewrite wp_pbind. unfold random. cbn [wp]. split; [exact D|]. intros r _. cbn [wpr]. wstep; try exact I.
  rewrite wp_pbind. cbn [wp]. split; [exact D|]. intros r' _. cbn [wpr]. wstep; try exact I. wstep; try exact I.
  rewrite wp_pbind. cbn [wp]. split; [exact D|]. intros r'' _. cbn [wpr]. wstep; try exact I.
  match goal with |- context [let (_, _) := ?x in _] => destruct x as [ct tag] end. wstep; try exact I.
Qed.
Lemma anon_encrypt_calls ka alg msg rs h : draws -> wp A P h (anon_encrypt C ka alg msg rs) T.
Proof. intros D. unfold anon_encrypt. destruct alg; now apply encrypt_calls. Qed.
Lemma anoncrypt_calls to' msg alg h : draws -> (forall did, did_part to' did -> dids did) -> wp A P h (anoncrypt C to' msg alg) T.
Proof.
  intros D H. unfold anoncrypt. destruct (did_or_url to') as [did kid] eqn:Ed. wstep; try exact I; [apply H; eapply did_part_spec; eauto|].
  wstep; try exact I. wstep; try exact I. wstep; try exact I. wstep; try exact I. wstep. destruct a2; try exact I;
    (wstep; try exact I; eapply wp_mono; [|now apply anon_encrypt_calls]; intros h' [x|k|] _; cbn [wpr wp]; exact I).
Qed.
Lemma wrap_calls headers alg hops : forall msg h, draws -> (forall k did, In k (map fst hops) -> did_part k did -> dids did) ->
  wp A P h (wrap_loop C msg headers hops alg) T.
Proof.
  induction hops as [|[k next] hops IH]; intros msg h D H; cbn [wrap_loop]; [exact I|]. wstep.
  eapply wp_mono with (Q := T).
  2:{ unfold build_forward. wstep; try exact I. wstep. unfold random. cbn [wp]. split; [exact D|]. intros r _. cbn [wpr]. exact I. }
  intros h' [x|?|] _; cbn [wpr]; try exact I. wstep. eapply wp_mono with (Q := T).
  2:{ apply anoncrypt_calls; auto. intros did. apply H. now left. }
  intros h2 [[y ks]|?|] _; cbn [wpr]; try exact I. apply IH; auto. intros k' did I'. apply H. now right.
Qed.
Lemma wrap_in_forward_calls msg headers to keys alg h : draws -> (forall k did, In k keys -> did_part k did -> dids did) ->
  wp A P h (wrap_in_forward C msg headers to keys alg) T.
Proof.
  intros D H. unfold wrap_in_forward. destruct keys as [|k0 keys]; [exact I|]. cbv zeta. apply wrap_calls; auto. intros k did I0 Dp. apply (H k); auto.
  apply in_map_iff in I0 as ([k' n] & <- & I0). apply in_combine_l in I0. now apply in_rev in I0.
Qed.
Lemma issue_calls p ik h : dids (fp_iss p) -> (forall h' ids, issuer_keys p ik h' ids -> seeks h' ids) -> wp A P h (from_prior_pack C p ik) T.
Proof.
  intros D S. unfold from_prior_pack. wstep; try exact I. cbv zeta. wstep; try exact I; [exact D|]. wstep; try exact I. apply ok_or_Ok in E0. subst a0. wstep; try exact I.
  match goal with |- wp _ _ ?h _ _ => set (h1 := h) end.
  match goal with E : _ = Ok ?l |- _ => lazymatch type of l with list bytes => rename E into K; rename l into ids end end.
  assert (W : forall t, seeks (h1 ++ t) ids).
  { intros t. apply S. eexists. split; [apply in_app_l, in_app_r; now left|]. destruct ik as [ik|].
    - destruct (did_or_url ik) as [did u] eqn:Ed. destruct u as [kid|]; [|discriminate]. cbn [ok_or rbind] in K. destruct (beq_spec did (fp_iss p)) as [->|]; [|discriminate]. cbn [negb] in K.
      apply did_or_url_some in Ed as DU'. destruct DU' as [-> _]. apply url_of_some in Ed. apply rbind_Ok in K as (x & E1 & E1'). apply Ok_inj in E1'. subst ids.
      apply ok_or_Ok in E1. apply find_first_some in E1 as [I E1]. apply beq_eq in E1. subst x. auto.
    - apply Ok_inj in K. auto. }
  wstep; try exact I; [pose proof (W []) as K0; now rewrite app_nil_r in K0|]. wstep; try exact I.
  wstep; try exact I.
  - exists ids. eexists. split; [apply W|]. split; [apply in_app_r; now left|].
    match goal with E : ok_or SecretNotFound (hd_error ?l) = Ok _ |- _ => apply ok_or_Ok in E; destruct l; [discriminate|]; injection E as -> end. now left.
  - wstep; try exact I. wstep; try exact I. match goal with |- context [let (_, _) := ?x in _] => destruct x as [ka k] end.
    wstep; try exact I. wstep; try exact I.
Qed.
End Asks.

#[local] Hint Resolve last_last in_last : core.
(** ** What their errors say *)
Lemma kinds_sign_compact (K : errkind -> Prop) C pl kid ka k typ alg : (forall k, plain k -> K k) -> kinds K (jws_sign_compact C pl kid ka k typ alg).
Proof.
  intros KP. unfold jws_sign_compact. apply kinds_bind; [now apply kinds_sig_type|]. intros st _. cbv zeta.
  apply kinds_bind; [apply kinds_ok_or, KP; unfold plain; tauto|intros; apply kinds_Ok].
Qed.

Section Reports.
Context (C : crypto) (A : event -> Prop) (names : (diddoc -> list bytes) -> bytes -> Prop) (refuses : list event -> Prop).
Notation P := (fun (_ : list event) (_ : op) => True).
Notation blame := (call_blames names refuses).
Notation calm := (calm ends_pack).
Notation Q := (report blame ends_pack).
Lemma errors_of {X} (m : prog (res X)) tr x : exec m tr x -> wp (fun _ => True) P [] m Q -> errors_true names refuses tr x.
Proof.
  intros E W. apply (wp_exec (fun _ => True) P []) with (Q := Q) in E; auto; [|now apply Forall_forall]. destruct E as [E _]. cbn [app] in E.
  destruct x as [a|k|]; cbn [report] in E.
  - split; [discriminate|]. intros e k I V. destruct (E e k I V).
  - destruct E as [B V]. split; [intros k' K; injection K as <-; exact B|]. intros e k' I V'. f_equal. symmetry. eauto.
  - split; [discriminate|]. intros e k I V. destruct (E e k I V).
Qed.
Lemma pb_plain h k : plain k -> blame h k.
Proof. intros [->|[->| ->]]; right; exact I. Qed.
Lemma pb_raised h e k : failed e k -> blame (h ++ [e]) k.
Proof. intros F. left. exists e. split; [apply last_last|auto]. Qed.
Lemma calm_step h e : calm h -> bad_answer e = None -> calm (h ++ [e]).
Proof. intros H B. apply calm_snoc; auto. intros k V. apply ends_bad in V. congruence. Qed.
Lemma pk_bad {X} h e k : calm h -> bad_answer e = Some k -> Q (h ++ [e]) (@Err X k).
Proof.
  intros H B. apply report_last; auto. 2:{ intros k' V. apply ends_bad in V. congruence. }
  destruct e as [[did|ids|id|u] r]; cbn in B; try discriminate; repeat match goal with H : context [match ?x with _ => _ end] |- _ => destruct x end; try discriminate; injection B as <-.
  - right. cbn. eauto.
  - now apply pb_raised.
  - right. cbn. eauto.
  - now apply pb_raised.
  - now apply pb_raised.
Qed.
Hint Extern 2 (calm (_ ++ [_])) => apply calm_step; [|reflexivity] : core.
Hint Extern 1 (plain _) => unfold plain; tauto : core.
Ltac leaf := cbv beta; lazymatch goal with
  | |- report _ _ _ (Ok _) => cbn [report]; auto 8
  | |- report _ _ _ Panic => try (exfalso; match goal with E : ok_or _ ?x = Panic |- _ => destruct x; discriminate E end); cbn [report]; auto 8
  | |- report _ _ (?h ++ [?e]) (Err ?k) =>
      first [apply pk_bad; [solve [auto 8]|reflexivity]
            |apply report_Err; [solve [auto 8]|apply pb_plain; solve [auto]]
            |idtac]
  | |- report _ _ _ (Err ?k) => try (apply report_Err; [solve [auto 8]|apply pb_plain; solve [auto]])
  | |- True => exact I
  | |- _ => idtac
  end.
Ltac pure lem := match goal with E : ?r = Err ?k |- _ => eapply report_kinds; [solve [auto 8]| |exact E]; apply lem; auto using pb_plain end.


Lemma pvm_blame h did doc vm : resolved h did doc -> In vm (doc_verification_method doc) ->
  forall s, vm_material vm = MMultibase s -> blame h IllegalArgument.
Proof. intros R I s M. right. cbn. right. left. exists did, doc, vm, s. auto. Qed.
Lemma psec_blame h id sec : In (Ev (OGetSecret id) (Ok (Some sec))) h -> forall s, sec_material sec = MMultibase s -> blame h IllegalArgument.
Proof. intros I s M. right. cbn. right. right. eauto. Qed.
Lemma purl_blame h use arg did doc : names use arg -> did_part arg did -> resolved h did doc -> lacks use doc arg -> blame h DIDUrlNotFound.
Proof. intros N D R L. right. cbn. exists use, arg, did, doc. auto. Qed.
Lemma token_reports jwt h : (forall kid, token_key jwt kid -> names doc_authentication kid) -> calm h -> wp A P h (from_prior_unpack C jwt) Q.
Proof.
  intros J H. unfold from_prior_unpack. wstep; leaf; [|pure kinds_compact]. cbv zeta. wstep; [wstep; leaf|].
  destruct (did_or_url (ch_kid (pc_parsed a))) as [did url] eqn:Ed. wstep; [wstep; leaf|].
  assert (U : url_of did (ch_kid (pc_parsed a))) by (eapply url_here; eauto; now destruct url).
  assert (N : names doc_authentication (ch_kid (pc_parsed a))).
  { apply J. apply parse_compact_Ok in E as (-> & N1 & N2 & N3 & hb & Hb & Hh).
    exists (pc_header a), (pc_payload a), (pc_signature a), hb, (pc_parsed a). auto 9. }
  wstep; leaf. wstep; leaf. 2:{ destruct a0; [discriminate|]. injection E2 as <-. leaf. }
  apply ok_or_Ok in E2. subst a0. wstep; leaf.
  2:{ apply unlisted_use in E2 as [-> X]. apply report_Err; auto. eapply purl_blame; eauto; [left; eauto|apply in_last|eapply url_lacks; eauto]. }
  assert (a0 = ch_kid (pc_parsed a)) by (apply ok_or_Ok in E2; apply find_first_some in E2 as [_ X]; now apply beq_eq in X). subst a0.
  wstep; leaf. 2:{ apply (unlisted_vm doc_authentication) in E3 as [-> X]. apply report_Err; auto. eapply purl_blame; eauto; [left; eauto|apply in_last|eapply url_lacks; eauto]. }
  apply ok_or_Ok in E3. apply find_first_some in E3 as [Iv _]. wstep; leaf; [|pure kinds_verify_alg].
  wstep; leaf; [|pure kinds_as; apply kinds_vm; [apply pb_plain|]; eapply pvm_blame; eauto; apply in_last].
  wstep; leaf; [|pure kinds_compact_verify]. wstep; [wstep; leaf|]. wstep; leaf; [|pure kinds_ok_or].
  wstep; [wstep; leaf|]. wstep; leaf; [|pure kinds_kind]. wstep; leaf.
Qed.
Lemma plaintext_reports m h : (forall use kid, prior_keys m use kid -> names use kid) -> (forall t tr, foreign_rotation C m tr -> refuses (t ++ tr)) -> calm h -> wp A P h (pack_plaintext C m) Q.
Proof.
  intros NK RF H. unfold pack_plaintext. wstep. destruct (msg_from_prior m) as [jwt|] eqn:J.
  - wstep. eapply wp_mono; [|apply wp_conj; [apply (token_reports jwt); eauto using pk_token|eapply wp_post; [apply (token_reports jwt); eauto using pk_token|]]].
    2:{ intros tr x E _. instantiate (1 := fun h' x => exists tr, h' = h ++ tr /\ exec (from_prior_unpack C jwt) tr x). cbn. eauto. }
    intros h' [[p kid]|k|] [X (tr & -> & E)]; cbn [wpr wp]; auto. cbn [report] in X.
    apply from_prior_unpack_Ok in E as R.
    wstep; leaf; [wstep; leaf|].
    match goal with E : validate_pack_plaintext _ _ = Err ?k |- _ => rename E into V; eapply report_kinds; [solve [auto 8]| |exact V] end.
    assert (F : ~ url_of (fp_iss p) kid -> blame (h ++ tr) IllegalArgument).
    { intros NU. right. cbn. left. apply RF. exists jwt, p, kid. auto. }
    unfold validate_pack_plaintext. cbn [validate_pack]. apply kinds_bind.
    + unfold validate_pack. destruct (negb (is_did (fp_iss p)) || _); [apply kinds_Err, pb_plain; auto|].
      destruct (negb (is_did (fp_sub p)) || _); [apply kinds_Err, pb_plain; auto|].
      destruct (beq _ _); [apply kinds_Err, pb_plain; auto|]. destruct (did_or_url kid) as [did u] eqn:DU.
      assert (G : ~ url_of (fp_iss p) kid \/ (is_some u = true /\ beq did (fp_iss p) = true)).
      { destruct u as [u|]; cbn; [|left; intros U; apply url_of_some in U; congruence]. destruct (beq_spec did (fp_iss p)); auto.
        left. intros U. apply url_of_some in U. congruence. }
      destruct G as [G|[-> ->]]; [|apply kinds_Ok]. destruct (negb (is_some u)); [apply kinds_Err; auto|]. destruct (negb _); [apply kinds_Err; auto|apply kinds_Ok].
    + intros _ _. destruct (msg_from m); [|apply kinds_Ok]. destruct (negb _); [apply kinds_Err, pb_plain; auto|apply kinds_Ok].
  - cbn [wp wpr]. wstep; leaf; [wstep; leaf|]. cbn in E. discriminate.
Qed.
Lemma signed_reports m s h : names doc_authentication s -> (forall use kid, prior_keys m use kid -> names use kid) ->
  (forall t tr, foreign_rotation C m tr -> refuses (t ++ tr)) -> (is_did s = false -> refuses h) -> calm h -> wp A P h (pack_signed C m s) Q.
Proof.
  intros S NK RF RD H. unfold pack_signed. destruct (is_did s) eqn:D; cbn [negb]; [|apply report_Err; auto; right; cbn; auto]. destruct (did_or_url s) as [did key_id] eqn:Ed. pose proof (did_part_spec _ _ _ Ed) as DP.
  wstep; leaf. wstep; leaf. 2:{ destruct a; [discriminate|]. injection E as <-. leaf. } apply ok_or_Ok in E. subst a.
  wstep; leaf.
  2:{ destruct key_id as [kid'|]; [|discriminate]. apply did_or_url_some in Ed as DU'. destruct DU' as [-> _]. apply url_of_some in Ed.
      destruct (ok_or _ _) eqn:F in E; cbn in E; try discriminate. injection E as <-. apply unlisted_use in F as [-> X]. apply report_Err; auto.
      eapply purl_blame; [exact S|exact DP|apply in_last|eapply url_lacks; eauto]. }
  match goal with |- wp _ _ ?h _ _ => set (h1 := h) end. assert (C1 : calm h1) by (unfold h1; auto).
  wstep; leaf. destruct a1 as [|k0 found].
  { wstep; cbn in E0; [discriminate|injection E0 as <-; leaf|discriminate]. }
  wstep; leaf; [|discriminate]. wstep; leaf. wstep; leaf.
  2:{ destruct a2; [discriminate|]. injection E1 as <-. apply report_Err; auto. right. cbn. right. eauto. }
  apply ok_or_Ok in E1. subst a2. wstep; leaf; [|pure kinds_sec; eapply psec_blame; apply in_last].
  match goal with |- context [let (_, _) := ?x in _] => destruct x as [ka k] end. wstep. eapply wp_mono; [|apply plaintext_reports; auto].
  intros h' [pl|k'|] X; cbn [wpr]; auto. cbn [report] in X. wstep; leaf; [|pure kinds_sign_alg]. wstep; leaf; [|pure kinds_jws_sign]. wstep; leaf.
Qed.
Lemma pencrypt_reports ce d ka pt alg enc sender rs h : calm h ->
  wp A P h (jwe_encrypt C ce d ka pt alg enc sender rs) (fun h' x => Q h' x /\ incl h h').
Proof.
  intros H. eapply wp_mono; [|apply wp_hist with (Q := Q)]. { intros h' x [X (t & ->)]. split; auto. apply incl_snoc. }
  unfold jwe_encrypt. cbv zeta. rewrite wp_pbind. unfold random. cbn [wp]. split; [exact I|]. intros r _. cbn [wpr]. wstep; leaf; [|pure kinds_ok_or].
  rewrite wp_pbind. cbn [wp]. split; [exact I|]. intros r' _. cbn [wpr]. wstep; leaf; [|pure kinds_ok_or]. wstep; leaf; [|pure kinds_ok_or].
  rewrite wp_pbind. cbn [wp]. split; [exact I|]. intros r'' _. cbn [wpr]. wstep; leaf; [|pure kinds_ok_or].
  match goal with |- context [let (_, _) := ?x in _] => destruct x as [ct tag] end.
  wstep; leaf; [|pure kinds_rmap; intros; apply kinds_wrap_one, pb_plain]. wstep; leaf.
Qed.
Lemma panon_encrypt_reports ka alg msg rs h : calm h -> wp A P h (anon_encrypt C ka alg msg rs) (fun h' x => Q h' x /\ incl h h').
Proof. unfold anon_encrypt. destruct alg; apply pencrypt_reports. Qed.
Lemma kinds_recipients_of h ka did doc e kids keys : resolved h did doc -> rmap (find_vm e doc) kids = Ok keys ->
  forall f, kinds (blame h) (rmap (vm_recipient C ka) (filter f keys)).
Proof.
  intros R E f. apply kinds_rmap. intros vm I. apply filter_In in I as [I _]. apply entries in E. unfold vm_recipient. apply kinds_bind; [|intros; apply kinds_Ok].
  unfold vm_as. apply kinds_as; [apply pb_plain|]. apply kinds_vm; [apply pb_plain|]. eapply pvm_blame; eauto.
  clear -E I. induction E as [|x y l l' [_ Fx] F IH]; [destruct I|]. destruct I as [<-|I]; auto. destruct Fx as (l1 & l2 & -> & _). apply in_or_app. right. now left.
Qed.
Ltac precip := match goal with E : rmap (vm_recipient _ _) _ = Err _ |- _ => eapply report_kinds; [solve [auto 8]| |exact E]; eapply kinds_recipients_of end.
Lemma kinds_find_vm h e doc kids : plain e -> kinds (blame h) (rmap (find_vm e doc) kids).
Proof. intros Pe. apply kinds_rmap. intros k _. unfold find_vm. apply kinds_ok_or. now apply pb_plain. Qed.
Lemma panon_reports to' msg alg h : names doc_key_agreement to' -> calm h ->
  wp A P h (anoncrypt C to' msg alg) Q.
Proof.
  intros N H. unfold anoncrypt. destruct (did_or_url to') as [did kid] eqn:Ed. pose proof (did_part_spec _ _ _ Ed) as DP.
  wstep; leaf. wstep; leaf. 2:{ destruct a; [discriminate|]. injection E as <-. leaf. } apply ok_or_Ok in E. subst a.
  cbv zeta. destruct (select_kids kid (doc_key_agreement a0)) as [|k0 ks] eqn:S.
  { wstep. apply report_Err; auto. eapply purl_blame; [exact N|exact DP|apply in_last|eapply select_lacks; eauto]. }
  rewrite <- S. wstep; leaf; [|pure kinds_find_vm]. wstep; leaf; [|pure kinds_ok_or]. wstep.
  match goal with |- context [match ?k with KX25519 => _ | _ => _ end] => destruct k end; try (cbn [wp wpr]; leaf; fail);
    (wstep; leaf; [|precip; [apply in_last|eassumption]]; eapply wp_mono; [|apply panon_encrypt_reports; auto]; intros h' [x|k|] [X _]; cbn [wpr wp]; auto).
Qed.
Lemma hops_reports headers alg hops : forall msg h, (forall k, In k (map fst hops) -> names doc_key_agreement k) -> calm h ->
  wp A P h (wrap_loop C msg headers hops alg) Q.
Proof.
  induction hops as [|[k next] hops IH]; intros msg h N H; cbn [wrap_loop]; [wstep; leaf|]. wstep.
  eapply wp_mono with (Q := Q).
  2:{ unfold build_forward. wstep; leaf; [|pure kinds_kind]. wstep. unfold random. cbn [wp]. split; [exact I|]. intros r _. cbn [wpr wp]. leaf. }
  intros h' [x|?|] X; cbn [wpr]; auto. cbn [report] in X. wstep. eapply wp_mono; [|apply panon_reports; auto].
  2:{ apply N. now left. }
  intros h2 [[y ks]|?|] Y; cbn [wpr]; auto. apply IH; auto. intros k' I'. apply N. now right.
Qed.
Lemma wrap_reports msg headers to keys alg h : (forall k, In k keys -> names doc_key_agreement k) -> calm h -> wp A P h (wrap_in_forward C msg headers to keys alg) Q.
Proof.
  intros N H. unfold wrap_in_forward. destruct keys as [|k0 keys]; [wstep; leaf|]. cbv zeta. apply hops_reports; auto. intros k I0. apply N.
  apply in_map_iff in I0 as ([k' n] & <- & I0). apply in_combine_l in I0. now apply in_rev in I0.
Qed.
Lemma issue_reports p ik h : (forall k, ik = Some k -> names doc_authentication k) -> (foreign_kid p ik -> refuses h) -> calm h -> wp A P h (from_prior_pack C p ik) Q.
Proof.
  intros N F H. unfold from_prior_pack. wstep; leaf.
  2:{ eapply report_kinds; [exact H| |exact E]. unfold validate_pack. destruct (negb (is_did (fp_iss p)) || _); [apply kinds_Err, pb_plain; auto|].
      destruct (negb (is_did (fp_sub p)) || _); [apply kinds_Err, pb_plain; auto|].
      destruct (beq _ _); [apply kinds_Err, pb_plain; auto|]. destruct ik as [ik|]; [|apply kinds_Ok]. destruct (did_or_url ik) as [did u] eqn:DU.
      assert (G : ~ url_of (fp_iss p) ik \/ (is_some u = true /\ beq did (fp_iss p) = true)).
      { destruct u as [u|]; cbn; [|left; intros U; apply url_of_some in U; congruence]. destruct (beq_spec did (fp_iss p)); auto.
        left. intros U. apply url_of_some in U. congruence. }
      destruct G as [G|[-> ->]]; [|apply kinds_Ok].
      assert (B : blame h IllegalArgument) by (right; cbn; left; apply F; exists ik; auto).
      destruct (negb (is_some u)); [apply kinds_Err; auto|]. destruct (negb _); [apply kinds_Err; auto|apply kinds_Ok]. }
  cbv zeta. wstep; leaf. wstep; leaf. 2:{ destruct a0; [discriminate|]. injection E0 as <-. leaf. } apply ok_or_Ok in E0. subst a0.
  wstep; leaf.
  2:{ destruct ik as [ik|]; [|discriminate]. destruct (did_or_url ik) as [did u] eqn:Ed. unfold validate_pack in E. rewrite Ed in E.
      destruct u as [kid|]; cbn [is_some negb ok_or rbind] in E, E0.
      2:{ exfalso. repeat match type of E with context [if ?b then _ else _] => destruct b end; discriminate. }
      destruct (beq_spec did (fp_iss p)) as [->|].
      2:{ exfalso. cbn [negb] in E. repeat match type of E with context [if ?b then _ else _] => destruct b end; discriminate. }
      cbn [negb] in E0. apply did_or_url_some in Ed as DU'. destruct DU' as [-> _]. apply url_of_some in Ed.
      destruct (ok_or _ _) eqn:G in E0; cbn in E0; try discriminate. injection E0 as <-. apply unlisted_use in G as [-> X]. apply report_Err; auto.
      eapply purl_blame; [apply N; reflexivity|left; exact Ed|apply in_last|eapply url_lacks; eauto]. }
  match goal with |- wp _ _ ?h _ _ => set (h1 := h) end. assert (C1 : calm h1) by (unfold h1; auto).
  wstep; leaf. match goal with |- context [hd_error ?l] => destruct l as [|k0 found] end.
  { wstep; cbn in E1; [discriminate|injection E1 as <-; leaf|discriminate]. }
  wstep; leaf; [|discriminate]. wstep; leaf. wstep; leaf.
  2:{ match goal with E : ok_or _ ?o = Err _ |- _ => destruct o; [discriminate|]; injection E as <- end. apply report_Err; auto. right. cbn. right. eauto. }
  match goal with E : ok_or _ ?o = Ok _ |- _ => apply ok_or_Ok in E; subst o end. wstep; leaf; [|pure kinds_sec; eapply psec_blame; apply in_last].
  match goal with |- context [let (_, _) := ?x in _] => destruct x as [ka k] end. wstep; leaf; [|pure kinds_sign_alg]. wstep; leaf; [|pure kinds_sign_compact]. wstep; leaf.
Qed.
End Reports.
Lemma foreign_more C m t tr : foreign_rotation C m tr -> foreign_rotation C m (t ++ tr).
Proof.
  intros (jwt & p & kid & J & R & U). exists jwt, p, kid. split; auto. split; auto.
  destruct R as (hd & pl & sg & hb & hh & did & doc & ka & kk & st & sa & s & pay & H1 & H2 & H3 & H4 & H5 & H6 & H7 & H8 & H9 & H10 & H11 & HR).
  exists hd, pl, sg, hb, hh, did, doc, ka, kk, st, sa, s, pay. do 10 (split; [assumption|]). split; [apply in_app_r; exact H11|exact HR].
Qed.
Lemma calm_nil : calm ends_pack []. Proof. intros e k []. Qed.
(** Answers that are not asked for do not matter. *)
Lemma only_same {X} (m : prog X) dids (draws : Prop) h1 h2 : (forall tr x, exec m tr x -> asks_only dids no_keys draws tr) ->
  (forall did, dids did -> h1 (OResolve did) = h2 (OResolve did)) -> (draws -> forall u, h1 (ORandom u) = h2 (ORandom u)) -> run h1 m = run h2 m.
Proof.
  intros H R D. apply run_same. intros c r I. apply in_split in I as (t1 & t2 & E). specialize (H _ _ (Lib.run_exec h1 m) _ _ _ _ E).
  destruct c as [did|ids|id|u]; [auto|destruct H|destruct H as (? & ? & [] & _)|auto].
Qed.
