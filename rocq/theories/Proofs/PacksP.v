(** Exactly when packing succeeds. *)
From Verif.Model Require Import Prelude Utf8 Base64 Json Serde DidDoc Crypto Keys Effects Jws Jwe Message FromPrior Pack Routing Unpack.
From Verif.Spec Require Import Small Codec Events World Packing Accept Works Packs Grammar.
From Verif.Proofs Require Import Lib Base64P JsonP SerdeP CodecP SmallP Wp Errs NoPanic UnpackInv SealP RoundP PackP RouteP ForwardP AcceptP ExactP WorksP GrammarP.

Lemma on_curve_fun doc a a' k : on_curve doc a k -> on_curve doc a' k -> a = a'.
Proof. intros (v & F & <-) (v' & F' & <-). now rewrite (first_with_fun _ _ _ _ F F'). Qed.
Lemma publishes_curve C rel doc k a p : publishes C rel doc k a p -> on_curve doc a k.
Proof. intros (_ & v & F & K). exists v. split; auto. apply (vm_key_pair_alg C _ _ _ K). Qed.
Lemma sign_alg_signing a alg : sign_alg_of a = Ok alg -> signing a.
Proof. unfold signing. destruct a; cbn; try discriminate; auto. Qed.
Lemma entries_described doc kids keys : Forall2 (entry_of doc) kids keys -> described doc kids.
Proof. intros F k I. destruct (F2_In_l _ _ _ _ F I) as (v & _ & _ & FW). exists (vm_key_alg v). exists v. auto. Qed.

(** The first found key of the sender with a common algorithm. *)
Lemma first_common fdoc doc found fkeys all keys : Forall2 (entry_of fdoc) found fkeys -> Forall2 (entry_of doc) all keys ->
  forall k, first_with (common fdoc doc all) found k <->
  exists vm, entry_of fdoc k vm /\ find_first (fun f => existsb (fun t => kalg_eqb (vm_key_alg t) (vm_key_alg f)) keys)
    (filter (fun f => supported (vm_key_alg f)) fkeys) = Some vm.
Proof.
  intros FF FT.
  assert (CO : forall k v, entry_of fdoc k v -> (common fdoc doc all k <-> supported (vm_key_alg v) = true /\ existsb (fun t => kalg_eqb (vm_key_alg t) (vm_key_alg v)) keys = true)).
  { intros k v [E H]. split.
    - intros (a & NU & O & k' & I & O'). apply (on_curve_entry _ _ _ _ H) in O. destruct (F2_In_l _ _ _ _ FT I) as (t & It & E' & H').
      apply (on_curve_entry _ _ _ _ H') in O'. split.
      + unfold supported. destruct (kalg_eqb (vm_key_alg v) KUnsupported) eqn:K; auto. apply kalg_eqb_eq in K. congruence.
      + apply existsb_exists. exists t. split; auto. apply kalg_eqb_eq. congruence.
    - intros [S X]. apply existsb_exists in X as (t & It & X). apply kalg_eqb_eq in X. destruct (Forall2_In_r _ _ _ _ FT It) as (k' & I' & E' & H').
      exists (vm_key_alg v). split; [intros K; unfold supported in S; rewrite K in S; discriminate|]. split; [now apply (on_curve_entry _ _ _ _ H)|].
      exists k'. split; auto. now apply (on_curve_entry _ _ _ _ H'). }
  induction FF as [|k0 v0 l l' E0 F IH]; intros k; cbn [filter find_first].
  - split; [intros (l1 & l2 & E & _); destruct l1; discriminate|intros (vm & _ & E); discriminate].
  - pose proof (CO _ _ E0) as C0.
    assert (SK : ~ common fdoc doc all k0 -> (first_with (common fdoc doc all) (k0 :: l) k <-> first_with (common fdoc doc all) l k)).
    { intros N. split.
      - intros (l1 & l2 & E & Q & NN). destruct l1 as [|z l1]; cbn in E; injection E as <- E; [contradiction|]. exists l1, l2. split; auto. split; auto. intros; apply NN; now right.
      - intros (l1 & l2 & -> & Q & NN). exists (k0 :: l1), l2. split; auto. split; auto. intros y [<-|I]; auto. }
    destruct (supported (vm_key_alg v0)) eqn:S; cbn [find_first].
    + destruct (existsb _ keys) eqn:X.
      * assert (CC : common fdoc doc all k0) by (apply C0; auto). split.
        -- intros (l1 & l2 & E & Q & NN). exists v0. split; [|reflexivity]. destruct l1 as [|z l1]; cbn in E; injection E as <- E; [exact E0|]. destruct (NN k0 (or_introl eq_refl) CC).
        -- intros (vm & EV & E). injection E as <-. assert (k0 = k) as <- by (destruct E0 as [<- _], EV as [<- _]; reflexivity). exists [], l. split; [reflexivity|]. split; [exact CC|intros y []].
      * rewrite SK; [apply IH|]. intros Y. apply C0 in Y as [_ Y]. discriminate.
    + rewrite SK; [apply IH|]. intros Y. apply C0 in Y as [Y _]. discriminate.
Qed.

Section Packs.
Context (C : crypto) (pair : kalg -> key C -> key C -> Prop) (LAW : lawful C pair) (WK : working C pair).
Context (dir : bytes -> option diddoc) (DIR : directory dir) (own : bytes -> option secret) (SM : secrets_match C pair dir own).
Context (find : list bytes -> list bytes) (FIND : finder own find).
Notation ans := (answers_by dir own find).
Notation go := (safe ans).

Lemma by_answer e : ans e -> answers dir own e.
Proof. destruct e as [[did|ids|i|u] r]; auto. cbn. intros ->. exists (find ids). split; auto. Qed.
Lemma by_answers tr : Forall ans tr -> Forall (answers dir own) tr.
Proof. apply Forall_impl, by_answer. Qed.
Lemma go_any {X} (m : prog X) Q : safe (answers dir own) m Q -> go m Q.
Proof. apply safe_weaken, by_answer. Qed.
Lemma go_resolve {Y} did (f : option diddoc -> prog (res Y)) Q : go (f (dir did)) Q -> go (pbind (resolve did) f) Q.
Proof. intros H r A. cbn in A. subst r. exact H. Qed.
Lemma go_get {Y} i (f : option secret -> prog (res Y)) Q : go (f (own i)) Q -> go (pbind (get_secret i) f) Q.
Proof. intros H r A. cbn in A. subst r. exact H. Qed.
Lemma go_find {Y} ids (f : list bytes -> prog (res Y)) Q : go (f (find ids)) Q -> go (pbind (find_secrets ids) f) Q.
Proof. intros H r A. cbn in A. subst r. exact H. Qed.

(** ** Conditions that are enough *)
Lemma signs_secret doc did asked k a rest : dir did = Some doc -> incl asked (doc_authentication doc) ->
  find asked = k :: rest -> on_curve doc a k ->
  exists sec p s, own k = Some sec /\ sec_key_pair C sec = Ok (a, s) /\ pair a p s.
Proof.
  intros D IN F OC. destruct (proj1 (FIND asked k)) as (I & sec & O); [rewrite F; now left|].
  destruct (SM did doc k sec doc_authentication (or_intror eq_refl) D (IN _ I) O) as (a' & p & s & PU & SK & PR).
  rewrite (on_curve_fun _ _ _ _ OC (publishes_curve _ _ _ _ _ _ PU)). eauto 6.
Qed.
Lemma signed_goes m by_ : rotation_ready C dir m -> signer_fits dir find by_ -> go (pack_signed C m by_) done.
Proof.
  intros RR (did & doc & asked & D & DP & DD & AW & k & rest & a & FK & OC & SG). unfold pack_signed. apply is_did_text in D. rewrite D. cbn [negb].
  destruct (did_part_inv _ _ DP) as (u & U). rewrite U.
  apply go_resolve. rewrite DD. apply (safe_ret _ _ doc); [reflexivity|].
  assert (K : match u with Some kid => let? _ := ok_or DIDUrlNotFound (find_first (fun a => beq a kid) (doc_authentication doc)) in Ok [kid] | None => Ok (doc_authentication doc) end = Ok asked).
  { destruct AW as [[N ->]|(I & IN & ->)].
    - destruct u as [u|]; auto. exfalso. apply did_or_url_some in U as X. destruct X as [-> _]. apply url_of_some in U. apply N. eapply url_has_hash; eauto.
    - destruct u as [u|].
      + apply did_or_url_some in U as [-> _]. destruct (find_first (fun a => beq a by_) (doc_authentication doc)) as [z|] eqn:F; [reflexivity|].
        exfalso. eapply find_first_none in F; eauto. cbn in F. rewrite beq_refl in F. discriminate.
      + destruct (did_part_spec _ _ _ U) as [X|[X _]]; [apply url_of_some in X; congruence|contradiction]. }
  apply (safe_ret _ _ asked); [exact K|]. apply go_find.
  destruct (signs_secret _ _ _ _ _ _ DD (asked_incl _ _ _ AW) FK OC) as (sec & p & s & OS & SK & PR). rewrite FK.
  apply (safe_ret _ _ k); [reflexivity|]. apply go_get. rewrite OS. apply (safe_ret _ _ sec); [reflexivity|].
  apply (safe_ret _ _ (a, s)); [exact SK|]. cbv beta iota. eapply safe_then; [apply go_any, plaintext_works, RR|]. cbv beta.
  destruct (sign_works C pair WK (message_text m) k a p s PR SG) as (alg & text & E1 & E2).
  apply (safe_ret _ _ alg); [exact E1|]. apply (safe_ret _ _ text); [exact E2|]. cbn. unfold done. eauto.
Qed.
Lemma token_goes p ik : token_fits dir find p ik -> go (from_prior_pack C p ik) done.
Proof.
  intros (D1 & H1 & D2 & H2 & N & doc & asked & DD & (k & rest & a & FK & OC & SG) & AK). unfold from_prior_pack. apply is_did_text in D1, D2. apply did_or_url_none in H1, H2.
  apply (safe_ret _ _ tt).
  { unfold validate_pack. rewrite D1, D2, H1, H2. cbn [negb snd is_some orb]. destruct (beq (fp_iss p) (fp_sub p)) eqn:E; [apply beq_eq in E; contradiction|].
    destruct ik as [ik|]; auto. destruct AK as (U & _). apply url_of_some in U. rewrite U. cbn [is_some negb]. rewrite beq_refl. reflexivity. }
  cbv zeta. apply go_resolve. rewrite DD. apply (safe_ret _ _ doc); [reflexivity|].
  assert (IN : incl asked (doc_authentication doc)). { destruct ik as [ik|]; [|subst asked; apply incl_refl]. destruct AK as (_ & I & ->). intros x [<-|[]]. exact I. }
  apply (safe_ret _ _ asked).
  { destruct ik as [ik|]; [|now subst]. destruct AK as (U & I & ->). apply url_of_some in U. rewrite U. cbn [ok_or rbind]. rewrite beq_refl. cbn [negb].
    destruct (find_first (fun a => beq a ik) (doc_authentication doc)) as [z|] eqn:F.
    - apply find_first_some in F as [_ F]. apply beq_eq in F. subst z. reflexivity.
    - exfalso. eapply find_first_none in F; eauto. cbn in F. rewrite beq_refl in F. discriminate. }
  apply go_find. destruct (signs_secret _ _ _ _ _ _ DD IN FK OC) as (sec & pk & s & OS & SK & PR). rewrite FK.
  apply (safe_ret _ _ k); [reflexivity|]. apply go_get. rewrite OS. apply (safe_ret _ _ sec); [reflexivity|].
  apply (safe_ret _ _ (a, s)); [exact SK|]. cbv beta iota.
  destruct (sign_compact_works C pair WK (print (from_prior_tree p)) k (B "JWT") a pk s PR SG) as (alg & text & E1 & E2).
  apply (safe_ret _ _ alg); [exact E1|]. apply (safe_ret _ _ text); [exact E2|]. cbn. unfold done. eauto.
Qed.
Lemma pair_goes to from msg au an pr : pair_fits C dir find from to ->
  go (authcrypt C to from msg au an pr) (fun r => exists t fk kids, r = Ok (t, fk, kids)).
Proof.
  intros (did & doc & fdid & fdoc & asked & all & k & a & DT & DD & DF & DFD & WA & WL & DL & FWK & OCK & AG & PU).
  unfold authcrypt. destruct (did_part_inv _ _ DT) as (u & U), (did_part_inv _ _ DF) as (u' & U'). rewrite U, U'.
  apply go_resolve. rewrite DD. apply (safe_ret _ _ doc); [reflexivity|]. apply go_resolve. rewrite DFD. apply (safe_ret _ _ fdoc); [reflexivity|].
  rewrite (wanted_select _ _ _ _ _ U' WA), (wanted_select _ _ _ _ _ U WL).
  assert (IK : In k (find asked)) by (destruct FWK as (l1 & l2 & -> & _); apply in_or_app; right; now left).
  destruct asked as [|a0 asked0] eqn:EA; [apply FIND in IK as [[] _]|]. cbv iota. rewrite <- EA in *.
  apply go_find.
  assert (NL : all <> []) by (intros ->; destruct FWK as (? & ? & _ & (? & _ & _ & ? & [] & _) & _)).
  destruct (find asked) as [|f0 found0] eqn:EF; [destruct IK|]. cbv iota. rewrite <- EF in *.
  assert (HELD : forall i, In i (find asked) -> exists sec ai pi si, own i = Some sec /\ publishes C doc_key_agreement fdoc i ai pi /\ sec_key_pair C sec = Ok (ai, si) /\ pair ai pi si).
  { intros i I. apply FIND in I as (I & sec & O). assert (IKA : In i (doc_key_agreement fdoc)). { rewrite <- (wanted_select _ _ _ _ _ U' WA) in I. eapply select_kids_In; eauto. }
    destruct (SM fdid fdoc i sec doc_key_agreement (or_introl eq_refl) DFD IKA O) as (ai & pi & si & X). exists sec, ai, pi, si. tauto. }
  destruct (rmap_total (find_vm Malformed fdoc) (find asked)) as (fkeys & FK).
  { intros x I. apply find_vm_entry. destruct (HELD x I) as (_ & ai & pi & _ & _ & P & _). exists ai. eapply publishes_curve; eauto. }
  apply (safe_ret _ _ fkeys); [exact FK|]. destruct all as [|b0 all0] eqn:EL; [contradiction|]. cbv iota. rewrite <- EL in *.
  destruct (rmap_total (find_vm Malformed doc) all) as (keys & TK). { intros x I. now apply find_vm_entry, DL. }
  apply (safe_ret _ _ keys); [exact TK|]. apply entries in FK, TK.
  apply (first_common fdoc doc (find asked) fkeys all keys FK TK) in FWK as (vm & [VK FW] & FF).
  rewrite FF. apply (safe_ret _ _ vm); [reflexivity|].
  destruct (HELD k IK) as (sec & a' & p & s & OS & PB & SK & PR).
  pose proof (on_curve_fun _ _ _ _ OCK (publishes_curve _ _ _ _ _ _ PB)) as <-.
  assert (KA : vm_key_alg vm = a) by (apply (on_curve_entry _ _ _ _ FW); exact OCK).
  rewrite VK. apply go_get. rewrite OS. apply (safe_ret _ _ sec); [reflexivity|]. cbv zeta. rewrite KA.
  destruct (rmap_total (vm_recipient C a) (filter (fun v => kalg_eqb (vm_key_alg v) a) keys)) as (rs & RS).
  { intros v IV. apply filter_In in IV as [IV E]. apply kalg_eqb_eq in E. destruct (Forall2_In_r _ _ _ _ TK IV) as (kk & IKK & VKK & FVV).
    destruct (PU kk IKK) as (q & _ & v' & FV' & KP'). { now apply (on_curve_entry _ _ _ _ FVV). }
    rewrite (first_with_fun _ _ _ _ FV' FVV) in KP'. exists (vm_id v, q). unfold vm_recipient. rewrite (vm_as_pair _ _ _ _ KP'). reflexivity. }
  pose proof (rs_imported _ _ _ _ RS) as IM.
  assert (E1 : go (auth_encrypt C a au an pr msg vm sec (filter (fun v => kalg_eqb (vm_key_alg v) a) keys)) done).
  { unfold auth_encrypt. rewrite RS. apply (safe_ret _ _ rs); [reflexivity|]. apply (safe_ret _ _ s); [now apply sec_as_pair|].
    eapply safe_bind with (R := done).
    - destruct au. apply go_any, jwe_works; auto; [apply WK|]. intros _. eexists _, _. split; [reflexivity|].
      intros e epk q apu apv tag G (v & IMV). destruct WK as (_ & W & _). eapply W; eauto.
    - intros x (t1 & ->). destruct pr; [apply go_any, encrypt_works; auto; apply WK|]. cbn. unfold done. eauto. }
  eapply safe_bind with (R := done).
  - destruct AG as [->| ->]; exact E1.
  - intros x (t1 & ->). cbn. eauto.
Qed.
Lemma encrypted_goes m to from sign_by o : packable C dir find m to from sign_by o -> go (pack_encrypted C m to from sign_by o) done.
Proof.
  intros (NR & RR & SG & KR & WR). unfold pack_encrypted. destruct (validate_cases m to from sign_by) as [[E _]|[_ R]]; [|contradiction].
  apply (safe_ret _ _ tt); [exact E|].
  eapply safe_bind with (R := done).
  { destruct sign_by as [s|].
    - eapply safe_bind; [apply signed_goes; auto|]. intros x ([t k] & ->). cbn. unfold done. eauto.
    - eapply safe_bind; [apply go_any, plaintext_works, RR|]. intros x ->. cbn. unfold done. eauto. }
  intros x ([msg skid] & ->). cbv beta iota.
  eapply safe_bind with (R := fun r => exists t fk kids, r = Ok (t, fk, kids) /\ is_envelope t).
  { destruct from as [f|].
    - eapply safe_bind with (R := fun r => exists t fk kids, r = Ok (t, fk, kids) /\ is_envelope t).
      + eapply safe_both; [now apply pair_goes|]. intros tr x X F (t & fk & kids & ->). exists t, fk, kids. split; auto. apply by_answers in F.
        destruct (outer_envelope C pair LAW dir DIR own to (Some f) o msg tr t (Some fk) kids SM) as (j & -> & P & _); [cbn; eauto|exact F|]. exists j. auto.
      + intros x (t & fk & kids & -> & EN). cbn. eauto 10.
    - eapply safe_bind; [eapply go_any, anon_goes; eauto|]. intros x (t & kids & -> & EN). cbn. eauto 10. }
  intros x (t & fk & kids & -> & EN). cbv beta iota.
  assert (X : exists did doc, did_part to did /\ dir did = Some doc).
  { destruct from as [f|]; [destruct KR as (did & doc & _ & _ & _ & _ & _ & _ & H1 & H2 & _)|destruct KR as (did & doc & _ & _ & _ & H1 & H2 & _)]; eauto. }
  destruct X as (did & doc & DP & DD).
  eapply safe_bind; [eapply go_any, wrap_works; eauto|]. intros x ([[fwd sm]|] & ->); cbn; unfold done; eauto.
Qed.

(** ** Conditions that are needed *)
Lemma plaintext_needs m tr text : exec (pack_plaintext C m) tr (Ok text) -> Forall (answers dir own) tr -> rotation_ready C dir m.
Proof.
  intros H A. apply pack_plaintext_inv in H as (_ & _ & R). intros jwt E. destruct (R jwt E) as (p & kid & B & X). exists p, kid. split; [|exact X].
  eapply rotation_world; eauto.
Qed.
Lemma held_signs doc asked kid sec a k alg did : dir did = Some doc -> incl asked (doc_authentication doc) ->
  hd_error (find asked) = Some kid -> own kid = Some sec -> sec_key_pair C sec = Ok (a, k) -> sign_alg_of a = Ok alg -> signs find doc asked.
Proof.
  intros D IN HD O SK SA. destruct (find asked) as [|k0 rest] eqn:F; [discriminate|]. injection HD as ->.
  assert (I : In kid (doc_authentication doc)) by (apply IN, FIND; rewrite F; now left).
  destruct (SM did doc kid sec doc_authentication (or_intror eq_refl) D I O) as (a' & p & s & PU & SK' & _).
  exists kid, rest, a. split; auto. split; [|eapply sign_alg_signing; eauto]. rewrite SK in SK'. injection SK' as <- _. eapply publishes_curve; eauto.
Qed.
Lemma signed_needs m by_ tr text kid : exec (pack_signed C m by_) tr (Ok (text, kid)) -> Forall ans tr -> rotation_ready C dir m /\ signer_fits dir find by_.
Proof.
  intros H A. apply pack_signed_inv in H as (did & doc & asked & found & sec & a & k & alg & trp & D & DP & -> & AW & HD & KP & SA & PP & _).
  inversion A as [|? ? A1 A']; subst. inversion A' as [|? ? A2 A'']; subst. inversion A'' as [|? ? A3 A4]; subst. cbn in A1, A2, A3.
  apply Ok_inj in A1, A2, A3. subst found. split; [eapply plaintext_needs; eauto; now apply by_answers|].
  exists did, doc, asked. do 4 (split; auto). eapply held_signs; eauto. now apply asked_incl in AW.
Qed.
Lemma token_needs p ik tr jwt kid : exec (from_prior_pack C p ik) tr (Ok (jwt, kid)) -> Forall ans tr -> token_fits dir find p ik.
Proof.
  intros H A. assert (V : validate_pack p ik = Ok tt).
  { unfold from_prior_pack in H. step H. destruct a. exact E. }
  apply prior_pack_inv in H as (doc & asked & found & sec & a & k & alg & -> & AK & HD & KP & SA & _).
  inversion A as [|? ? A1 A']; subst. inversion A' as [|? ? A2 A'']; subst. inversion A'' as [|? ? A3 A4]; subst. cbn in A1, A2, A3.
  apply Ok_inj in A1, A2, A3. subst found.
  assert (D : did_text (fp_iss p) /\ ~ In "#"%char (fp_iss p) /\ did_text (fp_sub p) /\ ~ In "#"%char (fp_sub p) /\ fp_iss p <> fp_sub p).
  { unfold validate_pack in V.
    assert (D : forall s, negb (is_did s) || is_some (snd (did_or_url s)) = false -> did_text s /\ ~ In "#"%char s).
    { intros s E. apply Bool.orb_false_elim in E as [E1 E2]. apply Bool.negb_false_iff in E1. split; [now apply is_did_text|].
      apply did_or_url_none. destruct (did_or_url_cases s) as [[d X]|X]; auto. rewrite X in E2. discriminate. }
    destruct (negb (is_did (fp_iss p)) || _) eqn:E1; [discriminate|]. destruct (negb (is_did (fp_sub p)) || _) eqn:E2; [discriminate|].
    destruct (beq_spec (fp_iss p) (fp_sub p)) as [|N]; [discriminate|]. apply D in E1 as [? ?], E2 as [? ?]. auto 6. }
  destruct D as (D1 & D2 & D3 & D4 & D5). do 5 (split; auto). exists doc, asked. split; auto.
  assert (AK' : match ik with None => asked = doc_authentication doc | Some kid => url_of (fp_iss p) kid /\ In kid (doc_authentication doc) /\ asked = [kid] end)
    by (destruct ik; tauto).
  split; auto. eapply held_signs; eauto. destruct ik as [ik|]; [|rewrite AK; apply incl_refl]. destruct AK as (-> & _ & I). intros x [<-|[]]. exact I.
Qed.
Lemma anon_needs to msg alg tr text kids : exec (anoncrypt C to msg alg) tr (Ok (text, kids)) -> Forall (answers dir own) tr -> recipient_ready C dir to.
Proof.
  intros H A.
  assert (DS : exists did doc all, did_part to did /\ dir did = Some doc /\ wanted to (doc_key_agreement doc) all /\ described doc all).
  { unfold anoncrypt in H. destruct (did_or_url to) as [did kid] eqn:DU. step H. step H. cbv zeta in H. ok.
    inversion A as [|? ? A1 _]; subst. cbn in A1. apply Ok_inj in A1.
    destruct (select_kids kid (doc_key_agreement a0)) as [|k0 ks] eqn:SK; [destruct H; discriminate|]. rewrite <- SK in *. step H. apply entries in E.
    exists did, a0, (select_kids kid (doc_key_agreement a0)). split; [eapply did_part_spec; eauto|]. split; auto. split; [eapply select_wanted; eauto|]. eapply entries_described; eauto. }
  destruct DS as (did & doc & all & DP & DD & W & DE).
  apply anoncrypt_inv in H as (did' & doc' & ka & rs & ce & enc & e1 & e2 & e3 & ct & tag & DP' & -> & (all' & k0 & W' & FW & OC & AG & PK & KY) & _).
  inversion A as [|? ? A1 _]; subst. cbn in A1. apply Ok_inj in A1. pose proof (did_part_fun _ _ _ DP DP') as <-. rewrite DD in A1. injection A1 as ->.
  pose proof (wanted_fun _ _ _ _ W W') as <-. exists did, doc, all, k0, ka. do 7 (split; auto).
  intros k I O. assert (IK : In k kids).
  { clear -PK I O. induction PK as [|x l l' P K IH|x l l' P K IH]; [destruct I| |].
    - destruct I as [<-|I]; [now left|right; auto].
    - destruct I as [<-|I]; [contradiction|auto]. }
  destruct (F2_In_l _ _ _ _ KY IK) as ([k' p] & _ & _ & P). exists p. exact P.
Qed.
Lemma picked_all {X} (P : X -> Prop) l l' x : picked P l l' -> In x l -> P x -> In x l'.
Proof.
  intros PK I O. induction PK as [|y l l' Q K IH|y l l' Q K IH]; [destruct I| |].
  - destruct I as [<-|I]; [now left|right; auto].
  - destruct I as [<-|I]; [contradiction|auto].
Qed.
Lemma auth_needs to from msg au an pr tr text fk kids : exec (authcrypt C to from msg au an pr) tr (Ok (text, fk, kids)) -> Forall ans tr -> pair_fits C dir find from to.
Proof.
  intros H A.
  assert (DS : exists did doc fdid fdoc asked all, did_part to did /\ dir did = Some doc /\ did_part from fdid /\ dir fdid = Some fdoc
    /\ wanted from (doc_key_agreement fdoc) asked /\ wanted to (doc_key_agreement doc) all /\ described doc all
    /\ exists vm, first_with (common fdoc doc all) (find asked) (vm_id vm) /\ on_curve fdoc (vm_key_alg vm) (vm_id vm) /\ fk = vm_id vm).
  { unfold authcrypt in H. destruct (did_or_url to) as [did kid] eqn:DT. step H. step H. destruct (did_or_url from) as [fdid fkid] eqn:DF.
    step H. step H. destruct (select_kids fkid (doc_key_agreement a2)) as [|k0 ks] eqn:SF; [destruct H; discriminate|]. rewrite <- SF in *.
    step H. destruct a3 as [|k1 a3]; [destruct H; discriminate|]. step H.
    destruct (select_kids kid (doc_key_agreement a0)) as [|k2 ks2] eqn:ST; [destruct H; discriminate|]. rewrite <- ST in *.
    step H. step H. step H. step H. cbv zeta in H. step H. step H. ok.
    inversion A as [|? ? A1 A']; subst. inversion A' as [|? ? A2 A'']; subst. inversion A'' as [|? ? A3 _]; subst. cbn in A1, A2, A3. apply Ok_inj in A1, A2, A3.
    apply entries in E1, E2.
    exists did, a0, fdid, a2, (select_kids fkid (doc_key_agreement a2)), (select_kids kid (doc_key_agreement a0)).
    split; [eapply did_part_spec; eauto|]. split; auto. split; [eapply did_part_spec; eauto|]. split; auto.
    split; [eapply select_wanted; eauto|]. split; [eapply select_wanted; eauto|]. split; [eapply entries_described; eauto|].
    exists a6. rewrite <- A3.
    pose proof E3 as FF. apply find_first_some in FF as [FF _]. apply filter_In in FF as [FF _]. destruct (Forall2_In_r _ _ _ _ E1 FF) as (k & _ & VK & FV).
    assert (EV : entry_of a2 (vm_id a6) a6) by (split; [reflexivity|now rewrite VK]).
    split; [apply (first_common a2 a0 _ _ _ _ E1 E2); eauto|]. split; [exists a6; split; [apply EV|reflexivity]|]. reflexivity. }
  destruct DS as (did & doc & fdid & fdoc & asked & all & DP & DD & DF & DFD & WA & WL & DE & vm & FW & OC & ->).
  apply authcrypt_inv in H as (did' & doc' & fdid' & fdoc' & asked' & found & sec & sk & ka & rs & e1 & e2 & e3 & ct & tag & t1 & rest & DP' & DF' & -> & WA' & (all' & WL' & _ & OC' & AG & PK & KY) & _).
  inversion A as [|? ? A1 A']; subst. inversion A' as [|? ? A2 A'']; subst. cbn in A1, A2. apply Ok_inj in A1, A2.
  pose proof (did_part_fun _ _ _ DP DP') as <-. pose proof (did_part_fun _ _ _ DF DF') as <-. rewrite DD in A1. rewrite DFD in A2. injection A1 as ->. injection A2 as ->.
  pose proof (wanted_fun _ _ _ _ WL WL') as <-. exists did, doc, fdid, fdoc, asked, all, (vm_id vm), ka. do 10 (split; auto).
  intros k I O. destruct (F2_In_l _ _ _ _ KY (picked_all _ _ _ _ PK I O)) as ([k' p] & _ & _ & P). exists p. exact P.
Qed.
Lemma loop_needs headers alg hps : forall msg tr text, exec (wrap_loop C msg headers hps alg) tr (Ok text) -> Forall (answers dir own) tr ->
  Forall (fun h => recipient_ready C dir (fst h)) hps.
Proof.
  induction hps as [|[to next] hps IH]; intros msg tr text H A; [constructor|]. cbn [wrap_loop] in H. step H. step H. destruct a0 as [m kids].
  apply Forall_app in A as [_ A]. apply Forall_app in A as [A1 A2]. constructor; [eapply anon_needs; eauto|eapply IH; eauto].
Qed.
Lemma combine_fst_all {X Y} (P : X -> Prop) (l : list X) : forall (l' : list Y), List.length l = List.length l' -> Forall (fun h => P (fst h)) (combine l l') -> Forall P l.
Proof.
  induction l as [|x l IH]; intros [|y l'] L F; cbn in *; try discriminate; [constructor|]. inversion F; subst. constructor; auto. eapply IH; eauto.
Qed.
Lemma wrap_needs msg to o tr w : exec (wrap_if_needed C msg to o) tr (Ok w) -> Forall (answers dir own) tr -> way_ready C dir to o.
Proof.
  intros H A. pose proof (wrap_decides _ _ _ _ _ _ _ _ H A) as D. unfold way_ready. destruct (po_forward o); [|auto]. right.
  destruct D as (q & R & D). destruct q as [[[id uri] [|k ks]]|]; [| |auto].
  - right. exists id, uri, []. split; auto.
  - right. exists id, uri, (k :: ks). split; auto. destruct D as (t & t1 & t2 & _ & -> & _ & X). apply Forall_app in A as [_ A]. unfold wrap_in_forward in X.
    apply loop_needs in X; auto. apply combine_fst_all in X; [|rewrite !rev_length, app_length; cbn; lia].
    rewrite <- (rev_involutive (k :: ks)). apply Forall_rev. exact X.
Qed.
Lemma encrypted_needs m to from sign_by o tr text pm : exec (pack_encrypted C m to from sign_by o) tr (Ok (text, pm)) -> Forall ans tr ->
  packable C dir find m to from sign_by o.
Proof.
  intros H A. apply pack_encrypted_inv in H as (tr1 & tr2 & tr3 & msg & text2 & w & -> & V & I & O & W & _).
  apply Forall_app in A as [A1 A]. apply Forall_app in A as [A2 A3].
  assert (NR : ~ refused m to from sign_by) by (destruct (validate_cases m to from sign_by) as [[_ N]|[E _]]; [exact N|congruence]).
  split; auto.
  assert (RS : rotation_ready C dir m /\ forall s, sign_by = Some s -> signer_fits dir find s).
  { destruct sign_by as [s|]; cbn in I.
    - destruct I as (kid & X & _). apply signed_needs in X as [R SF]; auto. split; auto. intros s' E. now injection E as <-.
    - destruct I as (X & _). split; [eapply plaintext_needs; eauto; now apply by_answers|discriminate]. }
  destruct RS as [RR SF]. do 2 (split; auto). split; [|eapply wrap_needs; eauto; now apply by_answers].
  destruct from as [f|]; cbn in O.
  - destruct O as (fk & X & _). eapply auth_needs; eauto.
  - destruct O as [X _]. eapply anon_needs; eauto. now apply by_answers.
Qed.

(** Forwarding a given text. *)
Lemma json_value_iff t : (exists v, from_json (to_value (fparse C) max_depth) t = Ok v) <-> exists v, json_denotes (fparse C) t v.
Proof.
  split; intros (v & H).
  - apply from_json_iff in H as (l & S & H). unfold to_value in H. destruct (to_content (fparse C) max_depth (raw_lex l)) as [w| |] eqn:E; try discriminate.
    exists w. apply denotes_iff, from_json_iff. eauto.
  - apply denotes_iff, from_json_iff in H as (l & S & E). eexists. apply from_json_iff. exists l. split; auto. unfold to_value. rewrite E. reflexivity.
Qed.
Lemma forward_iff msg headers to rks alg tr r : exec (wrap_in_forward C msg headers to rks alg) tr r -> Forall (answers dir own) tr ->
  ((exists t, r = Ok t) <-> rks <> [] /\ (exists v, json_denotes (fparse C) msg v) /\ Forall (recipient_ready C dir) rks).
Proof.
  intros H A. unfold wrap_in_forward in H. destruct rks as [|k ks].
  { destruct H as [_ ->]. split; [intros (t & E); discriminate|intros [N _]; congruence]. }
  assert (LEN : List.length (rev (k :: ks)) = List.length (rev (ks ++ [to]))) by (rewrite !rev_length, app_length; cbn; lia).
  split.
  - intros (t & ->). split; [discriminate|]. split.
    + destruct (combine (rev (k :: ks)) (rev (ks ++ [to]))) as [|[t0 n0] hps] eqn:E.
      * exfalso. destruct (rev (k :: ks)) as [|a l] eqn:E1; [apply (f_equal (@List.length _)) in E1; rewrite rev_length in E1; discriminate|].
        destruct (rev (ks ++ [to])); discriminate.
      * cbn [wrap_loop] in H. step H. unfold build_forward in K. step K. apply json_value_iff. exists a0. unfold kind in E0.
        destruct (from_json (to_value (fparse C) max_depth) msg) as [v| |] eqn:EV; try discriminate. injection E0 as ->. reflexivity.
    + apply loop_needs in H; auto. apply combine_fst_all in H; auto. rewrite <- (rev_involutive (k :: ks)). apply Forall_rev. exact H.
  - intros (_ & J & RR). apply json_value_iff in J as (v & J). cut (done r); [auto|]. revert H A. apply safe_exec.
    assert (F : Forall (fun h => recipient_ready C dir (fst h)) (combine (rev (k :: ks)) (rev (ks ++ [to])))) by (apply combine_fst, Forall_rev, RR).
    destruct (combine _ _) as [|[t0 n0] hps]; [cbn; unfold done; eauto|]. inversion F as [|? ? F0 F1]; subst. cbn [wrap_loop].
    eapply safe_bind with (R := done).
    + unfold build_forward. rewrite J. apply (safe_ret _ _ v); [reflexivity|]. unfold random. cbn. intros x _. unfold done. eauto.
    + intros x (m & ->). eapply safe_bind; [eapply anon_goes; eauto|]. intros x (t & kids & -> & E). cbv beta iota. eapply wrap_loop_works; eauto.
Qed.
End Packs.
