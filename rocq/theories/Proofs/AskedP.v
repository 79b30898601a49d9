(** Whom unpack and pack ask about. *)
From Verif.Model Require Import Prelude Utf8 Base64 Json Serde DidDoc Crypto Keys Effects Jws Jwe Message FromPrior Pack Routing Unpack.
From Verif.Spec Require Import Small Events Packing Asked.
From Verif.Proofs Require Import Lib SmallP Wp UnpackInv UnpackP SealP PackP RouteP.

(** ** Unpack *)
Section Unpack.
Context (C : crypto) (A : event -> Prop) (text : bytes).
Definition upcall (h : list event) (o : op) : Prop :=
  match o with OResolve did => concerns C text did | _ => True end.
Notation P := upcall.
Notation met := (met C text).

Lemma any_loop {X} all (open : bytes -> kalg -> key C -> res X) found : forall last h,
  wp A P h (open_loop C all open found last) T.
Proof.
  induction found as [|kid found IH]; intros last h; cbn [open_loop]; [exact I|].
  wstep; try exact I. wstep; try exact I. wstep; try exact I. destruct a1 as [ka k]. wstep; try exact I. wstep; try exact I. apply IH.
Qed.
Lemma anon_asks t o md h : wp A P h (try_anoncrypt C t o md) T.
Proof.
  unfold try_anoncrypt. wstep; try exact I. destruct a as [j|]; try exact I.
  wstep; try exact I. destruct (ph_alg _); try exact I. wstep; try exact I. wstep; try exact I. wstep; try exact I.
  wstep; try exact I. wstep. eapply wp_mono; [|apply any_loop].
  intros h' [[pt alg]|k|] _; cbn [wpr]; try exact I. destruct (utf8 pt); exact I.
Qed.
Lemma url_here s did u : did_or_url s = (did, u) -> is_some u = true -> url_of did s.
Proof.
  intros E S. destruct u as [u|]; [|discriminate]. apply url_of_some. apply did_or_url_some in E as H. destruct H as (-> & _). exact E.
Qed.
Lemma auth_asks t o md h : met t -> wp A P h (try_authcrypt C t o md) T.
Proof.
  intros R. unfold try_authcrypt. wstep; try exact I. destruct a as [j|]; try exact I. apply soft_Some in E.
  wstep; try exact I. apply jwe_parse_Ok in E0 as (Ej & (hb & Hb & Hh) & Ha & Hu).
  destruct (ph_alg _) eqn:Al; try exact I. wstep; try exact I. apply verify_didcomm_Ok in E0 as (-> & _). wstep; try exact I. apply ok_or_Ok in E0.
  wstep; try exact I. destruct (did_or_url a0) as [did url] eqn:Ed. wstep; try exact I. wstep; try exact I.
  - exists t. split; auto. eapply mentions_sender with (j := j) (h := pj_protected a); eauto. 2:{ rewrite E0 in Hu. exact Hu. } split; eauto.
    eapply url_here; eauto. now destruct url.
  - do 5 (wstep; try exact I). wstep; try exact I. wstep; try exact I. wstep. eapply wp_mono; [|apply any_loop].
    intros h' [pt|k|] _; cbn [wpr]; try exact I. destruct (utf8 pt); exact I.
Qed.
Lemma sign_asks t md h : met t -> wp A P h (try_sign C t md) T.
Proof.
  intros R. unfold try_sign. wstep; try exact I. destruct a as [j|]; try exact I. apply soft_Some in E. wstep; try exact I.
  apply jws_parse_Ok in E0 as [Ej F].
  destruct (snd a) as [|x [|]] eqn:Es; try exact I. destruct (jws_signatures j) as [|sg l] eqn:Ej'; try exact I.
  destruct (did_or_url (sig_kid sg)) as [did url] eqn:Ed. wstep; try exact I. wstep; try exact I.
  - exists t. split; auto. eapply mentions_signer; eauto. { rewrite Ej'. inversion F as [|? ? ? ? _ F']; subst. inversion F'. reflexivity. }
    eapply url_here; eauto. now destruct url.
  - do 7 (wstep; try exact I). wstep; try exact I. wstep; try exact I. match goal with |- context [utf8 ?x] => destruct (utf8 x); exact I end.
Qed.
Lemma prior_asks t m jwt h : met t -> message_from_str (fparse C) t = Ok m -> msg_from_prior m = Some jwt ->
  wp A P h (from_prior_unpack C jwt) T.
Proof.
  intros R M J. unfold from_prior_unpack. wstep; try exact I. wstep; try exact I. destruct (did_or_url (ch_kid (pc_parsed a))) as [did url] eqn:Ed.
  wstep; try exact I. wstep; try exact I.
  - exists t. split; auto. eapply mentions_prior; eauto. apply parse_compact_Ok in E as (-> & N1 & N2 & N3 & hb & Hb & Hh).
    exists (pc_header a), (pc_payload a), (pc_signature a), hb, (pc_parsed a). do 6 (split; auto). eapply url_here; eauto. now destruct url.
  - do 6 (wstep; try exact I). wstep; try exact I. wstep; try exact I. wstep; try exact I. wstep; try exact I.
Qed.
Lemma plain_asks t md h : met t -> wp A P h (try_plaintext C t md) T.
Proof.
  intros R. unfold try_plaintext. wstep; try exact I. destruct a as [m|]; try exact I. apply soft_Some in E. wstep; try exact I.
  assert (m = a) by (unfold msg_validate in E0; destruct (beq _ _); [now injection E0|discriminate]). subst a.
  destruct (msg_from_prior m) as [jwt|] eqn:J; try exact I. wstep. eapply wp_mono; [|eapply prior_asks; eauto].
  intros h' [[p k]|k|] _; cbn [wpr]; exact I.
Qed.
Lemma unwrap_asks t h : met t -> wp A P h (try_unwrap C t) T.
Proof.
  intros R. unfold try_unwrap. wstep; try exact I. destruct a as [m|]; try exact I. apply soft_Some in E.
  pose proof (try_parse_forward_spec C t m E) as F. destruct (try_parse_forward m) as [f|]; try exact I.
  wstep. unfold has_secret. destruct (did_or_url (pf_next f)) as [did [url|]] eqn:Ed.
  - wstep; try exact I. wstep; try exact I.
  - assert (did = pf_next f) by (destruct (did_or_url_cases (pf_next f)) as [(d & X)|X]; rewrite X in Ed; congruence). subst did.
    apply did_or_url_none in Ed. rewrite wp_pbind. wstep; try exact I; [|wstep; try exact I; split; [exact I|intros [?|?|] ?; exact I]].
    exists t. split; auto. eapply mentions_next; eauto.
Qed.
Lemma anon_met tr al t j alg pt : met t -> anon_opened C tr al t j alg pt -> met pt.
Proof.
  intros R (h & apv & found & ce & H1 & _ & _ & _ & _ & _ & _ & _ & _ & H). apply tried_reach in H as (kid & ka & k & _ & O).
  eapply met_open; eauto.
Qed.
Lemma auth_met tr al t j from pt : met t -> auth_opened C tr al t j from pt -> met pt.
Proof.
  intros R (h & apv & found & did & doc & ka & fk & H1 & _ & _ & _ & _ & _ & _ & _ & _ & _ & _ & _ & _ & _ & H).
  apply tried_reach in H as (kid & ka' & k & _ & O). eapply met_open; eauto.
Qed.
Lemma sign_met tr t kid sa pl : met t -> signed_by C tr t kid sa pl -> met pl.
Proof.
  intros R (j & sg & hb & h & did & doc & ka & k & st & s & H1 & H2 & H3 & H4 & H5 & H6 & H7 & H8 & H9 & H10 & H11 & H12 & H13).
  eapply met_signed; eauto.
Qed.
Definition met_text {Y} (r : res (option (bytes * Y))) : Prop := match r with Ok (Some (pt, _)) => met pt | _ => True end.
Lemma rest_asks t o md h : met t -> wp A P h (unpack_rest C t o md) T.
Proof.
  intros R. unfold unpack_rest. wstep. eapply wp_mono with (Q := fun _ r => met_text r).
  2:{ eapply wp_post; [now apply auth_asks|]. intros tr [[[pt md']|]|k|] E _; try exact I. apply try_authcrypt_Some in E as (j & from & O & _). eapply auth_met; eauto. }
  intros h1 [a|k|] Ma; cbn [wpr]; try exact I.
  assert (M2 : met (fst (match a with Some (m, d) => (m, d) | None => (t, md) end))) by (destruct a as [[]|]; auto).
  destruct (match a with Some _ => _ | None => _ end) as [t2 md2]. cbn [fst] in M2. wstep. eapply wp_mono with (Q := fun _ r => met_text r).
  2:{ eapply wp_post; [now apply sign_asks|]. intros tr [[[pt md']|]|k|] E _; try exact I. apply try_sign_Some in E as (kid & sa & O & _). eapply sign_met; eauto. }
  intros h2 [s|k|] Ms; cbn [wpr]; try exact I.
  assert (M3 : met (fst (match s with Some (m, d) => (m, d) | None => (t2, md2) end))) by (destruct s as [[]|]; auto).
  destruct (match s with Some _ => _ | None => _ end) as [t3 md3]. cbn [fst] in M3. wstep. eapply wp_mono; [|now apply plain_asks]. intros h3 [p|k|] _; cbn [wpr]; exact I.
Qed.
Lemma loop_asks fuel : forall t o md h, met t -> wp A P h (unpack_loop C fuel t o md) T.
Proof.
  induction fuel as [|f IH]; intros t o md h R; cbn [unpack_loop]; [exact I|].
  assert (G : forall t' md' h', met t' -> wp A P h' (bind (unpack_rest C t' o md') (fun x => Ret (Some x))) T).
  { intros t' md' h' R'. rewrite wp_bind. eapply wp_mono; [|now apply rest_asks]. intros; exact I. }
  rewrite wp_bind. eapply wp_mono with (Q := fun h' r => met_text r).
  - intros h' [[[pt md']|]|k|] Q; try exact I; [|now apply G]. cbn in Q. destruct (uo_unwrap o); [|now apply G].
    rewrite wp_bind. eapply wp_mono with (Q := fun h' r => match r with Ok (Some t') => met t' | _ => True end).
    + intros h2 [[t'|]|k|] Q2; try exact I; [now apply IH|now apply G].
    + eapply wp_post; [now apply unwrap_asks|]. intros tr x E _. destruct x as [[t'|]|k|]; auto.
      apply try_unwrap_Ok in E as (next & v & kid & found & F & _ & ->). eapply met_forward; eauto.
  - eapply wp_post; [now apply anon_asks|]. intros tr x E _. destruct x as [[[pt md']|]|k|]; try exact I.
    apply try_anoncrypt_Some in E as (j & alg & O & _). eapply anon_met; eauto.
Qed.
End Unpack.

Lemma unpack_resolves C fuel text o tr x did r : exec (unpack C fuel text o) tr x -> In (Ev (OResolve did) r) tr -> concerns C text did.
Proof.
  intros E I. apply in_split in I as (t1 & t2 & ->). unfold unpack in E.
  apply (wp_exec (fun _ => True) (upcall C text) []) with (Q := T) in E.
  - destruct E as [_ E]. apply (E _ _ _ _ eq_refl).
  - apply loop_asks. constructor.
  - now apply Forall_forall.
Qed.

(** ** Results depend only on the answers asked for *)
Lemma trace_answers {X} (h : handler) (m : prog X) : forall o r, In (Ev o r) (trace h m) -> r = h o.
Proof. induction m as [x|o k IH]; cbn; [tauto|]. intros o' r [H|H]; [|eauto]. now inversion H; subst. Qed.
Lemma run_same {X} (h1 h2 : handler) (m : prog X) : (forall o r, In (Ev o r) (trace h1 m) -> h1 o = h2 o) -> run h1 m = run h2 m.
Proof.
  induction m as [x|o k IH]; cbn; auto. intros H. rewrite <- (H o (h1 o)) by auto. apply IH. intros o' r I. apply (H o' r). auto.
Qed.
Lemma reach_met C text t : reach C text t -> met C text t.
Proof. induction 1; [constructor|eapply met_open; eauto|eapply met_forward; eauto]. Qed.
Lemma unpack_same C fuel text o h1 h2 : (forall c, unpack_needs C h1 text c -> h1 c = h2 c) ->
  run h1 (unpack C fuel text o) = run h2 (unpack C fuel text o).
Proof.
  intros H. apply run_same. intros c r I. apply H.
  assert (F : forall ids t1 e r' t2, trace h1 (unpack C fuel text o) = t1 ++ Ev e r' :: t2 -> e = OFindSecrets ids ->
            addresses C (fun did doc => h1 (OResolve did) = Ok (Some doc)) text ids).
  { intros ids t1 e r' t2 E ->. pose proof (unpack_calls C fuel text o _ _ (run_exec h1 _) _ _ _ _ E) as U. cbn in U.
    destruct U as (t & R & [(j & hd & En & ->)|(next & v & Fw & U)]); exists t; (split; [now apply reach_met|]).
    - left. eauto.
    - right. exists next, v. split; auto. destruct U as [U|(N & doc & Rs & ->)]; auto. right. split; auto. exists doc. split; auto.
      symmetry. apply (trace_answers h1 (unpack C fuel text o) (OResolve next)). rewrite E. apply in_or_app. now left. }
  destruct c as [did|ids|id|u]; cbn.
  - eapply unpack_resolves; [apply (run_exec h1)|exact I].
  - apply in_split in I as (t1 & t2 & E). eapply F; eauto.
  - apply in_split in I as (t1 & t2 & E). pose proof (unpack_calls C fuel text o _ _ (run_exec h1 _) _ _ _ _ E) as (ids & l & l' & R & _).
    exists ids, (l ++ id :: l'). split; [|split].
    + apply in_split in R as (t3 & t4 & ->). rewrite <- app_assoc in E. cbn in E. eapply F; eauto.
    + symmetry. apply (trace_answers h1 (unpack C fuel text o) (OFindSecrets ids)). rewrite E. apply in_or_app. now left.
    + apply in_or_app. right. now left.
  - apply in_split in I as (t1 & t2 & E). exact (unpack_calls C fuel text o _ _ (run_exec h1 _) _ _ _ _ E).
Qed.

(** ** Pack *)
Section Pack.
Context (C : crypto) (A : event -> Prop) (m : message) (to : bytes) (from sign_by : option bytes) (o : pack_options).
Notation P := (pack_call m to from sign_by o).
Notation R := (pack_resolves m to from sign_by o).

Lemma resolves_more h h' did : incl h h' -> R h did -> R h' did.
Proof.
  intros I [X|f F X|s S X|jwt J X|td doc id ms F D Rs Ch N X|td doc id ms k F D Rs Ch K X].
  - now apply pr_to.
  - eapply pr_from; eauto.
  - eapply pr_signer; eauto.
  - eapply pr_prior; eauto.
  - eapply pr_endpoint; eauto. now apply I.
  - eapply pr_hop; eauto. now apply I.
Qed.
Lemma prior_pack_asks jwt h : msg_from_prior m = Some jwt -> wp A P h (from_prior_unpack C jwt) T.
Proof.
  intros J. unfold from_prior_unpack. wstep; try exact I. wstep; try exact I. destruct (did_or_url (ch_kid (pc_parsed a))) as [did url] eqn:Ed.
  wstep; try exact I. wstep; try exact I.
  - eapply pr_prior; eauto. apply parse_compact_Ok in E as (-> & N1 & N2 & N3 & hb & Hb & Hh).
    exists (pc_header a), (pc_payload a), (pc_signature a), hb, (pc_parsed a). do 6 (split; auto). eapply url_here; eauto. now destruct url.
  - do 6 (wstep; try exact I). wstep; try exact I. wstep; try exact I. wstep; try exact I. wstep; try exact I.
Qed.
Lemma plaintext_asks h : wp A P h (pack_plaintext C m) T.
Proof.
  unfold pack_plaintext. wstep. destruct (msg_from_prior m) as [jwt|] eqn:J.
  - wstep. eapply wp_mono; [|now apply prior_pack_asks]. intros h' [p|k|] _; cbn [wpr wp]; try exact I. wstep; try exact I.
  - cbn [wp wpr]. wstep; try exact I.
Qed.
Lemma signed_asks s h : sign_by = Some s -> wp A P h (pack_signed C m s) T.
Proof.
  intros S. unfold pack_signed. wstep; try exact I. destruct (did_or_url s) as [did key_id] eqn:Ed. pose proof (did_part_spec _ _ _ Ed) as DP.
  wstep; try exact I; [eapply pr_signer; eauto|]. wstep; try exact I. apply ok_or_Ok in E0. subst a. wstep; try exact I.
  match goal with |- wp _ _ ?h _ _ => set (h1 := h) end.
  assert (W : auth_wanted s a0 a).
  { destruct key_id as [kid'|].
    - right. apply did_or_url_some in Ed as DU'. destruct DU' as [-> _]. apply url_of_some in Ed.
      apply rbind_Ok in E0 as (x & E1 & E1'). apply Ok_inj in E1'. subst a. apply ok_or_Ok in E1. apply find_first_some in E1 as [I E1]. apply beq_eq in E1. subst x.
      split; [eapply url_has_hash; eauto|]. auto.
    - left. apply Ok_inj in E0. split; auto. destruct DP as [U|[N _]]; auto. apply url_of_some in U. congruence. }
  assert (K : forall t, pack_seeks from sign_by (h1 ++ t) a).
  { intros t. left. exists s, did, a0. split; auto. split; auto. split; auto. apply in_app_l. apply in_app_r. now left. }
  wstep; try exact I; [pose proof (K []) as K0; now rewrite app_nil_r in K0|]. wstep; try exact I.
  wstep; try exact I.
  - exists a, a1. split; [apply K|]. split; [apply in_app_r; now left|]. apply ok_or_Ok in E1. destruct a1; [discriminate|]. injection E1 as ->. now left.
  - wstep; try exact I. wstep; try exact I. match goal with |- context [let (_, _) := ?x in _] => destruct x as [ka k] end. wstep. eapply wp_mono; [|apply plaintext_asks].
    intros h' [pl|k'|] _; cbn [wpr]; try exact I. wstep; try exact I. wstep; try exact I.
Qed.
Lemma encrypt_asks ce d ka pt alg enc sender rs h : wp A P h (jwe_encrypt C ce d ka pt alg enc sender rs) T.
Proof.
  unfold jwe_encrypt. cbv zeta. rewrite wp_pbind. unfold random. cbn [wp]. split; [exact I|]. intros r _. cbn [wpr]. wstep; try exact I.
  rewrite wp_pbind. cbn [wp]. split; [exact I|]. intros r' _. cbn [wpr]. wstep; try exact I. wstep; try exact I.
  rewrite wp_pbind. cbn [wp]. split; [exact I|]. intros r'' _. cbn [wpr]. wstep; try exact I.
  match goal with |- context [let (_, _) := ?x in _] => destruct x as [ct tag] end. wstep; try exact I.
Qed.
Lemma anon_encrypt_asks ka alg msg rs h : wp A P h (anon_encrypt C ka alg msg rs) T.
Proof. unfold anon_encrypt. destruct alg; apply encrypt_asks. Qed.
Lemma anoncrypt_asks to' msg alg h : (forall did, did_part to' did -> R h did) -> wp A P h (anoncrypt C to' msg alg) T.
Proof.
  intros H. unfold anoncrypt. destruct (did_or_url to') as [did kid] eqn:Ed. wstep; try exact I; [apply H; eapply did_part_spec; eauto|].
  wstep; try exact I. wstep; try exact I. wstep; try exact I. wstep; try exact I. wstep. destruct a2; try exact I;
    (wstep; try exact I; eapply wp_mono; [|apply anon_encrypt_asks]; intros h' [x|k|] _; cbn [wpr wp]; exact I).
Qed.
Lemma authcrypt_asks f msg au an protect h : from = Some f -> wp A P h (authcrypt C to f msg au an protect) T.
Proof.
  intros F. unfold authcrypt. destruct (did_or_url to) as [did kid] eqn:DT. wstep; try exact I; [apply pr_to; eapply did_part_spec; eauto|].
  wstep; try exact I. destruct (did_or_url f) as [fdid fkid] eqn:DF. wstep. cbn [wp]; split; [eapply pr_from; eauto; eapply did_part_spec; eauto|intros [?|?|] ?; cbn [wpr]; try exact I].
  wstep; try exact I. apply ok_or_Ok in E, E0. subst a a1. destruct (select_kids fkid (doc_key_agreement a2)) as [|k0 ks] eqn:SF; [exact I|]. rewrite <- SF.
  match goal with |- wp _ _ ?h _ _ => set (h1 := h) end.
  assert (K : forall t, pack_seeks from sign_by (h1 ++ t) (select_kids fkid (doc_key_agreement a2))).
  { intros t. right. exists f, fdid, a2. split; auto. split; [eapply did_part_spec; eauto|]. split; [apply in_app_l, in_app_r; now left|]. eapply select_wanted; eauto. }
  wstep; try exact I; [pose proof (K []) as K0; now rewrite app_nil_r in K0|].
  destruct a as [|k1 found]; [exact I|]. wstep; try exact I.
  destruct (select_kids kid (doc_key_agreement a0)) as [|k2 ks2] eqn:ST; [exact I|]. rewrite <- ST. wstep; try exact I. wstep; try exact I.
  wstep; try exact I.
  - exists (select_kids fkid (doc_key_agreement a2)), (k1 :: found). split; [apply K|]. split; [apply in_app_r; now left|].
    apply ok_or_Ok in E1. apply find_first_some in E1 as [I2 _]. apply filter_In in I2 as [I2 _]. apply entries in E.
    clear -E I2. induction E as [|x y l l' Exy F IH]; [destruct I2|]. destruct I2 as [<-|I2]; [left; now destruct Exy|right; auto].
  - wstep; try exact I. cbv zeta. wstep.
    assert (G : forall ka rs fk sec h, wp A P h (auth_encrypt C ka au an protect msg fk sec rs) T).
    { intros. unfold auth_encrypt. wstep; try exact I. wstep; try exact I. wstep. destruct au. eapply wp_mono; [|apply encrypt_asks].
      intros h' [x|?|] _; cbn [wpr]; try exact I. destruct protect; [apply anon_encrypt_asks|exact I]. }
    match goal with |- context [match ?k with _ => _ end] => destruct k end; try exact I; (eapply wp_mono; [|apply G]; intros h' [x|?|] _; cbn [wpr wp]; exact I).
Qed.
Lemma find_service_asks did sid h : R h did -> wp A P h (find_service did sid) T.
Proof.
  intros H. unfold find_service. wstep; try exact I; [exact H|]. wstep; try exact I. destruct sid; try exact I. wstep; try exact I.
  destruct (svc_kind _); try exact I. destruct (accepts_v2 _); exact I.
Qed.
Lemma services_asks h : po_forward o = true -> wp A P h (services_chain to (po_messaging_service o)) T.
Proof.
  intros F. unfold services_chain. destruct (did_or_url to) as [did u] eqn:DU. pose proof (did_part_spec _ _ _ DU) as DP. wstep.
  eapply wp_mono with (Q := fun h' r => forall id ms, r = Ok (Some (id, ms)) -> exists doc, resolved h' did doc /\ chosen doc (po_messaging_service o) id ms).
  2:{ eapply wp_post; [apply find_service_asks; now apply pr_to|]. intros tr x E _ id ms ->. apply find_service_Ok in E as (doc & -> & Ch).
      exists doc. split; auto. apply in_app_r. now left. }
  intros h' [[[id ms]|]|k|] H; cbn [wpr]; try exact I. destruct (H id ms eq_refl) as (doc & Rs & Ch). cbn [snd chain_loop].
  destruct (is_did (ms_uri ms)) eqn:D; [|exact I]. cbn [List.length Nat.ltb Nat.leb]. wstep. eapply wp_mono; [|apply find_service_asks].
  - intros h2 [s|k|] _; cbn [wpr]; try exact I. wstep; try exact I. destruct a as [mid mms]. cbn [snd chain_loop]. destruct (is_did (ms_uri mms)); exact I.
  - apply is_did_text in D. eapply pr_endpoint; eauto.
Qed.
Lemma wrap_loop_asks headers alg hops : forall msg h, (forall k did, In k (map fst hops) -> did_part k did -> R h did) ->
  wp A P h (wrap_loop C msg headers hops alg) T.
Proof.
  induction hops as [|[k next] hops IH]; intros msg h H; cbn [wrap_loop]; [exact I|]. wstep.
  eapply wp_mono with (Q := fun h' _ => True /\ exists t, h' = h ++ t).
  2:{ apply wp_hist. unfold build_forward. wstep; try exact I. wstep. unfold random. cbn [wp]. split; [exact I|]. intros r _. cbn [wpr]. exact I. }
  intros h' [x|?|] (_ & t & ->); cbn [wpr]; try exact I. wstep. eapply wp_mono with (Q := fun h' _ => True /\ exists t', h' = (h ++ t) ++ t').
  2:{ apply wp_hist. apply anoncrypt_asks. intros did D. apply resolves_more with (h := h); [intros e; apply in_app_l|]. apply (H k); cbn; auto. }
  intros h' [[y ks]|?|] (_ & t' & ->); cbn [wpr]; try exact I. apply IH. intros k' did I' D. apply resolves_more with (h := h).
  - intros e Ie. now apply in_app_l, in_app_l.
  - apply (H k'); cbn; auto.
Qed.
Lemma wrap_asks msg h : wp A P h (wrap_if_needed C msg to o) T.
Proof.
  unfold wrap_if_needed. destruct (po_forward o) eqn:F; cbn [negb]; [|exact I]. wstep.
  eapply wp_mono with (Q := fun h' r => forall chain, r = Ok chain -> exists tr, h' = h ++ tr /\ chain_is to (po_messaging_service o) tr chain).
  2:{ eapply wp_post; [now apply services_asks|]. intros tr x E _ chain ->. exists tr. split; auto. now apply services_chain_Ok. }
  intros h' [chain|?|] H; cbn [wpr]; try exact I. destruct (H chain eq_refl) as (tr & -> & Ch). clear H.
  assert (W : forall keys, (forall k did, In k keys -> did_part k did -> R (h ++ tr) did) -> wp A P (h ++ tr) (wrap_in_forward C msg (po_forward_headers o) to keys (po_enc_alg_anon o)) T).
  { intros keys K. unfold wrap_in_forward. destruct keys as [|k0 keys]; [exact I|]. cbv zeta. apply wrap_loop_asks. intros k did I0 D. apply (K k); auto.
    apply in_map_iff in I0 as ([k' n] & <- & I0). apply in_combine_l in I0. now apply in_rev in I0. }
  destruct Ch as [did doc DP S N|did doc id ms DP Ch N|did doc id ms mdoc mid mms DP Ch Dt Ch' N]; [exact I| |]; cbv zeta; cbn [last map app snd fst].
  - destruct (ms_routing_keys ms) as [|k0 keys] eqn:K; [exact I|]. rewrite <- K. wstep. eapply wp_mono; [|apply W].
    + intros h' [x|?|] _; exact I.
    + intros k d Ik D. eapply pr_hop; eauto. apply in_app_r. now left.
  - wstep. eapply wp_mono; [|apply W].
    + intros h' [x|?|] _; exact I.
    + intros k d [<-|Ik] D; [eapply pr_endpoint; eauto|eapply pr_hop; eauto]; apply in_app_r; now left.
Qed.
Lemma pack_asks h : wp A P h (pack_encrypted C m to from sign_by o) T.
Proof.
  unfold pack_encrypted. wstep; try exact I. wstep.
  eapply wp_mono with (Q := T).
  2:{ destruct sign_by as [s|] eqn:S; [rewrite <- S|rewrite <- S]; (wstep; eapply wp_mono; [|first [eapply signed_asks; exact S|apply plaintext_asks]]); intros h' [[x y]|?|] _ || intros h' [x|?|] _; exact I. }
  intros h' [[msg kid]|?|] _; cbn [wpr]; try exact I. wstep. eapply wp_mono with (Q := T).
  2:{ destruct from as [f|] eqn:S; rewrite <- S.
      - wstep. eapply wp_mono; [|eapply authcrypt_asks; exact S]. intros h2 [[[x y] z]|?|] _; exact I.
      - wstep. eapply wp_mono; [|apply anoncrypt_asks; intros; now apply pr_to]. intros h2 [[x y]|?|] _; exact I. }
  intros h2 [[[msg2 fk] tk]|?|] _; cbn [wpr]; try exact I. wstep. eapply wp_mono; [|apply wrap_asks].
  intros h3 [[[w sm]|]|?|] _; exact I.
Qed.
End Pack.

Lemma pack_calls C m to from sign_by o tr x : exec (pack_encrypted C m to from sign_by o) tr x ->
  forall t1 c r t2, tr = t1 ++ Ev c r :: t2 -> pack_call m to from sign_by o t1 c.
Proof.
  intros E. apply (wp_exec (fun _ => True) (pack_call m to from sign_by o) []) with (Q := T) in E.
  - apply E.
  - apply pack_asks.
  - now apply Forall_forall.
Qed.
Lemma pack_same C m to from sign_by o h1 h2 : (forall c, pack_needs h1 m to from sign_by o c -> h1 c = h2 c) ->
  run h1 (pack_encrypted C m to from sign_by o) = run h2 (pack_encrypted C m to from sign_by o).
Proof.
  intros H. apply run_same. intros c r I. apply H. apply in_split in I as (t1 & t2 & E). exists t1. split.
  - intros o' r' I. apply (trace_answers h1 (pack_encrypted C m to from sign_by o)). rewrite E. apply in_or_app. now left.
  - eapply pack_calls; [apply (run_exec h1)|exact E].
Qed.
