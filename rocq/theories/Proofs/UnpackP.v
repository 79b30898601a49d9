(** Calls made by unpack, rejections, panics. *)
From Verif.Model Require Import Prelude Utf8 Base64 Json Serde DidDoc Crypto Keys Effects Jws Jwe Message FromPrior Pack Routing Unpack.
From Verif.Spec Require Import Small Events.
From Verif.Proofs Require Import Lib SmallP Wp UnpackInv.
From Coq Require Import Permutation.

Definition any : list event -> forall X : Type, X -> Prop := fun _ _ _ => True.
Ltac wstep := cbv beta; lazymatch goal with
  | |- wp _ _ _ (pbind (Ret ?r) _) _ => rewrite wp_Ret_bind; let E := fresh "E" in destruct r eqn:E; cbn [wpr]
  | |- wp _ _ _ (pbind (resolve _) _) _ => rewrite wp_pbind; unfold resolve; cbn [wp]; split; [|intros [?|?|] ?; cbn [wpr]]
  | |- wp _ _ _ (pbind (find_secrets _) _) _ => rewrite wp_pbind; unfold find_secrets; cbn [wp]; split; [|intros [?|?|] ?; cbn [wpr]]
  | |- wp _ _ _ (pbind (get_secret _) _) _ => rewrite wp_pbind; unfold get_secret; cbn [wp]; split; [|intros [?|?|] ?; cbn [wpr]]
  | |- wp _ _ _ (pbind (pkind _ (resolve _)) _) _ => rewrite wp_pbind; unfold pkind, resolve; cbn [wp bind]; split; [|intros [?|?|] ?; cbn [wpr kind]]
  | |- wp _ _ _ (Ret _) _ => cbn [wp]
  | |- wp _ _ _ (if ?c then _ else _) _ => let E := fresh "E" in destruct c eqn:E; cbn [negb] in *
  | |- wp _ _ _ (match ?x with _ => _ end) _ => let E := fresh "E" in destruct x eqn:E
  | |- wp _ _ _ (pbind _ _) _ => rewrite wp_pbind
  end.
Notation T := (fun _ _ => True).

Section Calls.
Context (C : crypto) (A : event -> Prop) (text : bytes) (all : bool).
Notation P := (unpack_call C text all).

Lemma loop_calls {X} (open : bytes -> kalg -> key C -> res X) found : forall last h ids l,
  reported h ids (l ++ found) -> (all = false -> l = []) -> wp A P h (open_loop C all open found last) T.
Proof.
  induction found as [|kid found IH]; intros last h ids l R L; cbn [open_loop]; [exact I|].
  wstep; try exact I. { exists ids, l, found. auto. }
  wstep; try exact I. wstep; try exact I. destruct a1 as [ka k]. wstep; try exact I. wstep; try exact I. eapply (IH _ _ ids (l ++ [kid])); [|intros; congruence].
  rewrite <- app_assoc. apply in_app_l. exact R.
Qed.
Lemma anon_calls t o md h : uo_all_keys o = all -> reach C text t -> wp A P h (try_anoncrypt C t o md) T.
Proof.
  intros O R. unfold try_anoncrypt. rewrite O. wstep; try exact I. destruct a as [j|]; try exact I. apply soft_Some in E.
  wstep; try exact I. apply jwe_parse_Ok in E0 as (Ej & (hb & Hb & Hh) & Ha & Hu).
  destruct (ph_alg _); try exact I. wstep; try exact I. apply verify_didcomm_Ok in E0 as (-> & _). wstep; try exact I. wstep; try exact I.
  - exists t. split; auto. left. exists j, (pj_protected a). split; [split; eauto|reflexivity].
  - wstep; try exact I. match goal with H : _ = _ :: _ |- _ => rewrite <- H end. wstep. eapply wp_mono; [|eapply (loop_calls _ _ _ _ _ []); [|auto]].
    + intros h' [[pt alg]|k|] _; cbn [wpr]; try exact I. destruct (utf8 pt); try exact I.
    + apply in_app_r. now left.
Qed.
Lemma auth_calls t o md h : uo_all_keys o = all -> reach C text t -> wp A P h (try_authcrypt C t o md) T.
Proof.
  intros O R. unfold try_authcrypt. rewrite O. wstep; try exact I. destruct a as [j|]; try exact I. apply soft_Some in E.
  wstep; try exact I. apply jwe_parse_Ok in E0 as (Ej & (hb & Hb & Hh) & Ha & Hu).
  destruct (ph_alg _); try exact I. wstep; try exact I. apply verify_didcomm_Ok in E0 as (-> & _). wstep; try exact I. wstep; try exact I.
  destruct (did_or_url a0) as [did url]. wstep; try exact I. wstep; try exact I. do 5 (wstep; try exact I). wstep; try exact I.
  - exists t. split; auto. left. exists j, (pj_protected a). split; [split; eauto|reflexivity].
  - wstep; try exact I. match goal with H : _ = _ :: _ |- _ => rewrite <- H end. wstep. eapply wp_mono; [|eapply (loop_calls _ _ _ _ _ []); [|auto]].
    + intros h' [pt|k|] _; cbn [wpr]; try exact I. destruct (utf8 pt); try exact I.
    + apply in_app_r. now left.
Qed.
Lemma sign_calls t md h : wp A P h (try_sign C t md) T.
Proof.
  unfold try_sign. wstep; try exact I. destruct a as [j|]; try exact I. wstep; try exact I.
  destruct (snd a) as [|x [|]]; try exact I. destruct (jws_signatures j) as [|sg l]; try exact I.
  destruct (did_or_url (sig_kid sg)) as [did url]. wstep; try exact I. wstep; try exact I. do 7 (wstep; try exact I). wstep; try exact I. wstep; try exact I. destruct (utf8 a8); try exact I.
Qed.
Lemma prior_calls jwt h : wp A P h (from_prior_unpack C jwt) T.
Proof.
  unfold from_prior_unpack. wstep; try exact I. wstep; try exact I. destruct (did_or_url (ch_kid (pc_parsed a))) as [did url].
  wstep; try exact I. wstep; try exact I. do 6 (wstep; try exact I). wstep; try exact I. wstep; try exact I. wstep; try exact I. wstep; try exact I.
Qed.
Lemma plain_calls t md h : wp A P h (try_plaintext C t md) T.
Proof.
  unfold try_plaintext. wstep; try exact I. destruct a as [m|]; try exact I. wstep; try exact I.
  destruct (msg_from_prior a) as [jwt|]; try exact I. wstep. eapply wp_mono; [|apply prior_calls].
  intros h' [[p k]|k|] _; cbn [wpr]; try exact I.
Qed.
Lemma unwrap_calls t h : reach C text t -> wp A P h (try_unwrap C t) T.
Proof.
  intros R. unfold try_unwrap. wstep; try exact I. destruct a as [m|]; try exact I. apply soft_Some in E.
  pose proof (try_parse_forward_spec C t m E) as F. destruct (try_parse_forward m) as [f|]; try exact I.
  wstep. unfold has_secret. destruct (did_or_url (pf_next f)) as [did [url|]] eqn:Ed.
  - wstep; try exact I. wstep; try exact I. exists t. split; auto. right. exists (pf_next f), (pf_forwarded f). split; auto. left.
    assert (url = pf_next f) by (destruct (did_or_url_cases (pf_next f)) as [(d & X)|X]; rewrite X in Ed; congruence). subst.
    split; [exists did; now apply url_of_some|]. cbn in *. congruence.
  - assert (did = pf_next f) by (destruct (did_or_url_cases (pf_next f)) as [(d & X)|X]; rewrite X in Ed; congruence). subst did.
    apply did_or_url_none in Ed. rewrite wp_pbind. wstep; try exact I. wstep; try exact I. split; auto; [|intros [?|?|] ?; exact I].
    exists t. split; auto. right. exists (pf_next f), (pf_forwarded f). split; auto. right. split; auto.
    exists a0. split; auto. apply in_app_r. apply ok_or_Ok in E0. subst. now left.
Qed.
Lemma tried_reach (tr : list event) al found open pt : tried C tr al found open pt -> exists kid ka k, open kid ka k pt.
Proof.
  unfold tried. destruct al.
  - intros (l & kid & _ & (sec & ka & k & _ & _ & O) & _). eauto.
  - intros (kid & l & _ & (sec & ka & k & _ & _ & O)). eauto.
Qed.
Lemma anon_reach tr al t j alg pt : reach C text t -> anon_opened C tr al t j alg pt -> reach C text pt.
Proof.
  intros R (h & apv & found & ce & H1 & _ & _ & _ & _ & _ & _ & _ & _ & H). apply tried_reach in H as (kid & ka & k & _ & O).
  eapply reach_open; eauto.
Qed.
Lemma auth_reach tr al t j from pt : reach C text t -> auth_opened C tr al t j from pt -> reach C text pt.
Proof.
  intros R (h & apv & found & did & doc & ka & fk & H1 & _ & _ & _ & _ & _ & _ & _ & _ & _ & _ & _ & _ & _ & H).
  apply tried_reach in H as (kid & ka' & k & _ & O). eapply reach_open; eauto.
Qed.
Lemma rest_calls t o md h : uo_all_keys o = all -> reach C text t -> wp A P h (unpack_rest C t o md) T.
Proof.
  intros O R. unfold unpack_rest. wstep. eapply wp_mono; [|apply auth_calls; auto]. intros h1 [a|k|] _; cbn [wpr]; try exact I.
  destruct (match a with Some _ => _ | None => _ end) as [t2 md2]. wstep. eapply wp_mono; [|apply sign_calls]. intros h2 [s|k|] _; cbn [wpr]; try exact I.
  destruct (match s with Some _ => _ | None => _ end) as [t3 md3]. wstep. eapply wp_mono; [|apply plain_calls]. intros h3 [p|k|] _; cbn [wpr]; try exact I.
Qed.
Lemma loop_all fuel : forall t o md h, uo_all_keys o = all -> reach C text t -> wp A P h (unpack_loop C fuel t o md) T.
Proof.
  induction fuel as [|f IH]; intros t o md h AO R; cbn [unpack_loop]; [exact I|].
  assert (G : forall t' md' h', reach C text t' -> wp A P h' (bind (unpack_rest C t' o md') (fun x => Ret (Some x))) T).
  { intros t' md' h' R'. rewrite wp_bind. eapply wp_mono; [|now apply rest_calls]. intros; exact I. }
  rewrite wp_bind. eapply wp_mono with (Q := fun h' r => match r with Ok (Some (pt, _)) => reach C text pt | _ => True end).
  - intros h' [[[pt md']|]|k|] Q; try exact I; [|now apply G]. destruct (uo_unwrap o); [|now apply G].
    rewrite wp_bind. eapply wp_mono with (Q := fun h' r => match r with Ok (Some t') => reach C text t' | _ => True end).
    + intros h2 [[t'|]|k|] Q2; try exact I; [now apply IH|now apply G].
    + eapply wp_post; [now apply unwrap_calls|]. intros tr x E _. destruct x as [[t'|]|k|]; auto.
      apply try_unwrap_Ok in E as (next & v & kid & found & F & _ & ->). eapply reach_fwd; eauto.
  - eapply wp_post; [now apply anon_calls|]. intros tr x E _. destruct x as [[[pt md']|]|k|]; auto.
    apply try_anoncrypt_Some in E as (j & alg & O & _). eapply anon_reach; eauto.
Qed.
End Calls.

Lemma unpack_calls C fuel text o tr x : exec (unpack C fuel text o) tr x ->
  forall t1 e r t2, tr = t1 ++ Ev e r :: t2 -> unpack_call C text (uo_all_keys o) t1 e.
Proof.
  intros E. unfold unpack in E. apply (wp_exec (fun _ => True) (unpack_call C text (uo_all_keys o)) []) with (Q := T) in E.
  - apply E.
  - apply loop_all; [reflexivity|constructor].
  - now apply Forall_forall.
Qed.
