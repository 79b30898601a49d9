(** Anonymous envelopes put on and taken off. *)
From Verif.Model Require Import Prelude Utf8 Base64 Json DidDoc Crypto Keys Effects Serde Jws Jwe Message FromPrior Pack Routing Unpack.
From Verif.Spec Require Import Small Events World Cond Cover.
From Verif.Proofs Require Import Lib SmallP Wp Errs NoPanic UnpackInv CondP DeliverP WorldP SealP RoundP.

Section Cover.
Context (C : crypto) (kids : list bytes) (alg : anon_alg).
Definition cov {A} (x y : A * unpack_metadata) : Prop := fst x = fst y /\ snd x = covered kids alg (snd y).
Ltac same := repeat (apply alike_same; intros).
Ltac cases := lazymatch goal with |- alike _ (match ?x with _ => _ end) _ => destruct x end.
Ltac leaf := apply alike_ret; cbn; auto.

Lemma auth_cov msg o md : alike (resR (optR cov)) (try_authcrypt C msg o (covered kids alg md)) (try_authcrypt C msg o md).
Proof.
  unfold try_authcrypt. same. destruct a as [j|]; [|leaf]. same. destruct (ph_alg _); try leaf.
  same. destruct (utf8 _); cbn [negb]; [|leaf]. destruct (did_or_url _) as [fd fu]. destruct (is_some fu); cbn [negb]; [|leaf].
  same. cases; [leaf|]. same. destruct (utf8 _); leaf. split; reflexivity.
Qed.
Lemma sign_cov msg md : alike (resR (optR cov)) (try_sign C msg (covered kids alg md)) (try_sign C msg md).
Proof.
  unfold try_sign. same. destruct a as [j|]; [|leaf]. same. destruct (snd a) as [|h [|h' l]]; [leaf| |leaf].
  destruct (jws_signatures j) as [|sg sgs]; [leaf|]. cbv zeta. destruct (did_or_url _) as [d u]. destruct (is_some u); cbn [negb]; [|leaf].
  same. cases; [leaf|]. same. destruct (utf8 _); leaf. split; reflexivity.
Qed.
Lemma plain_cov msg md : alike (resR (optR cov)) (try_plaintext C msg (covered kids alg md)) (try_plaintext C msg md).
Proof.
  unfold try_plaintext. same. destruct a as [m|]; [|leaf]. same. destruct (msg_from_prior a) as [jwt|].
  - same. destruct a0 as [p kid]. leaf. split; reflexivity.
  - leaf. split; reflexivity.
Qed.
Lemma rest_cov msg o md : alike (resR cov) (unpack_rest C msg o (covered kids alg md)) (unpack_rest C msg o md).
Proof.
  unfold unpack_rest. eapply alike_pbind; [apply auth_cov|]. intros a b AB.
  assert (X : exists t d0, match a with Some (m, d) => (m, d) | None => (msg, covered kids alg md) end = (t, covered kids alg d0)
    /\ match b with Some (m, d) => (m, d) | None => (msg, md) end = (t, d0)).
  { destruct a as [[t d]|], b as [[t' d']|]; cbn in AB; try easy; [destruct AB as [E1 E2]; cbn in *; subst|]; eauto 8. }
  destruct X as (t & d0 & -> & ->). clear a b AB. eapply alike_pbind; [apply sign_cov|]. intros a b AB.
  assert (X : exists t' e0, match a with Some (m, d) => (m, d) | None => (t, covered kids alg d0) end = (t', covered kids alg e0)
    /\ match b with Some (m, d) => (m, d) | None => (t, d0) end = (t', e0)).
  { destruct a as [[t' e]|], b as [[t'' e']|]; cbn in AB; try easy; [destruct AB as [E1 E2]; cbn in *; subst|]; eauto 8. }
  destruct X as (t' & e0 & -> & ->). clear a b AB.
  eapply alike_pbind; [apply plain_cov|]. intros a b AB. apply alike_ret. destruct a, b; cbn in AB |- *; auto; easy.
Qed.
End Cover.

Lemma cov_init kids alg : md_anon kids alg um_init = covered kids alg um_init. Proof. reflexivity. Qed.
Definition got {A} (r : option (res A)) : option A := match r with Some (Ok x) => Some x | _ => None end.

(** ** Taken off *)
Lemma loop_rewrapped C fuel text o md tr m md' : exec (unpack_loop C fuel text o md) tr (Some (Ok (m, md'))) ->
  um_re_wrapped md = true -> um_re_wrapped md' = true.
Proof.
  intros H E. apply unpack_loop_Ok in H as (rew & anon & t1 & tr1 & tr2 & _ & _ & H). apply rest_re_wrapped in H. rewrite H.
  unfold md_of. destruct anon as [[? ?]|], rew; cbn; auto.
Qed.
Lemma auth_not_anon C text o md md0 tr pt md' : exec (try_authcrypt C text o md) tr (Ok (Some (pt, md'))) ->
  try_anoncrypt C text o md0 = Ret (Ok None).
Proof.
  intros H. unfold try_authcrypt in H. step H. destruct a as [j|]; [|destruct H; discriminate]. step H.
  unfold try_anoncrypt. rewrite E. cbn [pbind bind]. rewrite E0. cbn [pbind bind].
  destruct (ph_alg (pj_protected a)); try (destruct H; discriminate). reflexivity.
Qed.
Lemma rest_auth_alg C text o md tr m md' : exec (unpack_rest C text o md) tr (Ok (m, md')) -> um_enc_alg_auth md' <> None -> um_enc_alg_auth md = None ->
  exists tr1 pt md1, exec (try_authcrypt C text o md) tr1 (Ok (Some (pt, md1))).
Proof.
  intros H N Z. unfold unpack_rest in H. apply exec_pbind_Ok in H as (ta & tb & a & -> & Ha & H). destruct a as [[pt d]|]; [eauto|]. exfalso. apply N. clear N.
  apply exec_pbind_Ok in H as (tc & td & a & -> & Hs & H).
  assert (X : exists t' d', match a with Some (m, d) => (m, d) | None => (text, md) end = (t', d') /\ um_enc_alg_auth d' = None).
  { destruct a as [[pt d']|]; [|eauto]. apply try_sign_Some in Hs as (kid & sa & _ & ->). eexists _, _. split; [reflexivity|exact Z]. }
  destruct X as (t' & d' & E & Z'). rewrite E in H. apply exec_pbind_Ok in H as (te & tf & p & -> & Hp & [-> H]).
  destruct p as [[m' md2]|]; [|discriminate]. apply Ok_inj in H. injection H as -> ->.
  apply try_plaintext_Some in Hp as (_ & _ & [(_ & -> & _)|(jwt & p & kid & _ & _ & ->)]); exact Z'.
Qed.

Lemma uncovered C h fuel fuel' text o m md' :
  run h (unpack C fuel text o) = Some (Ok (m, md')) ->
  um_anonymous_sender md' = true -> um_enc_alg_auth md' <> None -> um_re_wrapped md' = false ->
  exists tr j alg inner md, (forall o r, In (Ev o r) tr -> r = h o)
    /\ anon_opened C tr (uo_all_keys o) text j alg inner
    /\ run h (unpack C (S fuel') inner o) = Some (Ok (m, md))
    /\ um_anonymous_sender md = false /\ md' = covered (recipient_kids j) alg md.
Proof.
  intros H AN AU RW. destruct fuel as [|fuel]; [discriminate|]. unfold unpack in *. cbn [unpack_loop] in H |- *.
  rewrite run_bind in H. pose proof (Lib.run_exec h (try_anoncrypt C text o um_init)) as XA.
  destruct (run h (try_anoncrypt C text o um_init)) as [[[pt md1]|]|k|]; try discriminate H.
  - destruct (try_anoncrypt_Some _ _ _ _ _ _ _ XA) as (j & alg & OP & -> & _). rewrite cov_init in H.
    assert (R : run h (unpack_rest C pt o (covered (recipient_kids j) alg um_init)) = Ok (m, md')).
    { assert (G : run h (bind (unpack_rest C pt o (covered (recipient_kids j) alg um_init)) (fun x => Ret (Some x))) = Some (Ok (m, md')) ->
        run h (unpack_rest C pt o (covered (recipient_kids j) alg um_init)) = Ok (m, md')).
      { rewrite run_bind. cbn [run]. intros G. now apply (f_equal (fun r => match r with Some x => x | None => Panic end)) in G. }
      destruct (uo_unwrap o); [|exact (G H)]. rewrite run_bind in H. destruct (run h (try_unwrap C pt)) as [[fwd|]|k|]; try discriminate H; [|exact (G H)].
      exfalso. pose proof (Lib.run_exec h (unpack_loop C fuel fwd o (md_rewrapped (covered (recipient_kids j) alg um_init)))) as X. rewrite H in X.
      apply loop_rewrapped in X; [congruence|reflexivity]. }
    pose proof (alike_run _ _ _ h (rest_cov C (recipient_kids j) alg pt o um_init)) as L. rewrite R in L.
    pose proof (Lib.run_exec h (unpack_rest C pt o um_init)) as XR.
    destruct (run h (unpack_rest C pt o um_init)) as [[m0 md]|k|] eqn:R0; cbn in L; try easy. destruct L as [L1 L2]. cbn in L1, L2. subst m0 md'.
    exists (Lib.trace h (try_anoncrypt C text o um_init)), j, alg, pt, md. split; [apply trace_says|]. split; [exact OP|].
    destruct (rest_auth_alg _ _ _ _ _ _ _ XR AU eq_refl) as (tr1 & pt1 & md1 & XT). split; [|split; [|reflexivity]].
    + rewrite (auth_not_anon _ _ _ _ um_init _ _ _ XT). cbn [bind]. rewrite run_bind, R0. reflexivity.
    + apply rest_plain in XR as [XR _]. exact XR.
  - exfalso. rewrite run_bind in H. cbn [run] in H. pose proof (Lib.run_exec h (unpack_rest C text o um_init)) as XR.
    destruct (run h (unpack_rest C text o um_init)) as [[m' md2]|k|]; try discriminate H.
    apply (f_equal got) in H. cbn in H. injection H as -> ->. destruct (rest_plain _ _ _ _ _ _ _ XR) as [E _]. rewrite AN in E. discriminate E.
Qed.

(** ** Put on *)
Lemma cover C pair (LAW : lawful C pair) dir (DIR : directory dir) own own' h fuel fuel' inner text to alg kids o tr m md :
  secrets_match C pair dir own -> answers_from dir own h -> utf8 inner = true ->
  run h (unpack C fuel inner o) = Some (Ok (m, md)) -> um_anonymous_sender md = false ->
  (uo_unwrap o = true -> message_from_str (fparse C) inner = Err Malformed) ->
  exec (anoncrypt C to inner alg) tr (Ok (text, kids)) -> Forall (answers dir own') tr -> holds_one own kids ->
  run h (unpack C (S fuel') text o) = Some (Ok (m, covered kids alg md)).
Proof.
  intros SM AH U H AN NM X F HO.
  destruct (anoncrypt_Ok C dir _ _ _ _ _ _ _ X F) as (did & doc & ka & rs & tr0 & _ & R & -> & AE).
  destruct (anon_encrypt_sealed C pair LAW dir DIR _ _ _ _ _ _ _ _ AE R) as (ce & enc & j & p & EN & S).
  pose proof (anon_stage C pair dir DIR own ce ka inner enc alg rs text j p o um_init did doc S EN R SM HO U) as ST.
  assert (AL : forall A (q : prog A), Forall (answers dir own) (Lib.trace h q)).
  { intros A q. apply Forall_forall. intros [o' r] I. rewrite (trace_says _ _ _ _ I). apply AH. }
  pose proof (safe_exec _ _ _ _ _ ST (Lib.run_exec h _) (AL _ _)) as E. cbv beta in E.
  destruct fuel as [|fuel]; [discriminate|]. unfold unpack in *. cbn [unpack_loop] in H |- *. rewrite run_bind in H |- *. rewrite E, cov_init.
  pose proof (Lib.run_exec h (try_anoncrypt C inner o um_init)) as XA.
  assert (NA : run h (bind (unpack_rest C inner o um_init) (fun x => Ret (Some x))) = Some (Ok (m, md))).
  { destruct (run h (try_anoncrypt C inner o um_init)) as [[[pt md1]|]|k|]; try discriminate H; [|exact H]. exfalso.
    destruct (try_anoncrypt_Some _ _ _ _ _ _ _ XA) as (j' & alg' & _ & -> & _).
    assert (G : forall fuel t md0, um_anonymous_sender md0 = true -> run h (unpack_loop C fuel t o md0) = Some (Ok (m, md)) -> False).
    { intros f t md0 A0 G. pose proof (Lib.run_exec h (unpack_loop C f t o md0)) as XL. rewrite G in XL.
      apply unpack_loop_Ok in XL as (rew & anon & t1 & tr1 & tr2 & _ & _ & XL). apply rest_plain in XL as [XL _]. rewrite AN in XL.
      unfold md_of in XL. destruct anon as [[? ?]|], rew; cbn in XL; congruence. }
    assert (G' : forall t md0, um_anonymous_sender md0 = true -> run h (bind (unpack_rest C t o md0) (fun x => Ret (Some x))) = Some (Ok (m, md)) -> False).
    { intros t md0 A0 G'. pose proof (Lib.run_exec h (unpack_rest C t o md0)) as XL. rewrite run_bind in G'. cbn [run] in G'.
      destruct (run h (unpack_rest C t o md0)) as [[? ?]|?|]; try discriminate G'. apply (f_equal got) in G'. cbn in G'. injection G' as -> ->.
      apply rest_plain in XL as [XL _]. congruence. }
    destruct (uo_unwrap o); [|eapply G'; [|exact H]; reflexivity]. rewrite run_bind in H.
    destruct (run h (try_unwrap C pt)) as [[fwd|]|k|]; try discriminate H; [eapply G; [|exact H]; reflexivity|eapply G'; [|exact H]; reflexivity]. }
  assert (FIN : run h (bind (unpack_rest C inner o (covered (map fst rs) alg um_init)) (fun x => Ret (Some x))) = Some (Ok (m, covered (map fst rs) alg md))).
  { rewrite run_bind in NA |- *. cbn [run] in NA |- *. pose proof (alike_run _ _ _ h (rest_cov C (map fst rs) alg inner o um_init)) as L.
    destruct (run h (unpack_rest C inner o um_init)) as [[m0 md0]|k|]; try discriminate NA. apply (f_equal got) in NA. cbn in NA. injection NA as -> ->.
    destruct (run h (unpack_rest C inner o (covered (map fst rs) alg um_init))) as [[m1 md1]|k|]; cbn in L; try easy.
    destruct L as [L1 L2]. cbn in L1, L2. subst. reflexivity. }
  destruct (uo_unwrap o) eqn:UW; [|exact FIN]. rewrite run_bind.
  assert (TU : run h (try_unwrap C inner) = Ok None) by (unfold try_unwrap; rewrite (NM eq_refl); reflexivity). rewrite TU. exact FIN.
Qed.
