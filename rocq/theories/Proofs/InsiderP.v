(** Recipients that try to change an authenticated envelope. *)
From Verif.Model Require Import Prelude Utf8 Base64 Json Serde DidDoc Crypto Keys Effects Jws Jwe Message FromPrior Pack Routing Unpack.
From Verif.Spec Require Import Small Codec Events World Text Packing Signing Sealed Insider.
From Verif.Proofs Require Import Lib Base64P JsonP SerdeP CodecP SmallP TreeP Wp Errs NoPanic UnpackInv UnpackFacts WorldP SealP RoundP TextP PackP RouteP HideP SigningP SealedP.

Section Honest.
Context (C : crypto) (sealed : bytes -> bytes -> bytes -> Prop).
Lemma wrapped_sealed tr from (msgs : message -> Prop) : only_wrapped C sealed tr from -> tag_commits C sealed ->
  (forall cek tag t, sealed cek tag t -> exists m, msgs m /\ sealed_text m t) -> only_sealed C tr from msgs.
Proof.
  intros OW TC SM did doc ka fk kid sec k j h t U R P H K (cek & iv & ct & tag & CK & IV & CT & TG & D).
  destruct CK as (rc & ek & epk & apv & tag' & kw & c & _ & _ & _ & _ & TG' & E & W & I). rewrite TG in TG'. apply some_inj in TG'. subst tag'.
  destruct (OW _ _ _ _ _ _ _ _ _ _ _ _ _ _ _ _ U R P H K E W I) as (t0 & S).
  pose proof (TC _ _ _ _ _ _ _ S D) as ->. eauto.
Qed.
End Honest.

Section Wraps.
Context (C : crypto) (w : bytes -> bytes -> option bytes).
Notation C' := (with_wrap C w).
Lemma rmap_same {X Y} (f g : X -> res Y) l : (forall x, f x = g x) -> rmap f l = rmap g l.
Proof. intros E. induction l as [|x l IH]; cbn; auto. now rewrite E, IH. Qed.

Lemma wrap_es_peq (ES : es_agrees C w) ce ka pt enc rs : peq (jwe_encrypt C ce KdfEs ka pt EcdhEsA256kw enc None rs) (jwe_encrypt C' ce KdfEs ka pt EcdhEsA256kw enc None rs).
Proof.
  unfold jwe_encrypt. cbv zeta. do 6 (apply peq_pbind; [apply peq_refl|]; intros ?). apply peq_pbind; [apply peq_refl|]. intros [ct tag].
  match goal with |- peq (pbind (Ret (rmap ?f ?l)) _) (pbind (Ret (rmap ?g _)) _) => rewrite (rmap_same f g l); [apply peq_refl|] end.
  intros r. unfold wrap_one. cbn [derive_key with_wrap ecdh_es kw_wrap option_map opt_default jwe_alg_str].
  change (apv_of C' (map fst rs)) with (apv_of C (map fst rs)). destruct (ecdh_es C ka _ _ _ _ _ _) as [kw|] eqn:E; cbn [ok_or rbind]; auto. now rewrite (ES _ _ _ _ _ _ E).
Qed.
Lemma wrap_pu_peq ka pt kid sk rs : pu_agrees C w pt ->
  peq (jwe_encrypt C CA256CbcHs512 Kdf1pu ka pt Ecdh1puA256kw A256cbcHs512 (Some (kid, sk)) rs)
      (jwe_encrypt C' CA256CbcHs512 Kdf1pu ka pt Ecdh1puA256kw A256cbcHs512 (Some (kid, sk)) rs).
Proof.
  intros PU. unfold jwe_encrypt. cbv zeta. do 6 (apply peq_pbind; [apply peq_refl|]; intros ?). apply peq_pbind_in. intros tr [ct tag] [_ EN]. symmetry in EN. apply ok_or_Ok in EN.
  match goal with |- peq (pbind (Ret (rmap ?f ?l)) _) (pbind (Ret (rmap ?g _)) _) => rewrite (rmap_same f g l); [apply peq_refl|] end.
  intros r. unfold wrap_one. cbn [derive_key with_wrap ecdh_1pu kw_wrap option_map opt_default jwe_alg_str fst snd].
  change (apv_of C' (map fst rs)) with (apv_of C (map fst rs)). destruct (ecdh_1pu C ka _ _ _ _ _ _ _ _) as [kw|] eqn:E; cbn [ok_or rbind]; auto. now rewrite (PU _ _ _ _ _ _ _ _ _ _ _ _ EN E).
Qed.
Section Pack.
Context (ES : es_agrees C w).
Lemma wrap_anon_peq ka alg pt rs : peq (anon_encrypt C ka alg pt rs) (anon_encrypt C' ka alg pt rs).
Proof. destruct alg; now apply wrap_es_peq. Qed.
Lemma wrap_anoncrypt_peq to pt alg : peq (anoncrypt C to pt alg) (anoncrypt C' to pt alg).
Proof.
  unfold anoncrypt. destruct (did_or_url to) as [did u]. apply peq_pbind; [apply peq_refl|]. intros x. apply peq_pbind; [apply peq_refl|]. intros doc. cbv zeta.
  destruct (select_kids _ _); [apply peq_refl|]. apply peq_pbind; [apply peq_refl|]. intros keys. apply peq_pbind; [apply peq_refl|]. intros ka.
  apply peq_pbind; [|intros; apply peq_refl]. destruct ka; try apply peq_refl; (apply peq_pbind; [apply peq_refl|]; intros; apply wrap_anon_peq).
Qed.
Lemma wrap_authcrypt_peq to from pt au an pr : pu_agrees C w pt -> peq (authcrypt C to from pt au an pr) (authcrypt C' to from pt au an pr).
Proof.
  intros PU. unfold authcrypt. destruct (did_or_url to) as [did u]. do 2 (apply peq_pbind; [apply peq_refl|]; intros ?).
  destruct (did_or_url from) as [fdid fu]. do 2 (apply peq_pbind; [apply peq_refl|]; intros ?).
  destruct (select_kids _ _); [apply peq_refl|]. apply peq_pbind; [apply peq_refl|]. intros found. destruct found; [apply peq_refl|].
  apply peq_pbind; [apply peq_refl|]. intros fkeys. destruct (select_kids _ _); [apply peq_refl|]. do 4 (apply peq_pbind; [apply peq_refl|]; intros ?). cbv zeta.
  assert (AE : forall ka v s l, peq (auth_encrypt C ka au an pr pt v s l) (auth_encrypt C' ka au an pr pt v s l)).
  { intros ka v s l1. unfold auth_encrypt. do 2 (apply peq_pbind; [apply peq_refl|]; intros ?). destruct au.
    apply peq_pbind; [now apply wrap_pu_peq|]. intros t. destruct pr; [apply wrap_anon_peq|apply peq_refl]. }
  apply peq_pbind; [|intros; apply peq_refl]. destruct (vm_key_alg _); try apply peq_refl; apply AE.
Qed.
Lemma wrap_loop_peq headers alg hops : forall msg, peq (wrap_loop C msg headers hops alg) (wrap_loop C' msg headers hops alg).
Proof.
  induction hops as [|[to next] hops IH]; intros msg; cbn [wrap_loop]; [apply peq_refl|]. apply peq_pbind; [apply peq_refl|]. intros t.
  apply peq_pbind; [apply wrap_anoncrypt_peq|]. intros [x l]. apply IH.
Qed.
Lemma wrap_in_forward_peq msg headers to keys alg : peq (wrap_in_forward C msg headers to keys alg) (wrap_in_forward C' msg headers to keys alg).
Proof. unfold wrap_in_forward. destruct keys; [apply peq_refl|]. apply wrap_loop_peq. Qed.
Lemma wrap_needed_peq msg to o : peq (wrap_if_needed C msg to o) (wrap_if_needed C' msg to o).
Proof.
  unfold wrap_if_needed. cbv zeta. destruct (negb (po_forward o)); [apply peq_refl|]. apply peq_pbind; [apply peq_refl|]. intros chain.
  destruct chain as [|s rest]; [apply peq_refl|]. destruct (_ ++ _); [apply peq_refl|]. apply peq_pbind; [apply wrap_in_forward_peq|]. intros; apply peq_refl.
Qed.
Lemma wrapping_inputs m to from sb o : (forall t, t = plain_text m \/ (exists kid a sg, alg_name a /\ t = jws_text (plain_text m) kid a sg) -> pu_agrees C w t) ->
  peq (pack_encrypted C m to from sb o) (pack_encrypted C' m to from sb o).
Proof.
  intros H. unfold pack_encrypted. apply peq_pbind; [apply peq_refl|]. intros _. apply peq_pbind_in. intros tr [msg sk] W.
  assert (S : pu_agrees C w msg).
  { apply H. destruct sb as [s|].
    - apply exec_pbind_Ok in W as (? & ? & [t kid] & _ & W & [_ W']). apply Ok_inj in W'. injection W' as -> ->. apply signed_written in W as (? & ? & ? & ? & a & sg & _ & _ & SW & _ & ->).
      right. exists kid, a, sg. split; [|reflexivity]. destruct SW; constructor.
    - apply exec_pbind_Ok in W as (? & ? & t & _ & W & [_ W']). apply Ok_inj in W'. injection W' as -> ->. left. rewrite <- message_written.
      unfold pack_plaintext in W. step W. step W. destruct W as [_ W]. apply Ok_inj in W. exact W. }
  cbv beta iota. apply peq_pbind.
  - destruct from as [f|]; (apply peq_pbind; [|intros; apply peq_refl]); [now apply wrap_authcrypt_peq|apply wrap_anoncrypt_peq].
  - intros [[t fk] kids]. cbv beta iota. apply peq_pbind; [apply wrap_needed_peq|]. intros; apply peq_refl.
Qed.
End Pack.
End Wraps.
