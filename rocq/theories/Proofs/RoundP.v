(** Unpacking what was packed. *)
From Verif.Model Require Import Prelude Utf8 Base64 Json Serde DidDoc Crypto Keys Effects Jws Jwe Message FromPrior Pack Routing Unpack.
From Verif.Spec Require Import Small Codec Events World.
From Verif.Proofs Require Import Lib Base64P JsonP SerdeP CodecP SmallP Wp Errs NoPanic UnpackInv TreeP WorldP SealP.

(** ** Programs whose answers are known *)
Lemma safe_ret {X Y} A r (a : X) (f : X -> prog (res Y)) Q : r = Ok a -> safe A (f a) Q -> safe A (pbind (Ret r) f) Q.
Proof. intros ->. auto. Qed.
Lemma safe_then {X Y} A m (a : X) (f : X -> prog (res Y)) Q :
  safe A m (fun r => r = Ok a) -> safe A (f a) Q -> safe A (pbind m f) Q.
Proof. intros M F. eapply safe_bind; [exact M|]. intros r ->. exact F. Qed.
Lemma safe_mono {X} A (m : prog X) (P Q : X -> Prop) : (forall x, P x -> Q x) -> safe A m P -> safe A m Q.
Proof. intros H. induction m; cbn; auto. Qed.
Lemma safe_weaken {X} (A A' : event -> Prop) (m : prog X) (Q : X -> Prop) :
  (forall e, A' e -> A e) -> safe A m Q -> safe A' m Q.
Proof. intros H. induction m; cbn; auto. Qed.

Section World.
Context (dir : bytes -> option diddoc).
Lemma safe_resolve {Y} own did (f : option diddoc -> prog (res Y)) Q :
  safe (answers dir own) (f (dir did)) Q -> safe (answers dir own) (pbind (resolve did) f) Q.
Proof. intros H r A. cbn in A. subst r. exact H. Qed.
Lemma safe_kresolve {Y} own e did (f : option diddoc -> prog (res Y)) Q :
  safe (answers dir own) (f (dir did)) Q -> safe (answers dir own) (pbind (pkind e (resolve did)) f) Q.
Proof. intros H r A. cbn in A. subst r. exact H. Qed.
Lemma safe_get {Y} own i (f : option secret -> prog (res Y)) Q :
  safe (answers dir own) (f (own i)) Q -> safe (answers dir own) (pbind (get_secret i) f) Q.
Proof. intros H r A. cbn in A. subst r. exact H. Qed.
Lemma safe_find {Y} own ids (f : list bytes -> prog (res Y)) Q :
  (forall found, (forall i, In i found <-> In i ids /\ exists s, own i = Some s) -> safe (answers dir own) (f found) Q) ->
  safe (answers dir own) (pbind (find_secrets ids) f) Q.
Proof. intros H r A. cbn in A. destruct A as (found & -> & A). apply H, A. Qed.

(** Programs that only resolve DIDs behave the same for everybody. *)
Fixpoint only_resolves {X} (m : prog X) : Prop :=
  match m with
  | Ret _ => True
  | Do (OResolve d) k => forall r, only_resolves (k r)
  | Do _ _ => False
  end.
Lemma only_resolves_bind {X Y} (m : prog X) (f : X -> prog Y) :
  only_resolves m -> (forall x, only_resolves (f x)) -> only_resolves (bind m f).
Proof. intros H F. induction m as [x|[] k IH]; cbn in *; auto. Qed.
Lemma only_resolves_pbind {X Y} (m : prog (res X)) (f : X -> prog (res Y)) :
  only_resolves m -> (forall x, only_resolves (f x)) -> only_resolves (pbind m f).
Proof. intros H F. apply only_resolves_bind; auto. intros [|k|]; cbn; auto. Qed.
Lemma only_resolves_safe {X} (m : prog X) own own' : only_resolves m -> forall tr x, exec m tr x ->
  Forall (answers dir own) tr -> safe (answers dir own') m (fun y => y = x).
Proof.
  induction m as [y|[did| | |] k IH]; cbn; try tauto; intros O tr x E F.
  - destruct E as [_ ->]. reflexivity.
  - destruct E as (r & tr' & -> & E). inversion F as [|? ? F0 F1]; subst. cbn in F0. subst r.
    intros r A. subst r. eapply IH; eauto.
Qed.
Lemma from_prior_resolves C jwt : only_resolves (from_prior_unpack C jwt).
Proof.
  unfold from_prior_unpack. cbv zeta. apply only_resolves_pbind; [exact I|]. intros pc. destruct (negb _); [exact I|].
  destruct (did_or_url _) as [did url]. destruct (negb _); [exact I|].
  apply only_resolves_pbind; [cbn; auto|]. intros doc.
  do 6 (apply only_resolves_pbind; [exact I|]; intros ?). destruct (negb _); [exact I|].
  apply only_resolves_pbind; [exact I|]. intros pl. destruct (negb _); [exact I|].
  apply only_resolves_pbind; [exact I|]. intros fp. exact I.
Qed.
End World.

Section Round.
Context (C : crypto) (pair : kalg -> key C -> key C -> Prop) (LAW : lawful C pair).
Context (dir : bytes -> option diddoc).

(** ** Plaintext *)
Definition with_prior (prior : option (from_prior * bytes)) (md : unpack_metadata) : unpack_metadata :=
  match prior with None => md | Some (p, k) => md_prior p k md end.
(** Everybody verifies the rotation in [m] as [prior]. *)
Definition carried (m : message) (prior : option (from_prior * bytes)) : Prop :=
  match msg_from_prior m, prior with
  | None, None => True
  | Some jwt, Some pk => forall own', safe (answers dir own') (from_prior_unpack C jwt) (fun r => r = Ok pk)
  | _, _ => False
  end.
Lemma pack_plaintext_Ok own m tr text : exec (pack_plaintext C m) tr (Ok text) -> Forall (answers dir own) tr ->
  text = message_text m /\ exists prior, rotation_of C tr m prior /\ carried m prior.
Proof.
  unfold pack_plaintext, rotation_of, carried. intros H F. step H. step H. step H. ok. split; [congruence|].
  rewrite app_nil_r. destruct (msg_from_prior m) as [jwt|].
  - step K. step K. ok. rewrite app_nil_r in F |- *. destruct a1 as [p kid]. exists (Some (p, kid)). split.
    + exists jwt. split; auto. eapply from_prior_unpack_Ok; eauto.
    + intros own'. rewrite app_nil_r in F. eapply only_resolves_safe; eauto. apply from_prior_resolves.
  - exists None. auto.
Qed.

Lemma plaintext_stage own m prior md : message_fits C m -> carried m prior ->
  safe (answers dir own) (try_plaintext C (message_text m) md) (fun r => r = Ok (Some (m, with_prior prior md))).
Proof.
  intros F R. unfold try_plaintext. rewrite message_reads by auto. eapply safe_ret; [reflexivity|]. cbv beta iota.
  eapply safe_ret.
  { unfold msg_validate. destruct F as (_ & T & _). rewrite T. reflexivity. }
  cbv beta. unfold carried in R. destruct (msg_from_prior m) as [jwt|], prior as [[p k]|]; try tauto; [|reflexivity].
  eapply safe_then; [apply R|]. reflexivity.
Qed.

(** ** The inside of an envelope *)
(** After any authcrypt layer: [text] is unpacked to [m], with metadata [f md]. *)
Record inner (own : bytes -> option secret) (text : bytes) (m : message) (f : unpack_metadata -> unpack_metadata) : Prop := {
  in_jwe : jwe_from_str text = Err Malformed;
  in_utf8 : utf8 text = true;
  in_rest : forall md, safe (answers dir own)
    (let! s := try_sign C text md in
     let (msg, md) := match s with Some (m, d) => (m, d) | None => (text, md) end in
     let! p := try_plaintext C msg md in
     Ret (ok_or Malformed p)) (fun r => r = Ok (m, f md)) }.

Lemma inner_plain own m prior : message_fits C m -> carried m prior -> inner own (message_text m) m (with_prior prior).
Proof.
  intros F R. split; [eapply message_not_jwe; eauto|eapply message_utf8; eauto|].
  intros md. eapply (safe_then _ _ None).
  { unfold try_sign. rewrite (message_not_jws C m) by auto. reflexivity. }
  cbv beta iota zeta. eapply safe_then; [eapply plaintext_stage; eauto|]. reflexivity.
Qed.

Lemma publishes_find rel doc kid a p : publishes C rel doc kid a p ->
  exists vm, find_first (fun k => beq k kid) (rel doc) = Some kid
    /\ find_first (fun vm => beq (vm_id vm) kid) (doc_verification_method doc) = Some vm /\ vm_key_pair C vm = Ok (a, p).
Proof.
  intros (I & vm & F & K). exists vm. split; [now apply find_first_beq|]. split; auto.
  apply find_first_first. revert F. apply first_with_ext. intros; symmetry; apply beq_eq.
Qed.
Lemma vm_key_pair_alg vm a k : vm_key_pair C vm = Ok (a, k) -> vm_key_alg vm = a.
Proof.
  unfold vm_key_pair, vm_key_alg, key_alg, jwk_key. intros H.
  destruct (vm_type vm), (vm_material vm); try discriminate H.
  - destruct (jwk_alg _); try discriminate H; destruct (from_jwk _ _ _); try discriminate H; cbn in H; congruence.
  - apply rbind_Ok in H as (d & _ & H). destruct (from_jwk _ _ _); cbn in H; congruence.
  - apply rbind_Ok in H as (d & _ & H). destruct (from_jwk _ _ _); cbn in H; congruence.
  - apply rbind_Ok in H as (d & _ & H). destruct (from_jwk _ _ _); cbn in H; congruence.
  - apply rbind_Ok in H as (d & _ & H). destruct (from_jwk _ _ _); cbn in H; congruence.
Qed.
Lemma vm_as_pair vm a k : vm_key_pair C vm = Ok (a, k) -> vm_as C a vm = Ok k.
Proof.
  intros H. unfold vm_as, as_alg. rewrite (vm_key_pair_alg _ _ _ H), H. cbn [rbind].
  assert (E : kalg_eqb a a = true) by now apply kalg_eqb_eq. now rewrite !E.
Qed.
Lemma sign_alg_row a alg : sign_alg_of a = Ok alg -> exists st sa, alg_row alg a st sa.
Proof. unfold alg_row. destruct a; cbn; intros H; try discriminate H; injection H as <-; eauto. Qed.
Lemma alg_row_verify alg a st sa : alg_row alg a st sa -> verify_alg_of alg = Ok a /\ sign_alg_md alg = Ok sa /\ sign_alg_of a = Ok alg.
Proof. unfold alg_row. intros [E|[E|E]]; injection E as -> -> -> ->; auto. Qed.

Lemma pack_signed_Ok own m sign_by tr text kid : exec (pack_signed C m sign_by) tr (Ok (text, kid)) ->
  Forall (answers dir own) tr ->
  exists did doc sec a k alg tr0, dir did = Some doc /\ In kid (doc_authentication doc) /\ own kid = Some sec
    /\ sec_key_pair C sec = Ok (a, k) /\ sign_alg_of a = Ok alg /\ incl tr0 tr /\ Forall (answers dir own) tr0
    /\ exec (pack_plaintext C m) tr0 (Ok (message_text m)) /\ jws_sign C (message_text m) kid a k alg = Ok text.
Proof.
  unfold pack_signed. intros H F. step H; [|destruct H; discriminate]. destruct (did_or_url sign_by) as [did key_id] eqn:D.
  step H. step H. step H. step H. step H. step H. step H. step H. destruct a6 as [a6 k]. step H. step H. step H. step H. ok.
  rewrite app_nil_r in *. inversion F as [|? ? F0 F1]; subst. inversion F1 as [|? ? F2 F3]; subst. inversion F3 as [|? ? F4 F5]; subst.
  cbn in F0, F2, F4. destruct F2 as (found & E' & F2). injection E' as ->.
  assert (a7 = message_text m) by (eapply pack_plaintext_Ok; eauto). subst a7.
  exists did, a0, a5, a6, k, a8, t0. split; [symmetry; apply Ok_inj; exact F0|].
  assert (I : In a3 a1).
  { destruct found; [discriminate|]. cbn in E2. injection E2 as ->. apply (proj1 (F2 a3)). now left. }
  split.
  { destruct key_id as [kid|]; [|apply Ok_inj in E1; now rewrite E1].
    apply rbind_Ok in E1 as (x & E1 & E1'). apply Ok_inj in E1'. subst a1. apply ok_or_Ok in E1. apply find_first_some in E1 as [E1 E1'].
    apply beq_eq in E1'. subst x. destruct I as [<-|[]]. exact E1. }
  split; [symmetry; apply Ok_inj; exact F4|]. split; [exact E4|]. split; [exact E5|]. split; [|split; [exact F5|split; [exact K|exact E6]]].
  intros e He. do 3 right. exact He.
Qed.

Lemma rotation_of_incl tr tr' m prior : incl tr tr' -> rotation_of C tr m prior -> rotation_of C tr' m prior.
Proof. unfold rotation_of. destruct prior as [[p k]|]; auto. intros I (jwt & E & R). exists jwt. split; auto. eapply rotation_by_incl; eauto. Qed.

Lemma signature_of_incl tr tr' m by_ sign : incl tr tr' -> signature_of C dir tr m by_ sign -> signature_of C dir tr' m by_ sign.
Proof.
  unfold signature_of. destruct by_, sign as [[[k sa] t]|]; auto. intros I [(tr0 & I0 & E) H]. split; auto. exists tr0. split; auto.
  eapply incl_tran; eauto.
Qed.

(** What packing a signed message gives everybody. *)
Lemma pack_signed_inner own m sign_by tr text kid : secrets_match C pair dir own -> message_fits C m ->
  exec (pack_signed C m sign_by) tr (Ok (text, kid)) -> Forall (answers dir own) tr -> known dir doc_authentication kid ->
  exists prior sa did doc alg ka k st, rotation_of C tr m prior
    /\ url_of did kid /\ dir did = Some doc /\ publishes C doc_authentication doc kid ka k /\ alg_row alg ka st sa
    /\ message_from_str (fparse C) text = Err Malformed
    /\ forall own', inner own' text m (fun md => with_prior prior (md_sign sa kid text md)).
Proof.
  intros SM MF H F (KID & did & doc & URL & RD & I).
  destruct (pack_signed_Ok _ _ _ _ _ _ H F) as (_ & _ & sec & a & k & alg & tr0 & _ & _ & OW & SK & SA & IN & F0 & PP & JS).
  destruct (SM did doc kid sec doc_authentication (or_intror eq_refl) RD I OW) as (a' & p & s & PU & SK' & PR).
  rewrite SK in SK'. apply Ok_inj in SK'. injection SK' as <- <-.
  destruct (sign_alg_row _ _ SA) as (st & sa & ROW). destruct (alg_row_verify _ _ _ _ ROW) as (VA & SMD & _).
  pose proof (key_id_plain _ KID) as NM.
  destruct (pack_plaintext_Ok _ _ _ _ PP F0) as (_ & prior & RO & CA).
  destruct (jws_sign_reads C pair LAW _ _ _ _ _ _ _ _ _ JS NM PR ROW) as (j & sg & h & TX & PJ & RDJ & PAJ & SGS & SKD & HA & VE & PL).
  exists prior, sa, did, doc, alg, a, p, st. split; [eapply rotation_of_incl; eauto|]. split; [exact URL|]. split; [exact RD|]. split; [exact PU|].
  split; [exact ROW|]. split; [subst text; now apply jws_not_message|].
  intros own'. split; [subst text; now apply jws_not_jwe|subst text; now apply utf8_print|].
  intros md. eapply (safe_then _ _ (Some (message_text m, md_sign sa kid text md))).
  - unfold try_sign. rewrite RDJ. eapply safe_ret; [reflexivity|]. cbv beta iota. eapply safe_ret; [exact PAJ|]. cbv beta. cbn [snd].
    rewrite SGS. rewrite SKD. apply url_of_some in URL. cbv zeta. rewrite URL. cbn [is_some negb]. apply safe_resolve. rewrite RD.
    destruct (publishes_find _ _ _ _ _ PU) as (vm & F1 & F2 & VK).
    eapply safe_ret; [reflexivity|]. cbv beta. eapply safe_ret; [rewrite F1; reflexivity|]. cbv beta. eapply safe_ret; [rewrite F2; reflexivity|]. cbv beta.
    rewrite HA. eapply safe_ret; [exact VA|]. cbv beta. eapply safe_ret; [exact SMD|]. cbv beta.
    eapply safe_ret; [apply vm_as_pair; exact VK|]. cbv beta. eapply safe_ret; [exact VE|]. cbv beta. cbn [negb].
    rewrite PL, b64_roundtrip. eapply safe_ret; [reflexivity|]. cbv beta. rewrite (message_utf8 C m MF). reflexivity.
  - cbv beta iota zeta. eapply safe_then; [eapply plaintext_stage; eauto|]. reflexivity.
Qed.

(** ** Unpacking without encryption *)
Lemma unpack_inner own fuel o text m f : inner own text m f ->
  safe (answers dir own) (unpack C (S fuel) text o) (fun x => x = Some (Ok (m, f um_init))).
Proof.
  intros N. unfold unpack. cbn [unpack_loop]. eapply (safe_bind _ _ _ _ (fun r => r = Ok None)).
  { unfold try_anoncrypt. rewrite (in_jwe _ _ _ _ N). reflexivity. }
  intros r ->. cbv iota. eapply safe_bind.
  { unfold unpack_rest. eapply (safe_then _ _ None).
    - unfold try_authcrypt. rewrite (in_jwe _ _ _ _ N). reflexivity.
    - cbv beta iota zeta. apply (in_rest _ _ _ _ N). }
  intros r ->. reflexivity.
Qed.

(** ** Opening an envelope *)
Lemma open_loop_safe {A} own all (open : bytes -> kalg -> key C -> res A) (a : A) found : forall last,
  (forall kid, In kid found -> exists sec ka k, own kid = Some sec /\ sec_key_pair C sec = Ok (ka, k) /\ open kid ka k = Ok a) ->
  (found <> [] \/ last = Some a) ->
  safe (answers dir own) (open_loop C all open found last) (fun r => r = Ok a).
Proof.
  induction found as [|kid found IH]; intros last H N; cbn [open_loop].
  - destruct N as [N| ->]; [congruence|]. reflexivity.
  - destruct (H kid (or_introl eq_refl)) as (sec & ka & k & O & SK & OP). apply safe_get. rewrite O.
    eapply safe_ret; [reflexivity|]. cbv beta. eapply safe_ret; [exact SK|]. cbv beta iota. eapply safe_ret; [exact OP|]. cbv beta.
    destruct all; [|reflexivity]. apply IH; auto. intros; apply H; now right.
Qed.

Lemma publishes_fun rel doc kid a p a' p' : publishes C rel doc kid a p -> publishes C rel doc kid a' p' -> a = a' /\ p = p'.
Proof.
  intros H H'. apply publishes_find in H as (vm & _ & F & K). apply publishes_find in H' as (vm' & _ & F' & K').
  rewrite F in F'. injection F' as <-. rewrite K in K'. apply Ok_inj in K'. injection K' as -> ->. auto.
Qed.

(** Recipient keys taken from the keyAgreement keys of [did]. *)
Record recipients (did : bytes) (doc : diddoc) (ka : kalg) (rs : list (bytes * key C)) : Prop := {
  rp_dir : dir did = Some doc;
  rp_curve : ka = KX25519 \/ ka = KP256;
  rp_pub : forall kid k, In (kid, k) rs -> publishes C doc_key_agreement doc kid ka k }.

Lemma together_named kids : together kids -> Forall named kids.
Proof. intros (did & T). eapply Forall_impl; [|exact T]. intros kid [_ K]. now apply key_id_plain. Qed.
Lemma together_one_did kids : together kids -> kids <> [] -> one_did kids.
Proof. intros (did & T) N. split; auto. exists did. eapply Forall_impl; [|exact T]. now intros kid [U _]. Qed.
Lemma recipients_secret own did doc ka rs kid sec : secrets_match C pair dir own -> recipients did doc ka rs ->
  In kid (map fst rs) -> own kid = Some sec ->
  exists s, sec_key_pair C sec = Ok (ka, s) /\ forall k, In (kid, k) rs -> pair ka k s.
Proof.
  intros SM R I O. apply in_map_iff in I as ([kid' k] & E & I). cbn in E. subst kid'.
  pose proof (rp_pub _ _ _ _ R _ _ I) as PU.
  destruct (SM did doc kid sec doc_key_agreement (or_introl eq_refl) (rp_dir _ _ _ _ R) (proj1 PU) O) as (a & p & s & PU' & SK & PR).
  destruct (publishes_fun _ _ _ _ _ _ _ PU PU') as [<- <-]. exists s. split; auto. intros k' I'.
  destruct (publishes_fun _ _ _ _ _ _ _ PU (rp_pub _ _ _ _ R _ _ I')) as [_ <-]. exact PR.
Qed.


Lemma found_some own kids found : holds_one own kids -> (forall i, In i found <-> In i kids /\ exists s, own i = Some s) -> found <> [].
Proof. intros (kid & sec & I & O) F ->. apply (F kid). eauto. Qed.

Lemma anon_stage_known own ce ka pt enc alg rs text j p o md did doc :
  sealed C pair ce KdfEs ka pt EcdhEsA256kw enc None rs text j p -> enc_of enc ce alg ->
  recipients did doc ka rs -> together (map fst rs) -> secrets_match C pair dir own -> holds_one own (map fst rs) -> utf8 pt = true ->
  safe (answers dir own) (try_anoncrypt C text o md) (fun r => r = Ok (Some (pt, md_anon (map fst rs) alg md))).
Proof.
  intros S EN R TO SM HO U. unfold try_anoncrypt. rewrite (sl_read _ _ _ _ _ _ _ _ _ _ _ _ _ S).
  eapply safe_ret; [reflexivity|]. cbv beta iota. eapply safe_ret; [apply (sl_parse _ _ _ _ _ _ _ _ _ _ _ _ _ S)|]. cbv beta.
  rewrite (sl_alg _ _ _ _ _ _ _ _ _ _ _ _ _ S). eapply safe_ret; [apply (sl_verify _ _ _ _ _ _ _ _ _ _ _ _ _ S)|]. cbv beta zeta.
  rewrite (sl_kids _ _ _ _ _ _ _ _ _ _ _ _ _ S). eapply safe_ret.
  { apply check_recipients_spec. apply together_one_did; [exact TO|]. destruct HO as (k & _ & I & _). intros E. now rewrite E in I. }
  cbv beta. apply safe_find. intros found F. pose proof (found_some _ _ _ HO F) as NE. destruct found as [|k0 found]; [congruence|].
  eapply (safe_then _ _ (pt, alg)).
  - apply open_loop_safe; auto. intros kid I. apply F in I as (I & sec & O).
    destruct (recipients_secret _ _ _ _ _ _ _ SM R I O) as (s & SK & PR). exists sec, ka, s. split; auto. split; auto.
    unfold anon_open. rewrite (sl_enc _ _ _ _ _ _ _ _ _ _ _ _ _ S), (proj2 (anon_cenc_Ok _ _ _) EN). cbn [rbind].
    rewrite (sl_open _ _ _ _ _ _ _ _ _ _ _ _ _ S kid s None I PR) by now split. destruct (rp_curve _ _ _ _ R); subst; reflexivity.
  - cbv iota. rewrite U. reflexivity.
Qed.

Lemma anon_skip own ce d ka pt alg enc sender rs text j p o md :
  sealed C pair ce d ka pt alg enc sender rs text j p -> alg <> EcdhEsA256kw ->
  safe (answers dir own) (try_anoncrypt C text o md) (fun r => r = Ok None).
Proof.
  intros S N. unfold try_anoncrypt. rewrite (sl_read _ _ _ _ _ _ _ _ _ _ _ _ _ S).
  eapply safe_ret; [reflexivity|]. cbv beta iota. eapply safe_ret; [apply (sl_parse _ _ _ _ _ _ _ _ _ _ _ _ _ S)|]. cbv beta.
  rewrite (sl_alg _ _ _ _ _ _ _ _ _ _ _ _ _ S). destruct alg; try congruence; reflexivity.
Qed.

(** The sender key [from], published by [fdid], with secret [sk]. *)
Definition sender_key (fdid : bytes) (fdoc : diddoc) (ka : kalg) (from : bytes) (sk : key C) : Prop :=
  dir fdid = Some fdoc /\ exists pk, publishes C doc_key_agreement fdoc from ka pk /\ pair ka pk sk.

Lemma auth_stage_known own ka pt from sk rs text j p o md did doc fdid fdoc :
  sealed C pair CA256CbcHs512 Kdf1pu ka pt Ecdh1puA256kw A256cbcHs512 (Some (from, sk)) rs text j p ->
  sender_key fdid fdoc ka from sk -> url_of fdid from -> key_id_ok from ->
  recipients did doc ka rs -> together (map fst rs) -> secrets_match C pair dir own -> holds_one own (map fst rs) -> utf8 pt = true ->
  safe (answers dir own) (try_authcrypt C text o md) (fun r => r = Ok (Some (pt, md_auth (map fst rs) from md))).
Proof.
  intros S (FD & pk & PU & PA) URL KID R TO SM HO U. unfold try_authcrypt. rewrite (sl_read _ _ _ _ _ _ _ _ _ _ _ _ _ S).
  eapply safe_ret; [reflexivity|]. cbv beta iota. eapply safe_ret; [apply (sl_parse _ _ _ _ _ _ _ _ _ _ _ _ _ S)|]. cbv beta.
  rewrite (sl_alg _ _ _ _ _ _ _ _ _ _ _ _ _ S). eapply safe_ret; [apply (sl_verify _ _ _ _ _ _ _ _ _ _ _ _ _ S)|]. cbv beta.
  rewrite (sl_apu _ _ _ _ _ _ _ _ _ _ _ _ _ S). eapply safe_ret; [reflexivity|]. cbv beta. cbn [fst].
  rewrite (proj1 KID). cbn [negb].
  apply url_of_some in URL. rewrite URL. cbn [is_some negb]. apply safe_kresolve. rewrite FD. eapply safe_ret; [reflexivity|]. cbv beta.
  destruct (publishes_find _ _ _ _ _ PU) as (vm & F1 & F2 & VK).
  eapply safe_ret; [rewrite F1; reflexivity|]. cbv beta. eapply safe_ret; [rewrite F2; reflexivity|]. cbv beta.
  eapply safe_ret; [exact VK|]. cbv beta zeta. rewrite (sl_kids _ _ _ _ _ _ _ _ _ _ _ _ _ S). eapply safe_ret.
  { apply check_recipients_spec. apply together_one_did; [exact TO|]. destruct HO as (k & _ & I & _). intros E. now rewrite E in I. }
  cbv beta. apply safe_find. intros found F. pose proof (found_some _ _ _ HO F) as NE. destruct found as [|k0 found]; [congruence|].
  eapply (safe_then _ _ pt).
  - apply open_loop_safe; auto. intros kid I. apply F in I as (I & sec & O).
    destruct (recipients_secret _ _ _ _ _ _ _ SM R I O) as (s & SK & PR). exists sec, ka, s. split; auto. split; auto.
    assert (OP : jwe_decrypt C CA256CbcHs512 Kdf1pu ka p (Some (from, pk)) kid s = Ok pt).
    { apply (sl_open _ _ _ _ _ _ _ _ _ _ _ _ _ S kid s _ I PR). cbn. eauto 8. }
    unfold auth_open. cbn [fst snd]. rewrite (sl_enc _ _ _ _ _ _ _ _ _ _ _ _ _ S).
    destruct (rp_curve _ _ _ _ R); subst; exact OP.
  - cbv beta. rewrite U. reflexivity.
Qed.

(** ** What encrypting did *)
Lemma find_vm_Ok e doc kid vm : find_vm e doc kid = Ok vm ->
  first_with (fun v => vm_id v = kid) (doc_verification_method doc) vm.
Proof. unfold find_vm. intros H. apply ok_or_Ok in H. apply find_first_first in H. revert H. apply first_with_ext. intros; apply beq_eq. Qed.
Lemma select_kids_In kid l x : In x (select_kids kid l) -> In x l.
Proof. unfold select_kids. intros H. apply filter_In in H. apply H. Qed.
Lemma Forall2_In_r {X Y} (P : X -> Y -> Prop) l l' y : Forall2 P l l' -> In y l' -> exists x, In x l /\ P x y.
Proof. induction 1 as [|a b l l' H F IH]; cbn; [tauto|]. intros [<-|I]; [eauto|]. destruct (IH I) as (x & ? & ?); eauto. Qed.
Lemma rs_recipients did doc ka e kids keys rs (f : verification_method -> bool) : dir did = Some doc -> (ka = KX25519 \/ ka = KP256) ->
  (forall x, In x kids -> In x (doc_key_agreement doc)) ->
  rmap (find_vm e doc) kids = Ok keys -> rmap (vm_recipient C ka) (filter f keys) = Ok rs ->
  recipients did doc ka rs /\ map fst rs = map vm_id (filter f keys).
Proof.
  intros D CU IN K R. apply rmap_Ok in K, R. split.
  - split; auto. intros kid k I. destruct (Forall2_In_r _ _ _ _ R I) as (vm & IV & V). unfold vm_recipient in V.
    apply rbind_Ok in V as (k' & V & V'). apply Ok_inj in V'. injection V' as <- <-. apply filter_In in IV as [IV _].
    destruct (Forall2_In_r _ _ _ _ K IV) as (kid & IK & FV). apply find_vm_Ok in FV.
    assert (vm_id vm = kid) by (destruct FV as (l1 & l2 & _ & E & _); exact E). split; [rewrite H; auto|].
    exists vm. split; [rewrite H; exact FV|now apply vm_as_Ok].
  - clear -R. induction R as [|vm [kid k] l rs V F IH]; cbn [map fst]; auto. unfold vm_recipient in V.
    apply rbind_Ok in V as (k' & _ & V'). apply Ok_inj in V'. injection V' as <- <-. now rewrite IH.
Qed.

Lemma anoncrypt_Ok own to msg alg tr text kids : exec (anoncrypt C to msg alg) tr (Ok (text, kids)) -> Forall (answers dir own) tr ->
  exists did doc ka rs tr0, (exists u, did_or_url to = (did, u)) /\ recipients did doc ka rs /\ kids = map fst rs
    /\ exec (anon_encrypt C ka alg msg rs) tr0 (Ok text).
Proof.
  unfold anoncrypt. destruct (did_or_url to) as [did kid]. intros H F. step H. step H. cbv zeta in H.
  destruct (select_kids kid (doc_key_agreement a0)) as [|k0 ks] eqn:SK; [destruct H; discriminate|]. rewrite <- SK in *.
  step H. step H. step H. step H. inversion F as [|? ? F0 F1]; subst. cbn in F0. ok.
  assert (CU : a2 = KX25519 \/ a2 = KP256) by (destruct a2; auto; destruct K; discriminate).
  assert (K' : exists rs t0, rmap (vm_recipient C a2) (filter (fun vm => kalg_eqb (vm_key_alg vm) a2) a1) = Ok rs
     /\ exec (anon_encrypt C a2 alg msg rs) t0 (Ok a3)).
  { destruct CU; subst a2; step K; eauto. }
  clear K. destruct K' as (rs & t' & RS & K).
  destruct (rs_recipients did a0 a2 _ _ _ _ _ (eq_sym F0) CU (select_kids_In _ _) E0 RS) as [R M].
  exists did, a0, a2, rs, t'. split; [eauto|]. split; [exact R|]. split; [symmetry; exact M|]. exact K.
Qed.

Lemma anon_encrypt_sealed_known ka alg msg rs tr text : exec (anon_encrypt C ka alg msg rs) tr (Ok text) -> Forall named (map fst rs) ->
  exists ce enc j p, enc_of enc ce alg /\ sealed C pair ce KdfEs ka msg EcdhEsA256kw enc None rs text j p.
Proof.
  intros H N. unfold anon_encrypt in H.
  destruct alg; apply (jwe_encrypt_sealed C pair LAW) in H; try discriminate; auto; destruct H as (j & p & S);
    do 4 eexists; (split; [|exact S]); unfold enc_of; auto.
Qed.

Lemma authcrypt_Ok_held own to from msg au an protect tr text fk kids : secrets_match C pair dir own ->
  exec (authcrypt C to from msg au an protect) tr (Ok (text, fk, kids)) -> Forall (answers dir own) tr ->
  exists did doc fdid fdoc ka rs sk t1 tr1, (exists u, did_or_url to = (did, u)) /\ (exists u, did_or_url from = (fdid, u))
    /\ recipients did doc ka rs /\ kids = map fst rs
    /\ sender_key fdid fdoc ka fk sk
    /\ exec (jwe_encrypt C CA256CbcHs512 Kdf1pu ka msg Ecdh1puA256kw A256cbcHs512 (Some (fk, sk)) rs) tr1 (Ok t1)
    /\ (if protect then exists tr2, exec (anon_encrypt C ka an t1 rs) tr2 (Ok text) else text = t1)
    /\ incl tr1 tr /\ exists sec, own fk = Some sec /\ sec_key_pair C sec = Ok (ka, sk).
Proof.
  intros SM H F. unfold authcrypt in H. destruct (did_or_url to) as [did kid]. step H. step H. destruct (did_or_url from) as [fdid fkid].
  step H. step H. destruct (select_kids fkid (doc_key_agreement a2)) as [|k0 ks] eqn:SF; [destruct H; discriminate|]. rewrite <- SF in *.
  step H. destruct a3 as [|k1 a3]; [destruct H; discriminate|]. step H.
  destruct (select_kids kid (doc_key_agreement a0)) as [|k2 ks2] eqn:ST; [destruct H; discriminate|]. rewrite <- ST in *.
  step H. step H. step H. step H. cbv zeta in H. step H. step H. ok.
  rewrite app_nil_r in F. inversion F as [|? ? F0 F']; subst. inversion F' as [|? ? F1 F'']; subst. inversion F'' as [|? ? F2 F''']; subst.
  inversion F''' as [|? ? F3 F4]; subst. cbn in F0, F1, F2, F3. apply Ok_inj in F0, F1, F3. destruct F2 as (found & FE & F2). apply Ok_inj in FE. subst found.
  set (ka := vm_key_alg a6) in *.
  assert (CU : ka = KX25519 \/ ka = KP256) by (destruct ka; auto; destruct K; discriminate).
  assert (K' : exec (auth_encrypt C ka au an protect msg a6 a8 (filter (fun t => kalg_eqb (vm_key_alg t) ka) a5)) t (Ok a9)) by (destruct CU as [X|X]; rewrite X in K |- *; exact K).
  clear K. unfold auth_encrypt in K'. step K'. step K'. step K'. rename a into rs, E into RS, a1 into sk, E0 into SS.
  destruct (rs_recipients did a0 ka _ _ _ _ _ (eq_sym F0) CU (select_kids_In _ _) E2 RS) as [R M].
  apply find_first_some in E3 as [I6 _]. apply filter_In in I6 as [I6 _]. apply rmap_Ok in E1.
  destruct (Forall2_In_r _ _ _ _ E1 I6) as (kid6 & IK & FV). apply find_vm_Ok in FV.
  assert (V6 : vm_id a6 = kid6) by (destruct FV as (l1 & l2 & _ & E & _); exact E).
  assert (IA : In (vm_id a6) (doc_key_agreement a2)) by (rewrite V6; apply F2 in IK as [IK _]; eapply select_kids_In; eauto).
  destruct (SM fdid a2 (vm_id a6) a8 doc_key_agreement (or_introl eq_refl) (eq_sym F1) IA (eq_sym F3)) as (a' & p & s & PU & SK & PR).
  unfold sec_as in SS. apply as_alg_Ok in SS as [_ SS]. rewrite SK in SS. apply Ok_inj in SS. injection SS as -> ->.
  exists did, a0, fdid, a2, ka, rs, sk. eexists _, _. split; [eauto|]. split; [eauto|]. split; [exact R|]. split; [symmetry; exact M|].
  split; [split; [symmetry; exact F1|]; exists p; auto|].
  destruct au. split; [exact K|]. split; [destruct protect; [eauto|]; destruct K' as [_ K']; apply Ok_inj in K'; exact K'|].
  split; [intros e I; rewrite ?in_app_iff; cbn [In]; rewrite ?in_app_iff; auto 10|]. exists a8. split; [symmetry; exact F3|exact SK].
Qed.
Lemma authcrypt_Ok own to from msg au an protect tr text fk kids : secrets_match C pair dir own ->
  exec (authcrypt C to from msg au an protect) tr (Ok (text, fk, kids)) -> Forall (answers dir own) tr ->
  exists did doc fdid fdoc ka rs sk t1 tr1, (exists u, did_or_url to = (did, u)) /\ (exists u, did_or_url from = (fdid, u))
    /\ recipients did doc ka rs /\ kids = map fst rs
    /\ sender_key fdid fdoc ka fk sk
    /\ exec (jwe_encrypt C CA256CbcHs512 Kdf1pu ka msg Ecdh1puA256kw A256cbcHs512 (Some (fk, sk)) rs) tr1 (Ok t1)
    /\ (if protect then exists tr2, exec (anon_encrypt C ka an t1 rs) tr2 (Ok text) else text = t1)
    /\ incl tr1 tr.
Proof.
  intros SM H F. destruct (authcrypt_Ok_held _ _ _ _ _ _ _ _ _ _ _ SM H F) as (did & doc & fdid & fdoc & ka & rs & sk & t1 & tr1 & ?).
  exists did, doc, fdid, fdoc, ka, rs, sk, t1, tr1. tauto.
Qed.

(** ** The whole *)
Lemma unwrap_kept own o m : message_fits C m -> kept dir own o m -> uo_unwrap o = true ->
  safe (answers dir own) (try_unwrap C (message_text m)) (fun r => r = Ok None).
Proof.
  intros F K U. unfold try_unwrap. rewrite message_reads by auto. eapply safe_ret; [reflexivity|]. cbv beta iota.
  unfold try_parse_forward. destruct (beq_spec (msg_type m) forward_type) as [T|T]; cbn [negb]; [|reflexivity].
  destruct (msg_body m) as [| | | | |body] eqn:MB; try reflexivity. destruct (amap_get (B "next") body) as [[| | |next| |]|] eqn:N; try reflexivity.
  destruct (msg_attachments m) as [[|a l]|]; try reflexivity. destruct (att_data a); try reflexivity.
  specialize (K U T body next MB N). cbn [pf_next pf_forwarded]. eapply (safe_then _ _ false); [|reflexivity].
  unfold has_secret. destruct K as [[(did & URL) O]|(NU & doc & D & O)].
  - apply url_of_some in URL. rewrite URL. eapply safe_ret; [reflexivity|]. cbv beta. apply safe_find. intros found FO.
    destruct found as [|k l']; [reflexivity|]. exfalso. destruct (proj1 (FO k) (or_introl eq_refl)) as ([<-|[]] & s & OS). congruence.
  - apply did_or_url_none in NU. rewrite NU. eapply (safe_then _ _ (doc_key_agreement doc)).
    { apply safe_resolve. rewrite D. eapply safe_ret; reflexivity. }
    cbv beta. apply safe_find. intros found FO. destruct found as [|k l']; [reflexivity|]. exfalso.
    destruct (proj1 (FO k) (or_introl eq_refl)) as (I & s & OS). rewrite (O k I) in OS. discriminate.
Qed.
Lemma unwrap_not_message own text : message_from_str (fparse C) text = Err Malformed ->
  safe (answers dir own) (try_unwrap C text) (fun r => r = Ok None).
Proof. intros E. unfold try_unwrap. rewrite E. reflexivity. Qed.

Lemma rest_inner own o text m f md : inner own text m f ->
  safe (answers dir own) (unpack_rest C text o md) (fun r => r = Ok (m, f md)).
Proof.
  intros N. unfold unpack_rest. eapply (safe_then _ _ None).
  - unfold try_authcrypt. rewrite (in_jwe _ _ _ _ N). reflexivity.
  - cbv beta iota zeta. apply (in_rest _ _ _ _ N).
Qed.
Lemma rest_auth own o text pt kids from m f md : 
  (forall md, safe (answers dir own) (try_authcrypt C text o md) (fun r => r = Ok (Some (pt, md_auth kids from md)))) ->
  inner own pt m f -> safe (answers dir own) (unpack_rest C text o md) (fun r => r = Ok (m, f (md_auth kids from md))).
Proof.
  intros A N. unfold unpack_rest. eapply safe_then; [apply A|]. cbv beta iota zeta. apply (in_rest _ _ _ _ N).
Qed.
Lemma unpack_anon own fuel o text pt kids alg m g :
  (forall md, safe (answers dir own) (try_anoncrypt C text o md) (fun r => r = Ok (Some (pt, md_anon kids alg md)))) ->
  (uo_unwrap o = true -> safe (answers dir own) (try_unwrap C pt) (fun r => r = Ok None)) ->
  (forall md, safe (answers dir own) (unpack_rest C pt o md) (fun r => r = Ok (m, g md))) ->
  safe (answers dir own) (unpack C (S fuel) text o) (fun x => x = Some (Ok (m, g (md_anon kids alg um_init)))).
Proof.
  intros A U R. unfold unpack. cbn [unpack_loop]. eapply safe_bind; [apply A|]. intros r ->. cbv iota.
  destruct (uo_unwrap o).
  - eapply safe_bind; [apply U; auto|]. intros r ->. eapply safe_bind; [apply R|]. intros r ->. reflexivity.
  - eapply safe_bind; [apply R|]. intros r ->. reflexivity.
Qed.
Lemma unpack_no_anon own fuel o text m g :
  (forall md, safe (answers dir own) (try_anoncrypt C text o md) (fun r => r = Ok None)) ->
  (forall md, safe (answers dir own) (unpack_rest C text o md) (fun r => r = Ok (m, g md))) ->
  safe (answers dir own) (unpack C (S fuel) text o) (fun x => x = Some (Ok (m, g um_init))).
Proof.
  intros A R. unfold unpack. cbn [unpack_loop]. eapply safe_bind; [apply A|]. intros r ->. cbv iota.
  eapply safe_bind; [apply R|]. intros r ->. reflexivity.
Qed.

(** ** C01 and C02 *)
Lemma plaintext_round own own' m tr text fuel o tr' x : message_fits C m ->
  exec (pack_plaintext C m) tr (Ok text) -> Forall (answers dir own) tr ->
  exec (unpack C (S fuel) text o) tr' x -> Forall (answers dir own') tr' ->
  exists prior, rotation_of C tr m prior /\ x = Some (Ok (m, metadata None None None prior)).
Proof.
  intros MF P F X F'. destruct (pack_plaintext_Ok _ _ _ _ P F) as (-> & prior & RO & CA). exists prior. split; auto.
  pose proof (safe_exec _ _ _ _ _ (unpack_inner own' fuel o _ _ _ (inner_plain own' m prior MF CA)) X F') as E. rewrite E.
  destruct prior as [[p k]|]; reflexivity.
Qed.
Lemma signed_round_known own own' m sign_by tr text kid fuel o tr' x : secrets_match C pair dir own -> message_fits C m ->
  exec (pack_signed C m sign_by) tr (Ok (text, kid)) -> Forall (answers dir own) tr -> known dir doc_authentication kid ->
  exec (unpack C (S fuel) text o) tr' x -> Forall (answers dir own') tr' ->
  exists prior sa, rotation_of C tr m prior /\ signature_of C dir tr m (Some sign_by) (Some (kid, sa, text))
    /\ x = Some (Ok (m, metadata None None (Some (kid, sa, text)) prior)).
Proof.
  intros SM MF P F KN X F'.
  destruct (pack_signed_inner _ _ _ _ _ _ SM MF P F KN) as (prior & sa & did & doc & alg & ka & k & st & RO & U & D & PU & ROW & _ & N).
  exists prior, sa. split; auto. split; [split; [exists tr; split; [apply incl_refl|exact P]|exists did, doc, alg, ka, k, st; auto]|].
  pose proof (safe_exec _ _ _ _ _ (unpack_inner own' fuel o _ _ _ (N own')) X F') as E. rewrite E.
  destruct prior as [[p k']|]; reflexivity.
Qed.

(** ** C03 and C04 *)
Definition sign_md (sign : option (bytes * sign_alg * bytes)) (md : unpack_metadata) : unpack_metadata :=
  match sign with None => md | Some (kid, sa, text) => md_sign sa kid text md end.
Lemma pack_inside own m sign_by tr msg skid : secrets_match C pair dir own -> message_fits C m ->
  exec (match sign_by with
        | Some s => let! (msg, kid) := pack_signed C m s in Ret (Ok (msg, Some kid))
        | None => let! msg := pack_plaintext C m in Ret (Ok (msg, None))
        end) tr (Ok (msg, skid)) -> Forall (answers dir own) tr -> (forall k, skid = Some k -> known dir doc_authentication k) ->
  exists prior sign, rotation_of C tr m prior /\ signature_of C dir tr m sign_by sign
    /\ skid = option_map (fun s => fst (fst s)) sign
    /\ (forall own', inner own' msg m (fun md => with_prior prior (sign_md sign md)))
    /\ (forall own' o, (sign_by = None -> kept dir own' o m) -> uo_unwrap o = true ->
        safe (answers dir own') (try_unwrap C msg) (fun r => r = Ok None)).
Proof.
  intros SM MF H F KN. destruct sign_by as [s|].
  - step H. destruct a as [t0' kid]. step H. rewrite app_nil_r in *. apply Ok_inj in H. injection H as -> ->.
    destruct (pack_signed_inner _ _ _ _ _ _ SM MF K F (KN _ eq_refl)) as (prior & sa & did & doc & alg & ka & k & st & RO & U & D & PU & ROW & NM & N).
    exists prior, (Some (kid, sa, t0')). split; auto.
    split; [split; [exists t; split; [apply incl_refl|exact K]|exists did, doc, alg, ka, k, st; auto]|].
    split; [reflexivity|]. split; [intros own'; apply N|]. intros. now apply unwrap_not_message.
  - step H. step H. rewrite app_nil_r in *. apply Ok_inj in H. injection H as -> ->.
    destruct (pack_plaintext_Ok _ _ _ _ K F) as (-> & prior & RO & CA). exists prior, None. split; auto. split; [exact I|]. split; [reflexivity|].
    split; [intros own'; apply inner_plain; auto|]. intros own' o KE U. eapply unwrap_kept; eauto.
Qed.

Lemma anon_round_known own own' m to sign_by po tr text pm fuel o tr' x :
  secrets_match C pair dir own -> secrets_match C pair dir own' -> message_fits C m ->
  exec (pack_encrypted C m to None sign_by po) tr (Ok (text, pm)) -> Forall (answers dir own) tr -> pm_service pm = None ->
  holds_one own' (pm_to_kids pm) -> (sign_by = None -> kept dir own' o m) ->
  together (pm_to_kids pm) -> (forall k, pm_sign_by_kid pm = Some k -> known dir doc_authentication k) ->
  exec (unpack C (S fuel) text o) tr' x -> Forall (answers dir own') tr' ->
  exists prior sign, rotation_of C tr m prior /\ signature_of C dir tr m sign_by sign
    /\ pm_from_kid pm = None /\ pm_sign_by_kid pm = option_map (fun s => fst (fst s)) sign
    /\ x = Some (Ok (m, metadata (Some (pm_to_kids pm, po_enc_alg_anon po)) None sign prior)).
Proof.
  intros SM SM' MF P F NS HO KE TO KS X F'. unfold pack_encrypted in P. step P. step P. destruct a0 as [msg skid].
  step P. destruct a0 as [[text1 fkid] kids]. step P.
  assert (W : a0 = None).
  { destruct a0 as [[fwd sm]|]; auto. destruct P as [_ P]. apply Ok_inj in P. injection P as _ ->. discriminate NS. }
  subst a0. step P. apply Ok_inj in P. injection P as -> ->. cbn [pm_to_kids pm_from_kid pm_sign_by_kid] in *.
  apply Forall_app in F as [F0 F]. apply Forall_app in F as [F1 F]. 
  step K0. destruct a0 as [text2 tk]. step K0. apply Ok_inj in K0. injection K0 as -> -> ->. rewrite app_nil_r in F1.
  destruct (pack_inside _ _ _ _ _ _ SM MF K F0 KS) as (prior & sign & RO & SI & -> & N & UW).
  destruct (anoncrypt_Ok _ _ _ _ _ _ _ K2 F1) as (did & doc & ka & rs & tr0 & _ & R & -> & AE).
  destruct (anon_encrypt_sealed_known _ _ _ _ _ _ AE (together_named _ TO)) as (ce & enc & j & p & EN & S).
  exists prior, sign. split; [eapply rotation_of_incl; [|exact RO]; apply incl_appl, incl_refl|].
  split; [eapply signature_of_incl; [|exact SI]; apply incl_appl, incl_refl|]. split; auto. split; auto.
  assert (SA : safe (answers dir own') (unpack C (Datatypes.S fuel) text2 o)
    (fun x => x = Some (Ok (m, with_prior prior (sign_md sign (md_anon (map fst rs) (po_enc_alg_anon po) um_init)))))).
  { eapply (unpack_anon own' fuel o text2 msg (map fst rs) (po_enc_alg_anon po) m (fun md => with_prior prior (sign_md sign md))).
    - intros md. eapply anon_stage_known; eauto. apply (in_utf8 _ _ _ _ (N own')).
    - intros U. now apply (UW own' o).
    - intros md. apply (rest_inner own' o msg m _ md (N own')). }
  rewrite (safe_exec _ _ _ _ _ SA X F'). destruct prior as [[p' k']|], sign as [[[? ?] ?]|]; reflexivity.
Qed.

Lemma auth_round_known own own' m to from sign_by po tr text pm fuel o tr' x :
  secrets_match C pair dir own -> secrets_match C pair dir own' -> message_fits C m ->
  exec (pack_encrypted C m to (Some from) sign_by po) tr (Ok (text, pm)) -> Forall (answers dir own) tr -> pm_service pm = None ->
  holds_one own' (pm_to_kids pm) ->
  together (pm_to_kids pm) -> (forall k, pm_from_kid pm = Some k -> known dir doc_key_agreement k) ->
  (forall k, pm_sign_by_kid pm = Some k -> known dir doc_authentication k) ->
  exec (unpack C (S fuel) text o) tr' x -> Forall (answers dir own') tr' ->
  exists prior sign fkid, rotation_of C tr m prior /\ signature_of C dir tr m sign_by sign
    /\ pm_from_kid pm = Some fkid /\ pm_sign_by_kid pm = option_map (fun s => fst (fst s)) sign
    /\ x = Some (Ok (m, metadata (if po_protect_sender po then Some (pm_to_kids pm, po_enc_alg_anon po) else None)
                               (Some (pm_to_kids pm, fkid)) sign prior)).
Proof.
  intros SM SM' MF P F NS HO TO KF KS X F'. unfold pack_encrypted in P. step P. step P. destruct a0 as [msg skid].
  step P. destruct a0 as [[text1 fkid'] kids]. step P.
  assert (W : a0 = None).
  { destruct a0 as [[fwd sm]|]; auto. destruct P as [_ P]. apply Ok_inj in P. injection P as _ ->. discriminate NS. }
  subst a0. step P. apply Ok_inj in P. injection P as -> ->. cbn [pm_to_kids pm_from_kid pm_sign_by_kid] in *.
  apply Forall_app in F as [F0 F]. apply Forall_app in F as [F1 F]. 
  step K0. destruct a0 as [[text2 fkid] tk]. step K0. apply Ok_inj in K0. injection K0 as -> -> ->. rewrite app_nil_r in F1.
  destruct (pack_inside _ _ _ _ _ _ SM MF K F0 KS) as (prior & sign & RO & SI & -> & N & UW).
  destruct (authcrypt_Ok_held _ _ _ _ _ _ _ _ _ _ _ SM K2 F1) as (did & doc & _ & _ & ka & rs & sk & t1' & tr1 & _ & _ & R & -> & _ & AE & PT & _ & sec & OW & SK).
  destruct (KF fkid eq_refl) as (KID & fdid & fdoc & URL & FD & FI).
  assert (SE : sender_key fdid fdoc ka fkid sk).
  { destruct (SM fdid fdoc fkid sec doc_key_agreement (or_introl eq_refl) FD FI OW) as (a' & p & s & PU & SK' & PR).
    rewrite SK in SK'. apply Ok_inj in SK'. injection SK' as <- <-. split; [exact FD|]. exists p. auto. }
  destruct (jwe_encrypt_sealed C pair LAW _ _ _ _ _ _ _ _ _ _ AE) as (j & p & S); try discriminate.
  { now apply together_named. }
  { cbn. intros s E'. injection E' as <-. now apply key_id_plain. }
  exists prior, sign, fkid. split; [eapply rotation_of_incl; [|exact RO]; apply incl_appl, incl_refl|].
  split; [eapply signature_of_incl; [|exact SI]; apply incl_appl, incl_refl|]. split; auto. split; auto.
  assert (AU : forall md, safe (answers dir own') (unpack_rest C t1' o md)
    (fun r => r = Ok (m, with_prior prior (sign_md sign (md_auth (map fst rs) fkid md))))).
  { intros md. eapply (rest_auth own' o t1' msg (map fst rs) fkid m (fun md => with_prior prior (sign_md sign md))); [|apply N].
    intros md'. eapply auth_stage_known; eauto. apply (in_utf8 _ _ _ _ (N own')). }
  destruct (po_protect_sender po).
  - destruct PT as (tr2 & AN). destruct (anon_encrypt_sealed_known _ _ _ _ _ _ AN (together_named _ TO)) as (ce & enc & j' & p' & EN & S').
    assert (SA : safe (answers dir own') (unpack C (Datatypes.S fuel) text2 o)
      (fun x => x = Some (Ok (m, with_prior prior (sign_md sign (md_auth (map fst rs) fkid (md_anon (map fst rs) (po_enc_alg_anon po) um_init))))))).
    { eapply (unpack_anon own' fuel o text2 t1' (map fst rs) (po_enc_alg_anon po) m
        (fun md => with_prior prior (sign_md sign (md_auth (map fst rs) fkid md)))).
      - intros md. eapply anon_stage_known; eauto. rewrite (sl_text _ _ _ _ _ _ _ _ _ _ _ _ _ S). apply utf8_print, (sl_print _ _ _ _ _ _ _ _ _ _ _ _ _ S).
      - intros _. apply unwrap_not_message. rewrite (sl_text _ _ _ _ _ _ _ _ _ _ _ _ _ S). apply jwe_not_message, (sl_print _ _ _ _ _ _ _ _ _ _ _ _ _ S).
      - exact AU. }
    rewrite (safe_exec _ _ _ _ _ SA X F'). destruct prior as [[p'' k']|], sign as [[[? ?] ?]|]; reflexivity.
  - subst text2.
    assert (SA : safe (answers dir own') (unpack C (Datatypes.S fuel) t1' o)
      (fun x => x = Some (Ok (m, with_prior prior (sign_md sign (md_auth (map fst rs) fkid um_init)))))).
    { apply (unpack_no_anon own' fuel o t1' m (fun md => with_prior prior (sign_md sign (md_auth (map fst rs) fkid md)))); [|exact AU].
      intros md. eapply anon_skip; eauto. discriminate. }
    rewrite (safe_exec _ _ _ _ _ SA X F'). destruct prior as [[p'' k']|], sign as [[[? ?] ?]|]; reflexivity.
Qed.

(** ** C22 *)
Lemma split_dot a b : ~ In "."%char a -> split "." (a ++ "."%char :: b) = a :: split "." b.
Proof.
  intros N. destruct (split_app "."%char a ("."%char :: b) N) as (p & ps & E & E').
  cbn [split] in E. rewrite Ascii.eqb_refl in E. injection E as <- <-. rewrite E', app_nil_r. reflexivity.
Qed.
Lemma split_one a : ~ In "."%char a -> split "." a = [a].
Proof.
  intros N. destruct (split_cons "."%char a) as (p & ps & E). destruct (split_hd _ _ _ _ E) as [[-> ->]|(t & -> & _)]; auto.
  exfalso. apply N, in_or_app. right. now left.
Qed.
Lemma b64enc_no_dot x : ~ In "."%char (b64enc x).
Proof. eapply b64_no_dot, b64_roundtrip. Qed.

Lemma prior_pack_Ok own p ik tr jwt kid : exec (from_prior_pack C p ik) tr (Ok (jwt, kid)) -> Forall (answers dir own) tr ->
  exists doc sec a k alg, dir (fp_iss p) = Some doc /\ In kid (doc_authentication doc) /\ own kid = Some sec
    /\ sec_key_pair C sec = Ok (a, k) /\ sign_alg_of a = Ok alg
    /\ jws_sign_compact C (print (from_prior_tree p)) kid a k (B "JWT") alg = Ok jwt.
Proof.
  unfold from_prior_pack. intros H F. step H. cbv zeta in H. step H. step H. step H. step H. step H. step H. step H. step H.
  destruct a7 as [ka k]. step H. step H. step H. ok.
  inversion F as [|? ? F0 F1]; subst. inversion F1 as [|? ? F2 F3]; subst. inversion F3 as [|? ? F4 F5]; subst.
  cbn in F0, F2, F4. apply Ok_inj in F0, F4. destruct F2 as (found & E' & F2). apply Ok_inj in E'. subst found.

  exists a1, a6, ka, k, a7. split; [symmetry; exact F0|]. split; [|split; [symmetry; exact F4|split; [exact E4|split; [exact E5|exact E6]]]].
  assert (I : In a4 a2).
  { destruct a3 as [|k0 a3]; [discriminate|]. cbn in E2. injection E2 as ->. apply (proj1 (F2 a4)). now left. }
  destruct ik as [ik|]; [|apply Ok_inj in E1; now rewrite E1]. destruct (did_or_url ik) as [did kid].
  apply rbind_Ok in E1 as (x & E1 & E1'). destruct (beq did (fp_iss p)); cbn [negb] in E1'; [|discriminate].
  apply rbind_Ok in E1' as (y & E1' & E1''). apply Ok_inj in E1''. subst a2. apply ok_or_Ok in E1'. apply find_first_some in E1' as [E1' _].
  destruct I as [<-|[]]. exact E1'.
Qed.

Lemma prior_round_known own own' p ik tr jwt kid tr' r : secrets_match C pair dir own -> prior_fits p ->
  exec (from_prior_pack C p ik) tr (Ok (jwt, kid)) -> Forall (answers dir own) tr -> known dir doc_authentication kid ->
  exec (from_prior_unpack C jwt) tr' r -> Forall (answers dir own') tr' -> r = Ok (p, kid).
Proof.
  intros SM PF H F (KID & did & doc & URL & RD & I) X F'.
  destruct (prior_pack_Ok _ _ _ _ _ _ H F) as (_ & sec & a & k & alg & _ & _ & OW & SK & SA & JS).
  destruct (SM _ doc kid sec doc_authentication (or_intror eq_refl) RD I OW) as (a' & pk & s & PU & SK' & PR).
  rewrite SK in SK'. apply Ok_inj in SK'. injection SK' as <- <-.
  destruct (sign_alg_row _ _ SA) as (st & sa & ROW). destruct (alg_row_verify _ _ _ _ ROW) as (VA & SMD & _).
  destruct (key_id_plain _ KID) as [KP KU].
  assert (ST : sig_type alg = Ok st) by (unfold alg_row in ROW; intuition; match goal with E : _ = _ |- _ => injection E as -> -> -> -> end; reflexivity).
  assert (NO : forall s, alg <> JwsAlgOther s) by (intros s ->; discriminate ST).
  unfold jws_sign_compact in JS. rewrite ST in JS. cbn [rbind] in JS. apply rbind_Ok in JS as (sgb & SG & JS). apply ok_or_Ok in SG.
  apply Ok_inj in JS. subst jwt.
  destruct PF as (P1 & P2 & P3 & P4 & P5 & P6 & P7).
  set (hd := print (compact_header_tree (mkCH (B "JWT") alg kid))) in *. set (pl := print (from_prior_tree p)) in *.
  assert (PH : printable (compact_header_tree (mkCH (B "JWT") alg kid))).
  { apply compact_header_printable; auto. destruct alg; try reflexivity. now destruct (NO s). }
  assert (PP : printable (from_prior_tree p)) by (apply from_prior_printable; auto using opt_ostr).
  revert X F'. apply (safe_exec (answers dir own') (from_prior_unpack C _) (fun r => r = Ok (p, kid))).
  unfold from_prior_unpack. eapply safe_ret.
  { unfold parse_compact, dot. rewrite split_dot by apply b64enc_no_dot. rewrite split_dot by apply b64enc_no_dot.
    rewrite split_one by apply b64enc_no_dot. rewrite b64_roundtrip. cbn [ok_or rbind]. unfold hd at 1. rewrite from_json_print by auto.
    rewrite de_compact_header_raw by auto. cbn [kind rbind]. reflexivity. }
  cbv beta zeta. cbn [pc_parsed ch_typ ch_kid ch_alg pc_payload]. rewrite beq_refl. cbn [negb].
  apply url_of_some in URL. rewrite URL. cbn [is_some negb]. apply safe_resolve. rewrite RD. eapply safe_ret; [reflexivity|]. cbv beta.
  destruct (publishes_find _ _ _ _ _ PU) as (vm & F1 & F2 & VK).
  eapply safe_ret; [rewrite F1; reflexivity|]. cbv beta. eapply safe_ret; [rewrite F2; reflexivity|]. cbv beta.
  eapply safe_ret; [exact VA|]. cbv beta. eapply safe_ret; [apply vm_as_pair; exact VK|]. cbv beta. eapply safe_ret.
  { unfold compact_verify. cbn [pc_parsed ch_alg pc_signature pc_header pc_payload]. rewrite ST. cbn [rbind]. rewrite b64_roundtrip. cbn [ok_or rbind].
    rewrite (law_sign _ _ LAW _ _ _ _ _ _ PR SG). reflexivity. }
  cbv beta. cbn [negb]. rewrite b64_roundtrip. eapply safe_ret; [reflexivity|]. cbv beta. unfold pl. rewrite utf8_print by auto. cbn [negb].
  rewrite from_json_print by auto. rewrite de_from_prior_raw; [reflexivity|]. repeat split; auto using opt_u64.
Qed.
End Round.

(** ** Directories of documents with their own keys only *)
Section Directory.
Context (C : crypto) (pair : kalg -> key C -> key C -> Prop) (LAW : lawful C pair).
Context (dir : bytes -> option diddoc) (DIR : directory dir).
Lemma listed_known did doc kid (rel : diddoc -> list bytes) : (rel = doc_key_agreement \/ rel = doc_authentication) ->
  dir did = Some doc -> In kid (rel doc) -> known dir rel kid.
Proof.
  intros RL D I. destruct (DIR did doc D kid) as [U K]; [apply in_or_app; destruct RL; subst rel; auto|]. split; [exact K|]. exists did, doc. auto.
Qed.
Lemma recipients_together did doc ka rs : recipients C dir did doc ka rs -> together (map fst rs).
Proof.
  intros R. exists did. apply Forall_forall. intros kid I. apply in_map_iff in I as ([k v] & <- & I). apply (rp_pub _ _ _ _ _ _ R) in I as [I _].
  apply (DIR did doc (rp_dir _ _ _ _ _ _ R)). apply in_or_app. now left.
Qed.
Lemma recipients_named did doc ka rs : recipients C dir did doc ka rs -> Forall named (map fst rs).
Proof. intros R. eapply together_named, recipients_together, R. Qed.
Lemma anon_encrypt_sealed ka alg msg rs tr text did doc : exec (anon_encrypt C ka alg msg rs) tr (Ok text) -> recipients C dir did doc ka rs ->
  exists ce enc j p, enc_of enc ce alg /\ sealed C pair ce KdfEs ka msg EcdhEsA256kw enc None rs text j p.
Proof. intros H R. eapply anon_encrypt_sealed_known; eauto. eapply recipients_named; eauto. Qed.
Lemma anon_stage own ce ka pt enc alg rs text j p o md did doc :
  sealed C pair ce KdfEs ka pt EcdhEsA256kw enc None rs text j p -> enc_of enc ce alg ->
  recipients C dir did doc ka rs -> secrets_match C pair dir own -> holds_one own (map fst rs) -> utf8 pt = true ->
  safe (answers dir own) (try_anoncrypt C text o md) (fun r => r = Ok (Some (pt, md_anon (map fst rs) alg md))).
Proof. intros S EN R SM HO U. eapply anon_stage_known; eauto. eapply recipients_together; eauto. Qed.

(** What the metadata of packing say about the keys. *)
Lemma packed_signer own m sign_by tr msg skid k :
  exec (match sign_by with
        | Some s => let! (msg, kid) := pack_signed C m s in Ret (Ok (msg, Some kid))
        | None => let! msg := pack_plaintext C m in Ret (Ok (msg, None))
        end) tr (Ok (msg, skid)) -> Forall (answers dir own) tr -> skid = Some k -> known dir doc_authentication k.
Proof.
  intros H F ->. destruct sign_by as [s|].
  - step H. destruct a as [t0' kid]. step H. rewrite app_nil_r in *. apply Ok_inj in H. injection H as -> ->.
    destruct (pack_signed_Ok _ _ _ _ _ _ _ _ K F) as (did & doc & _ & _ & _ & _ & _ & D & I & _). eapply listed_known; eauto.
  - step H. step H. apply Ok_inj in H. discriminate H.
Qed.
Lemma packed_keys own m to from sign_by po tr text pm : secrets_match C pair dir own ->
  exec (pack_encrypted C m to from sign_by po) tr (Ok (text, pm)) -> Forall (answers dir own) tr ->
  together (pm_to_kids pm) /\ (forall k, pm_from_kid pm = Some k -> known dir doc_key_agreement k)
  /\ (forall k, pm_sign_by_kid pm = Some k -> known dir doc_authentication k).
Proof.
  intros SM P F. unfold pack_encrypted in P. step P. step P. destruct a0 as [msg skid].
  step P. destruct a0 as [[text1 fkid] kids]. step P. apply Forall_app in F as [F0 F]. apply Forall_app in F as [F1 F].
  assert (EQ : pm_to_kids pm = kids /\ pm_from_kid pm = fkid /\ pm_sign_by_kid pm = skid).
  { destruct a0 as [[fwd sm]|]; step P; apply Ok_inj in P; injection P as -> ->; auto. }
  destruct EQ as (-> & -> & ->). split; [|split].
  - destruct from as [from|]; step K0.
    + destruct a1 as [[text2 fk] tk]. step K0. apply Ok_inj in K0. injection K0 as -> -> ->. rewrite app_nil_r in F1.
      destruct (authcrypt_Ok _ _ _ _ _ _ _ _ _ _ _ _ _ _ SM K2 F1) as (did & doc & _ & _ & ka & rs & _ & _ & _ & _ & _ & R & -> & _).
      eapply recipients_together; eauto.
    + destruct a1 as [text2 tk]. step K0. apply Ok_inj in K0. injection K0 as -> -> ->. rewrite app_nil_r in F1.
      destruct (anoncrypt_Ok _ _ _ _ _ _ _ _ _ K2 F1) as (did & doc & ka & rs & tr0 & _ & R & -> & _). eapply recipients_together; eauto.
  - intros k ->. destruct from as [from|]; step K0.
    + destruct a1 as [[text2 fk] tk]. step K0. apply Ok_inj in K0. injection K0 as -> -> ->. rewrite app_nil_r in F1.
      destruct (authcrypt_Ok _ _ _ _ _ _ _ _ _ _ _ _ _ _ SM K2 F1) as (did & doc & fdid & fdoc & ka & rs & sk & t1 & tr1 & _ & _ & _ & _ & (FD & pk & PU & _) & _).
      eapply listed_known; eauto. apply PU.
    + destruct a1 as [text2 tk]. step K0. apply Ok_inj in K0. discriminate K0.
  - intros k. eapply packed_signer; eauto.
Qed.

Lemma signed_round own own' m sign_by tr text kid fuel o tr' x : secrets_match C pair dir own -> message_fits C m ->
  exec (pack_signed C m sign_by) tr (Ok (text, kid)) -> Forall (answers dir own) tr ->
  exec (unpack C (S fuel) text o) tr' x -> Forall (answers dir own') tr' ->
  exists prior sa, rotation_of C tr m prior /\ signature_of C dir tr m (Some sign_by) (Some (kid, sa, text))
    /\ x = Some (Ok (m, metadata None None (Some (kid, sa, text)) prior)).
Proof.
  intros SM MF P F. apply (signed_round_known C pair LAW dir own own'); auto.
  destruct (pack_signed_Ok _ _ _ _ _ _ _ _ P F) as (did & doc & _ & _ & _ & _ & _ & D & I & _). eapply listed_known; eauto.
Qed.
Lemma anon_round own own' m to sign_by po tr text pm fuel o tr' x :
  secrets_match C pair dir own -> secrets_match C pair dir own' -> message_fits C m ->
  exec (pack_encrypted C m to None sign_by po) tr (Ok (text, pm)) -> Forall (answers dir own) tr -> pm_service pm = None ->
  holds_one own' (pm_to_kids pm) -> (sign_by = None -> kept dir own' o m) ->
  exec (unpack C (S fuel) text o) tr' x -> Forall (answers dir own') tr' ->
  exists prior sign, rotation_of C tr m prior /\ signature_of C dir tr m sign_by sign
    /\ pm_from_kid pm = None /\ pm_sign_by_kid pm = option_map (fun s => fst (fst s)) sign
    /\ x = Some (Ok (m, metadata (Some (pm_to_kids pm, po_enc_alg_anon po)) None sign prior)).
Proof.
  intros SM SM' MF P F NS HO KE. destruct (packed_keys _ _ _ _ _ _ _ _ _ SM P F) as (TO & _ & KS).
  apply (anon_round_known C pair LAW dir own own' m to sign_by po tr text pm); auto.
Qed.
Lemma auth_round own own' m to from sign_by po tr text pm fuel o tr' x :
  secrets_match C pair dir own -> secrets_match C pair dir own' -> message_fits C m ->
  exec (pack_encrypted C m to (Some from) sign_by po) tr (Ok (text, pm)) -> Forall (answers dir own) tr -> pm_service pm = None ->
  holds_one own' (pm_to_kids pm) ->
  exec (unpack C (S fuel) text o) tr' x -> Forall (answers dir own') tr' ->
  exists prior sign fkid, rotation_of C tr m prior /\ signature_of C dir tr m sign_by sign
    /\ pm_from_kid pm = Some fkid /\ pm_sign_by_kid pm = option_map (fun s => fst (fst s)) sign
    /\ x = Some (Ok (m, metadata (if po_protect_sender po then Some (pm_to_kids pm, po_enc_alg_anon po) else None)
                               (Some (pm_to_kids pm, fkid)) sign prior)).
Proof.
  intros SM SM' MF P F NS HO. destruct (packed_keys _ _ _ _ _ _ _ _ _ SM P F) as (TO & KF & KS).
  apply (auth_round_known C pair LAW dir own own' m to from sign_by po tr text pm); auto.
Qed.
Lemma prior_round own own' p ik tr jwt kid tr' r : secrets_match C pair dir own -> prior_fits p ->
  exec (from_prior_pack C p ik) tr (Ok (jwt, kid)) -> Forall (answers dir own) tr ->
  exec (from_prior_unpack C jwt) tr' r -> Forall (answers dir own') tr' -> r = Ok (p, kid).
Proof.
  intros SM PF H F. apply (prior_round_known C pair LAW dir own own' p ik tr jwt kid); auto.
  destruct (prior_pack_Ok _ _ _ _ _ _ _ _ H F) as (doc & _ & _ & _ & _ & D & I & _). eapply listed_known; eauto.
Qed.
End Directory.
