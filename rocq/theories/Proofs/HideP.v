(** Encryption depends on the plaintext only through the content encryption. *)
From Verif.Model Require Import Prelude Utf8 Base64 Json Serde DidDoc Crypto Keys Effects Jws Jwe Message FromPrior Pack Routing Unpack.
From Verif.Spec Require Import Small Codec Events World Packing.
From Verif.Proofs Require Import Lib Base64P JsonP SerdeP CodecP SmallP Wp Errs NoPanic UnpackInv SealP RoundP PackP RouteP.

(** Programs with the same executions. *)
Definition peq {X} (m m' : prog X) : Prop := forall tr x, exec m tr x <-> exec m' tr x.
Lemma peq_refl {X} (m : prog X) : peq m m. Proof. intros tr x. tauto. Qed.
Lemma peq_bind {X Y} (m m' : prog X) (f f' : X -> prog Y) : peq m m' -> (forall x, peq (f x) (f' x)) -> peq (bind m f) (bind m' f').
Proof.
  intros M F tr y. rewrite !exec_bind. split; intros (t1 & t2 & a & -> & H1 & H2); exists t1, t2, a; (split; [auto|split; [now apply M|now apply F]]).
Qed.
Lemma peq_pbind {X Y} (m m' : prog (res X)) (f f' : X -> prog (res Y)) : peq m m' -> (forall x, peq (f x) (f' x)) -> peq (pbind m f) (pbind m' f').
Proof. intros M F. apply peq_bind; auto. intros [a|e|]; auto using peq_refl. Qed.
(** What is done with the result only matters for the results it has. *)
Lemma peq_pbind_in {X Y} (m : prog (res X)) (f f' : X -> prog (res Y)) : (forall tr x, exec m tr (Ok x) -> peq (f x) (f' x)) -> peq (pbind m f) (pbind m f').
Proof.
  intros F tr y. rewrite !exec_pbind. split; intros [(t1 & t2 & a & -> & H1 & H2)|H]; auto; left; exists t1, t2, a; (split; [auto|split; [auto|]]); eapply F; eauto.
Qed.
Lemma peq_trans {X} (a b c : prog X) : peq a b -> peq b c -> peq a c.
Proof. intros H1 H2 tr x. rewrite (H1 tr x). apply H2. Qed.

Section Hide.
Context (C : crypto) (e : cenc -> bytes -> bytes -> bytes -> bytes -> option (bytes * bytes)).
Let C' := with_aead C e.
Lemma jwe_encrypt_peq ce d ka pt pt' alg enc sender rs : (forall k n aad, e ce k n aad pt' = aead_enc C ce k n aad pt) ->
  peq (jwe_encrypt C ce d ka pt alg enc sender rs) (jwe_encrypt C' ce d ka pt' alg enc sender rs).
Proof.
  intros H. unfold jwe_encrypt. cbv zeta.
  do 5 (apply peq_pbind; [apply peq_refl|]; intros ?). apply peq_pbind; [apply peq_refl|]. intros e3. cbv beta.
  cbn [C' with_aead aead_enc]. rewrite H. apply peq_refl.
Qed.
Lemma anon_encrypt_peq ka alg pt pt' rs : (forall ce k n aad, e ce k n aad pt' = aead_enc C ce k n aad pt) ->
  peq (anon_encrypt C ka alg pt rs) (anon_encrypt C' ka alg pt' rs).
Proof. intros H. destruct alg; apply jwe_encrypt_peq; intros; apply H. Qed.
Lemma anoncrypt_peq to pt pt' alg : (forall ce k n aad, e ce k n aad pt' = aead_enc C ce k n aad pt) ->
  peq (anoncrypt C to pt alg) (anoncrypt C' to pt' alg).
Proof.
  intros H. unfold anoncrypt. destruct (did_or_url to) as [did u]. apply peq_pbind; [apply peq_refl|]. intros x. apply peq_pbind; [apply peq_refl|]. intros doc. cbv zeta.
  destruct (select_kids _ _); [apply peq_refl|]. apply peq_pbind; [apply peq_refl|]. intros keys. apply peq_pbind; [apply peq_refl|]. intros ka.
  apply peq_pbind; [|intros; apply peq_refl]. destruct ka; try apply peq_refl; (apply peq_pbind; [apply peq_refl|]; intros; now apply anon_encrypt_peq).
Qed.
(** The text of an envelope starts with its protected header. *)
Lemma envelope_starts ce d ka pt alg enc sender rs tr text : exec (jwe_encrypt C ce d ka pt alg enc sender rs) tr (Ok text) ->
  exists t, text = B "{""protected""" ++ t.
Proof.
  intros H. apply jwe_encrypt_seals in H as (e1 & e2 & e3 & ct & tag & _ & S). destruct S as (cek & epk & jwk & apv & p & ws & S).
  do 7 destruct S as [_ S]. subst text. eexists. reflexivity.
Qed.
Lemma authcrypt_peq to from pt pt' au an pr : (forall ce k n aad, e ce k n aad pt' = aead_enc C ce k n aad pt) ->
  (pr = true -> forall ce k n aad t, e ce k n aad (B "{""protected""" ++ t) = aead_enc C ce k n aad (B "{""protected""" ++ t)) ->
  peq (authcrypt C to from pt au an pr) (authcrypt C' to from pt' au an pr).
Proof.
  intros H HP. unfold authcrypt. destruct (did_or_url to) as [did u]. do 2 (apply peq_pbind; [apply peq_refl|]; intros ?).
  destruct (did_or_url from) as [fdid fu]. do 2 (apply peq_pbind; [apply peq_refl|]; intros ?).
  destruct (select_kids _ _); [apply peq_refl|]. apply peq_pbind; [apply peq_refl|]. intros found. destruct found; [apply peq_refl|].
  apply peq_pbind; [apply peq_refl|]. intros fkeys. destruct (select_kids _ _); [apply peq_refl|]. do 4 (apply peq_pbind; [apply peq_refl|]; intros ?). cbv zeta.
  assert (AE : forall ka v s l, peq (auth_encrypt C ka au an pr pt v s l) (auth_encrypt C' ka au an pr pt' v s l)).
  { intros ka v s l1. unfold auth_encrypt. do 2 (apply peq_pbind; [apply peq_refl|]; intros ?). destruct au.
    match goal with |- peq (pbind ?m ?f) (pbind ?m' ?f') => apply (peq_trans _ (pbind m f')) end.
    - apply peq_pbind_in. intros tr t T. destruct pr; [|apply peq_refl]. apply anon_encrypt_peq. intros. apply envelope_starts in T as (t' & ->). now apply HP.
    - apply peq_pbind; [|intros; apply peq_refl]. apply jwe_encrypt_peq. intros; apply H. }
  apply peq_pbind; [|intros; apply peq_refl]. destruct (vm_key_alg _); try apply peq_refl; apply AE.
Qed.

Lemma hidden_plaintext m m' to from sign_by sign_by' o tr1 tr1' tr2 msg msg' skid skid' text fk kids :
  written C m' sign_by' tr1' msg' skid' -> ~ refused m' to from sign_by' ->
  (forall ce k n aad, e ce k n aad msg' = aead_enc C ce k n aad msg) ->
  (po_protect_sender o = true -> forall ce k n aad t, e ce k n aad (B "{""protected""" ++ t) = aead_enc C ce k n aad (B "{""protected""" ++ t)) ->
  written C m sign_by tr1 msg skid -> outer_stage C to from o msg tr2 text fk kids ->
  exec (pack_encrypted C' m' to from sign_by' (no_forward o)) (tr1' ++ tr2) (Ok (text, mkPM None fk skid' kids)).
Proof.
  intros I' NR H HP I O. apply (unforwarded C' m' to from sign_by' o tr1' tr2 msg' text fk skid' kids).
  - destruct (validate_cases m' to from sign_by') as [[E _]|[_ R]]; [exact E|contradiction].
  - exact I'.
  - unfold outer_stage in *. destruct from as [f|].
    + destruct O as (k & O & E). exists k. split; [|exact E]. exact (proj1 (authcrypt_peq to f msg msg' _ _ _ H HP _ _) O).
    + destruct O as (O & E). split; [|exact E]. exact (proj1 (anoncrypt_peq to msg msg' _ H _ _) O).
Qed.
End Hide.

Lemma hidden C m to from sb o tr text pm : exec (pack_encrypted C m to from sb o) tr (Ok (text, pm)) -> po_forward o = false ->
  exists tr1 tr2 msg, tr = tr1 ++ tr2 /\ written C m sb tr1 msg (pm_sign_by_kid pm)
    /\ forall e m' sb' tr1' msg' skid', written C m' sb' tr1' msg' skid' -> ~ refused m' to from sb' ->
      (forall ce k n aad, e ce k n aad msg' = aead_enc C ce k n aad msg) ->
      (po_protect_sender o = true -> forall ce k n aad t, e ce k n aad (B "{""protected""" ++ t) = aead_enc C ce k n aad (B "{""protected""" ++ t)) ->
      exec (pack_encrypted (with_aead C e) m' to from sb' o) (tr1' ++ tr2) (Ok (text, mkPM None (pm_from_kid pm) skid' (pm_to_kids pm))).
Proof.
  intros H F. apply pack_encrypted_inv in H as (tr1 & tr2 & tr3 & msg & text2 & w & -> & V & I & O & W & P).
  assert (OO : o = no_forward o) by (destruct o; cbn in F; subst; reflexivity). rewrite OO, wrap_off in W. step W. apply Ok_inj in W. subst w. destruct P as [-> P].
  rewrite app_nil_r. exists tr1, tr2, msg. split; [reflexivity|]. split; [exact I|]. intros e m' sb' tr1' msg' skid' I' NR H HP. rewrite OO.
  exact (hidden_plaintext C e m m' to from sb sb' o tr1 tr1' tr2 msg msg' _ skid' text2 _ _ I' NR H HP I O).
Qed.
