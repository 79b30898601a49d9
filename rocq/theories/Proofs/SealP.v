(** Envelopes made by [jwe_encrypt] and texts made by [jws_sign], read back. *)
From Verif.Model Require Import Prelude Utf8 Base64 Json Serde DidDoc Crypto Keys Effects Jws Jwe Message FromPrior Pack Routing Unpack.
From Verif.Spec Require Import Small Codec Events World.
From Verif.Proofs Require Import Lib Base64P JsonP JsonDec SerdeP CodecP SmallP Wp Errs NoPanic UnpackInv TreeP WorldP.

Lemma Ok_inj {A} (a b : A) : Ok a = Ok b -> a = b. Proof. congruence. Qed.

Section Seal.
Context (C : crypto) (pair : kalg -> key C -> key C -> Prop) (LAW : lawful C pair).

Definition seal_header (alg : jwe_alg) (enc : jwe_enc) (skid : option bytes) (rs : list (bytes * key C)) (jwk : value) : jwe_header :=
  mkPH (Some (B "application/didcomm-encrypted+json")) alg enc skid (option_map b64enc skid)
       (b64enc (apv_of C (map fst rs))) jwk.

(** ** What encryption did *)
Lemma jwe_encrypt_Ok ce d ka pt alg enc sender rs tr text :
  exec (jwe_encrypt C ce d ka pt alg enc sender rs) tr (Ok text) ->
  exists e1 cek e2 epk jwk e3 ct tag rcs,
    let protected := b64enc (print (jwe_header_tree (seal_header alg enc (option_map fst sender) rs jwk))) in
    tr = [Ev (ORandom (RCek ce)) e1; Ev (ORandom (REpk ka)) e2; Ev (ORandom (RNonce ce)) e3]
    /\ cek_gen C ce e1 = Some cek /\ key_gen C ka e2 = Some epk /\ to_jwk_public C ka epk = Some jwk
    /\ aead_enc C ce cek (nonce_gen C ce e3) protected pt = Some (ct, tag)
    /\ Forall2 (fun r rc => wrap_one C d ka epk (option_map snd sender) (jwe_alg_str alg)
                  (opt_default (option_map fst sender)) (apv_of C (map fst rs)) tag cek r = Ok rc) rs rcs
    /\ text = print (jwe_tree (mkJwe protected rcs (b64enc (nonce_gen C ce e3)) (b64enc ct) (b64enc tag))).
Proof.
  unfold jwe_encrypt. cbv zeta. intros H. do 7 step H.
  destruct a5 as [ct tag]. step H. step H. ok. apply rmap_Ok in E3.
  do 9 eexists. cbv zeta. split; [reflexivity|]. repeat split; eauto.
Qed.

Lemma wrap_one_kid d ka epk sk alg apu apv tag cek r rc : wrap_one C d ka epk sk alg apu apv tag cek r = Ok rc ->
  rc_kid rc = fst r /\ exists kw w, derive_key C d ka epk sk (snd r) alg apu apv tag false = Ok kw /\
    kw_wrap C kw cek = Some w /\ rc_key rc = b64enc w.
Proof.
  unfold wrap_one. intros H. apply rbind_Ok in H as (kw & D & H). apply rbind_Ok in H as (w & W & H). apply ok_or_Ok in W.
  injection H as <-. cbn. split; eauto.
Qed.
Lemma wrapped_kids d ka epk sk alg apu apv tag cek rs rcs :
  Forall2 (fun r rc => wrap_one C d ka epk sk alg apu apv tag cek r = Ok rc) rs rcs -> map rc_kid rcs = map fst rs.
Proof. induction 1 as [|r rc rs rcs H F IH]; cbn; auto. apply wrap_one_kid in H as [-> _]. now rewrite IH. Qed.
Lemma wrapped_find d ka epk sk alg apu apv tag cek rs rcs kid :
  Forall2 (fun r rc => wrap_one C d ka epk sk alg apu apv tag cek r = Ok rc) rs rcs -> In kid (map fst rs) ->
  exists k rc, In (kid, k) rs /\ find_first (fun r => beq (rc_kid r) kid) rcs = Some rc
    /\ wrap_one C d ka epk sk alg apu apv tag cek (kid, k) = Ok rc.
Proof.
  induction 1 as [|[k0 v0] rc rs rcs H F IH]; cbn [map In fst]; [tauto|]. intros I. cbn [find_first].
  pose proof (wrap_one_kid _ _ _ _ _ _ _ _ _ _ _ H) as [K _]. cbn [fst] in K.
  destruct (beq_spec (rc_kid rc) kid) as [E|E].
  - exists v0, rc. rewrite <- E, K. split; [now left|]. split; [reflexivity|exact H].
  - destruct I as [I|I]; [exfalso; apply E; transitivity k0; [exact K|exact I]|]. destruct (IH I) as (k & rc' & I' & Fi & W). exists k, rc'. split; [now right|]. split; [exact Fi|exact W].
Qed.

(** ** What the envelope says and how it opens *)
Definition matched (d : kdf) (ka : kalg) (sender sender' : option (bytes * key C)) : Prop :=
  match d with
  | KdfEs => sender = None /\ sender' = None
  | Kdf1pu => exists skid sk pk, sender = Some (skid, sk) /\ sender' = Some (skid, pk) /\ pair ka pk sk
  end.

Definition named (s : bytes) : Prop := plain s = true /\ utf8 s = true.

Lemma wrapped_plain d ka epk sk alg apu apv tag cek rs rcs :
  Forall2 (fun r rc => wrap_one C d ka epk sk alg apu apv tag cek r = Ok rc) rs rcs -> Forall named (map fst rs) ->
  rcs_plain rcs /\ Forall (fun r => utf8 (rc_kid r) = true /\ utf8 (rc_key r) = true) rcs.
Proof.
  induction 1 as [|r rc rs rcs H F IH]; intros NR; [split; constructor|]. cbn [map] in NR. inversion NR as [|? ? N0 N1]; subst.
  apply wrap_one_kid in H as (E & kw & w & _ & _ & E'). destruct (IH N1) as [I1 I2]. destruct N0 as [N0 N2].
  split; constructor; auto; rewrite E, E'; split; auto using b64_plain, b64_utf8.
Qed.

Record sealed (ce : cenc) (d : kdf) (ka : kalg) (pt : bytes) (alg : jwe_alg) (enc : jwe_enc)
  (sender : option (bytes * key C)) (rs : list (bytes * key C)) (text : bytes) (j : jwe) (p : parsed_jwe) : Prop := {
  sl_text : text = print (jwe_tree j);
  sl_print : printable (jwe_tree j);
  sl_plain : jwe_plain j;
  sl_read : jwe_from_str text = Ok j;
  sl_parse : jwe_parse C j = Ok p;
  sl_alg : ph_alg (pj_protected p) = alg;
  sl_enc : ph_enc (pj_protected p) = enc;
  sl_apu : pj_apu p = option_map fst sender;
  sl_verify : verify_didcomm C p = Ok p;
  sl_kids : map rc_kid (jwe_recipients j) = map fst rs;
  sl_open : forall kid s sender', In kid (map fst rs) -> (forall k, In (kid, k) rs -> pair ka k s) ->
    matched d ka sender sender' -> jwe_decrypt C ce d ka p sender' kid s = Ok pt }.

Lemma jwe_encrypt_sealed ce d ka pt alg enc sender rs tr text :
  exec (jwe_encrypt C ce d ka pt alg enc sender rs) tr (Ok text) ->
  (forall s, alg <> JweAlgOther s) -> (forall s, enc <> JweEncOther s) ->
  Forall named (map fst rs) -> (forall s, option_map fst sender = Some s -> named s) ->
  exists j p, sealed ce d ka pt alg enc sender rs text j p.
Proof.
  intros H NA NE NR NS.
  apply jwe_encrypt_Ok in H as (e1 & cek & e2 & epk & jwk & e3 & ct & tag & rcs & H). cbv zeta in H.
  set (h := seal_header alg enc (option_map fst sender) rs jwk) in *.
  set (protected := b64enc (print (jwe_header_tree h))) in *.
  set (j := mkJwe protected rcs (b64enc (nonce_gen C ce e3)) (b64enc ct) (b64enc tag)) in *.
  destruct H as (_ & GC & GK & GJ & EN & W & ->).
  pose proof (law_jwk _ _ LAW _ _ _ _ GK GJ) as J. apply json_value_ok in J as (JW & JC & JD).
  assert (K : map rc_kid rcs = map fst rs) by (eapply wrapped_kids; eauto).
  assert (RP : rcs_plain rcs /\ Forall (fun r => utf8 (rc_kid r) = true /\ utf8 (rc_key r) = true) rcs).
  { eapply wrapped_plain; eauto. }
  destruct RP as [RP RU].
  assert (PH : printable (jwe_header_tree h)).
  { apply jwe_header_printable; cbn [h seal_header ph_typ ph_alg ph_enc ph_skid ph_apu ph_apv ph_epk]; auto using b64_utf8.
    - destruct alg; try reflexivity. now destruct (NA s).
    - destruct enc; try reflexivity. now destruct (NE s).
    - destruct (option_map fst sender) as [s|]; cbn; auto. now destruct (NS s eq_refl).
    - destruct (option_map fst sender) as [s|]; cbn; auto using b64_utf8.
    - eapply wfv_printable; eauto. }
  assert (PJ : printable (jwe_tree j)).
  { apply jwe_printable; unfold j, protected; cbn [jwe_protected jwe_recipients jwe_iv jwe_ciphertext jwe_tag]; auto using b64_utf8. }
  assert (PL : jwe_plain j).
  { unfold jwe_plain, j, protected. cbn [jwe_protected jwe_recipients jwe_iv jwe_ciphertext jwe_tag]. auto using b64_plain. }
  assert (RD : jwe_from_str (print (jwe_tree j)) = Ok j).
  { unfold jwe_from_str. rewrite from_json_print by auto. now apply de_jwe_raw. }
  set (p := mkPJ j h (option_map fst sender) (apv_of C (map fst rs))).
  assert (PA : jwe_parse C j = Ok p).
  { unfold jwe_parse. unfold j at 1, protected. cbn [jwe_protected]. rewrite b64_roundtrip. cbn [ok_or rbind].
    rewrite from_json_print by auto.
    rewrite de_jwe_header_raw; cbn [h seal_header ph_typ ph_alg ph_enc ph_skid ph_apu ph_apv ph_epk]; auto using b64_plain.
    - cbn [rbind]. unfold h at 1 2. cbn [seal_header ph_apu ph_apv]. rewrite b64_roundtrip. cbn [ok_or rbind].
      unfold p. destruct (option_map fst sender); cbn [option_map]; [rewrite b64_roundtrip|]; reflexivity.
    - destruct (option_map fst sender) as [s|]; cbn; auto. now destruct (NS s eq_refl).
    - destruct (option_map fst sender) as [s|]; cbn; auto using b64_plain.
    - lia. }
  exists j, p. split; auto.
  - unfold verify_didcomm. cbn [p pj_apv pj_jwe pj_apu pj_protected]. unfold j at 1. cbn [jwe_recipients]. rewrite K, beq_refl.
    cbn [negb]. unfold h. cbn [seal_header ph_skid]. destruct (option_map fst sender) as [s|]; auto.
    destruct (NS s eq_refl) as [_ ->]. rewrite beq_refl. reflexivity.
  - intros kid s sender' I HK M.
    destruct (wrapped_find _ _ _ _ _ _ _ _ _ _ _ kid W I) as (k & rc & Ik & Fi & WO).
    apply wrap_one_kid in WO as (_ & kw & w & DK & WR & RK). cbn [snd] in DK. specialize (HK k Ik).
    assert (D' : exists epk', from_jwk C ka jwk = Some epk' /\
      derive_key C d ka epk' (option_map snd sender') s (jwe_alg_str alg) (opt_default (option_map fst sender))
        (apv_of C (map fst rs)) tag true = Ok kw).
    { destruct d; cbn [matched derive_key] in *.
      - destruct M as [-> ->]. apply ok_or_Ok in DK. destruct (law_es _ _ LAW _ _ _ _ _ _ _ _ _ _ HK GK GJ DK) as (epk' & F & E).
        exists epk'. cbn in *. rewrite E. auto.
      - destruct M as (skid & sk & pk & -> & -> & P). cbn [option_map snd fst] in *. apply ok_or_Ok in DK.
        destruct (law_1pu _ _ LAW _ _ _ _ _ _ _ _ _ _ _ _ _ HK P GK GJ DK) as (epk' & F & E). exists epk'. rewrite E. auto. }
    destruct D' as (epk' & FJ & DK').
    assert (S' : option_map fst sender' = option_map fst sender).
    { destruct d; cbn in M; [destruct M as [-> ->]; auto|]. destruct M as (? & ? & ? & -> & -> & _). auto. }
    unfold jwe_decrypt. rewrite S'. cbn [p pj_apu pj_jwe pj_protected pj_apv].
    assert (BO : beq_opt (option_map fst sender) (option_map fst sender) = true) by now apply beq_opt_eq. rewrite BO. cbn [negb].
    unfold j at 1. cbn [jwe_recipients]. rewrite Fi. cbn [ok_or rbind]. rewrite RK, b64_roundtrip. cbn [ok_or rbind].
    unfold h at 1. cbn [seal_header ph_epk]. rewrite FJ. cbn [ok_or rbind]. unfold j at 1. cbn [jwe_tag]. rewrite b64_roundtrip. cbn [ok_or rbind].
    unfold h at 1. cbn [seal_header ph_alg]. rewrite DK'. cbn [rbind]. rewrite (law_kw _ _ LAW _ _ _ WR). cbn [ok_or rbind].
    rewrite (law_cek _ _ LAW _ _ _ GC). cbn [ok_or rbind]. unfold j at 1. cbn [jwe_ciphertext]. rewrite b64_roundtrip. cbn [ok_or rbind].
    unfold j at 1. cbn [jwe_iv]. rewrite b64_roundtrip. cbn [ok_or rbind]. unfold j at 1. cbn [jwe_protected].
    now rewrite (law_aead _ _ LAW _ _ _ _ _ _ _ EN).
Qed.

(** ** Signatures *)
Lemma jws_sign_reads payload kid a k alg text p st sa : jws_sign C payload kid a k alg = Ok text -> named kid ->
  pair a p k -> alg_row alg a st sa ->
  exists j sg h, text = print (jws_tree j) /\ printable (jws_tree j) /\ jws_from_str text = Ok j /\ jws_parse j = Ok (j, [h])
    /\ jws_signatures j = [sg] /\ sig_kid sg = kid /\ jh_alg h = alg
    /\ jws_verify C (j, [h]) kid a p = Ok true /\ jws_payload j = b64enc payload.
Proof.
  intros H [NP NU] P R. unfold jws_sign in H.
  assert (ST : sig_type alg = Ok st) by (unfold alg_row in R; intuition; match goal with E : _ = _ |- _ => injection E as -> -> -> -> end; reflexivity).
  assert (NO : forall s, alg <> JwsAlgOther s) by (intros s ->; discriminate ST).
  rewrite ST in H. cbn [rbind] in H. apply rbind_Ok in H as (sgb & S & H). apply ok_or_Ok in S. apply Ok_inj in H. subst text.
  set (hd := mkJH (B "application/didcomm-signed+json") alg) in *.
  set (prot := b64enc (print (jws_header_tree hd))) in *. set (sg := mkSig kid prot (b64enc sgb)) in *. set (j := mkJws [sg] (b64enc payload)).
  assert (PH : printable (jws_header_tree hd)).
  { apply jws_header_printable; [reflexivity|]. destruct alg; try reflexivity. now destruct (NO s). }
  assert (PJ : printable (jws_tree j)).
  { apply jws_printable; cbn [j sg jws_signatures jws_payload sig_kid sig_protected sig_signature]; auto using b64_utf8.
    constructor; [|constructor]. cbn [sg sig_kid sig_protected sig_signature]. unfold prot. repeat split; auto using b64_utf8. }
  exists j, sg, hd. split; [reflexivity|]. split; [exact PJ|]. split; [|split; [|split; [|split; [|split; [|split]]]]]; try reflexivity.
  - unfold jws_from_str. rewrite from_json_print by auto. apply de_jws_raw; cbn [j jws_signatures jws_payload]; auto using b64_plain.
    constructor; [|constructor]. cbn [sg sig_kid sig_protected sig_signature]. unfold prot. repeat split; auto using b64_plain.
  - unfold jws_parse. cbn [j jws_signatures rmap]. unfold parse_jws_header. cbn [sg sig_protected]. unfold prot at 1. rewrite b64_roundtrip.
    cbn [ok_or rbind]. rewrite from_json_print by auto. unfold hd at 1. rewrite de_jws_header_raw by auto. reflexivity.
  - unfold jws_verify. cbn [j jws_signatures find_sig sg sig_kid]. rewrite beq_refl. cbn [rbind hd_error ok_or]. unfold hd at 1. cbn [jh_alg].
    rewrite ST. cbn [j sg rbind sig_signature sig_protected jws_payload]. rewrite b64_roundtrip. cbn [ok_or rbind].
    rewrite (law_sign _ _ LAW _ _ _ _ _ _ P S). reflexivity.
Qed.
End Seal.
