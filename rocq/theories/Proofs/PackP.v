(** Inversions of the packing functions into what Spec/Packing.v says. *)
From Verif.Model Require Import Prelude Utf8 Base64 Json Serde DidDoc Crypto Keys Effects Jws Jwe Message FromPrior Pack Routing Unpack.
From Verif.Spec Require Import Small Codec Events World Text Packing.
From Verif.Proofs Require Import Lib Base64P JsonP SerdeP CodecP SmallP Wp Errs NoPanic UnpackInv SealP RoundP TextP.

(** ** Lists and keys *)
Lemma picked_filter {A} (P : A -> Prop) (f : A -> bool) l : (forall x, In x l -> (f x = true <-> P x)) -> picked P l (filter f l).
Proof.
  induction l as [|x l IH]; cbn; intros H; [constructor|]. destruct (f x) eqn:E.
  - apply picked_keep; [apply H; auto|]. apply IH. intros; apply H; auto.
  - apply picked_skip; [|apply IH; intros; apply H; auto]. intros Q. apply H in Q; auto. congruence.
Qed.
Lemma did_part_spec s did u : did_or_url s = (did, u) -> did_part s did.
Proof.
  intros H. destruct u as [u|].
  - left. apply url_of_some. apply did_or_url_some in H as H'. destruct H' as (-> & _). exact H.
  - right. destruct (did_or_url_cases s) as [[d E]|E]; rewrite E in H; [discriminate|]. injection H as <-. split; auto. now apply did_or_url_none.
Qed.
Lemma did_part_inv s did : did_part s did -> exists u, did_or_url s = (did, u).
Proof. intros [H|[H ->]]; [apply url_of_some in H; eauto|apply did_or_url_none in H; eauto]. Qed.
Lemma url_has_hash did s : url_of did s -> In "#"%char s.
Proof. intros (f & -> & _). apply in_or_app. right. now left. Qed.
Lemma select_wanted to did u l : did_or_url to = (did, u) -> wanted to l (select_kids u l).
Proof.
  intros H. unfold wanted, select_kids. destruct u as [u|].
  - left. assert (u = to) by (apply did_or_url_some in H as (-> & _); auto). subst u.
    apply url_of_some in H. split; [eapply url_has_hash; eauto|]. apply picked_filter. intros. apply beq_eq.
  - right. split; [destruct (did_part_spec _ _ _ H) as [U|[N _]]; auto; apply url_of_some in U; congruence|].
    clear. induction l; cbn; auto. now rewrite IHl.
Qed.
Lemma is_did_text s : is_did s = true <-> did_text s. Proof. apply is_did_spec. Qed.

(** ** Envelopes *)
Lemma F2_mono {X Y} (P Q : X -> Y -> Prop) l l' : (forall x y, P x y -> Q x y) -> Forall2 P l l' -> Forall2 Q l l'.
Proof. intros H. induction 1; constructor; auto. Qed.
Lemma F2_fun {X Y} (P : X -> Y -> Prop) l l1 : (forall x y y', P x y -> P x y' -> y = y') -> Forall2 P l l1 -> forall l2, Forall2 P l l2 -> l1 = l2.
Proof. intros H. induction 1 as [|x y l l1 A B IH]; intros l2 K; inversion K; subst; auto. f_equal; eauto. Qed.
Definition three (ce : cenc) (ka : kalg) (e1 e2 e3 : bytes) : list event :=
  [Ev (ORandom (RCek ce)) e1; Ev (ORandom (REpk ka)) e2; Ev (ORandom (RNonce ce)) e3].
Section Env.
Context (C : crypto).
(** The envelope in terms of the records it is printed from. *)
Lemma seals_tree ce d ka alg enc sender rs e1 e2 e3 pt ct tag text : seals C ce d ka alg enc sender rs e1 e2 e3 pt ct tag text ->
  exists cek epk jwk apv header protected rcs,
    cek_gen C ce e1 = Some cek /\ key_gen C ka e2 = Some epk /\ to_jwk_public C ka epk = Some jwk
    /\ apv_for C (map fst rs) apv
    /\ header = mkPH (Some (B "application/didcomm-encrypted+json")) alg enc (option_map fst sender)
                  (option_map b64enc (option_map fst sender)) (b64enc apv) jwk
    /\ protected = b64enc (print (jwe_header_tree header))
    /\ aead_enc C ce cek (nonce_gen C ce e3) protected pt = Some (ct, tag)
    /\ Forall2 (fun r rc => rc_kid rc = fst r /\ exists w, rc_key rc = b64enc w) rs rcs
    /\ text = print (jwe_tree (mkJwe protected rcs (b64enc (nonce_gen C ce e3)) (b64enc ct) (b64enc tag))).
Proof.
  intros (cek & epk & jwk & apv & p & ws & G1 & G2 & G3 & V & -> & A & F & ->).
  rewrite <- jwe_header_written in A |- *.
  exists cek, epk, jwk, apv. eexists. eexists. exists (map (fun x => mkRc (fst x) (b64enc (snd x))) (combine (map fst rs) ws)).
  repeat (split; [eassumption || reflexivity|]). split.
  - clear A V. induction F as [|r w rs ws _ F IH]; cbn [map combine]; [constructor|]. constructor; [|exact IH]. split; [reflexivity|]. now exists w.
  - symmetry. apply jwe_written; [apply b64_plain|].
    generalize (combine (map fst rs) ws). intros l. induction l as [|[a b] l IH]; cbn [map]; constructor; auto.
Qed.
Lemma jwe_encrypt_seals ce d ka pt alg enc sender rs tr text :
  exec (jwe_encrypt C ce d ka pt alg enc sender rs) tr (Ok text) ->
  exists e1 e2 e3 ct tag, tr = three ce ka e1 e2 e3 /\ seals C ce d ka alg enc sender rs e1 e2 e3 pt ct tag text.
Proof.
  intros H. apply jwe_encrypt_Ok in H as (e1 & cek & e2 & epk & jwk & e3 & ct & tag & rcs & T & G1 & G2 & G3 & A & W & X).
  exists e1, e2, e3, ct, tag. split; [exact T|]. unfold seal_header in A, X. rewrite jwe_header_written in A, X.
  assert (WS : exists ws, Forall2 (fun r w => exists kw, kw_wrap C kw cek = Some w
         /\ match d, sender with
            | KdfEs, _ => ecdh_es C ka epk (snd r) (alg_text alg) (match sender with Some s => fst s | None => [] end) (apv_of C (map fst rs)) false = Some kw
            | Kdf1pu, Some (sk, s) => ecdh_1pu C ka epk s (snd r) (alg_text alg) sk (apv_of C (map fst rs)) tag false = Some kw
            | Kdf1pu, None => False
            end) rs ws /\ Forall2 (fun r rc => rc_kid rc = fst r /\ rc_key rc = b64enc (snd r)) (combine (map fst rs) ws) rcs).
  { clear A X T. generalize dependent (apv_of C (map fst rs)). intros apv W. induction W as [|r rc rs rcs H F IH]; [exists []; split; constructor|].
    destruct IH as (ws & F1 & F2). apply wrap_one_kid in H as (E & kw & w & D & K & E'). exists (w :: ws). split; constructor; auto.
    exists kw. split; auto. rewrite <- jwe_alg_text. destruct d; cbn [derive_key] in D.
    - apply ok_or_Ok in D. destruct sender as [[sk s]|]; exact D.
    - destruct sender as [[sk s]|]; cbn [option_map] in D; [|discriminate]. now apply ok_or_Ok in D. }
  destruct WS as (ws & F1 & F2). do 6 eexists. split; [exact G1|]. split; [exact G2|]. split; [exact G3|].
  split; [apply apv_for_spec; reflexivity|]. split; [reflexivity|]. split; [exact A|]. split; [exact F1|].
  rewrite X. now apply jwe_written; [apply b64_plain|].
Qed.
Lemma seals_fun ce d ka alg enc sender rs e1 e2 e3 pt pt' ct tag text text' :
  seals C ce d ka alg enc sender rs e1 e2 e3 pt ct tag text -> seals C ce d ka alg enc sender rs e1 e2 e3 pt' ct tag text' -> text = text'.
Proof.
  intros (cek & epk & jwk & apv & pr & ws & G1 & G2 & G3 & V & -> & A & W & ->)
         (cek' & epk' & jwk' & apv' & pr' & ws' & G1' & G2' & G3' & V' & -> & A' & W' & ->).
  rewrite G1 in G1'. injection G1' as <-. rewrite G2 in G2'. injection G2' as <-. rewrite G3 in G3'. injection G3' as <-.
  apply apv_for_spec in V, V'. subst apv apv'.
  assert (E : ws = ws'); [|now rewrite E].
  revert ws' W'. revert W. apply F2_fun. intros r w w' (kw & KW & D) (kw' & KW' & D').
  assert (kw = kw') by (destruct d; destruct sender as [[sk s]|]; try tauto; congruence). subst. congruence.
Qed.

Lemma entries e doc kids keys : rmap (find_vm e doc) kids = Ok keys ->
  Forall2 (fun kid vm => vm_id vm = kid /\ first_with (fun v => vm_id v = kid) (doc_verification_method doc) vm) kids keys.
Proof.
  intros H. apply rmap_Ok in H. induction H as [|kid vm l l' H F IH]; constructor; auto.
  apply find_vm_Ok in H. split; auto. destruct H as (l1 & l2 & _ & E & _). exact E.
Qed.
Lemma first_with_fun {A} (P : A -> Prop) l x y : first_with P l x -> first_with P l y -> x = y.
Proof.
  intros (a & b & E & Px & N) (a' & b' & E' & Py & N'). subst l. revert a' b' E' N'. induction a as [|z a IH]; intros [|z' a'] b' E' N'; cbn in E'.
  - congruence.
  - injection E' as <- E'. destruct (N' x); cbn; auto.
  - injection E' as <- E'. destruct (N z); cbn; auto.
  - injection E' as <- E'. eapply IH; eauto. intros; apply N; now right. intros; apply N'; now right.
Qed.
Lemma on_curve_entry doc vm a kid : first_with (fun v => vm_id v = kid) (doc_verification_method doc) vm ->
  (on_curve doc a kid <-> vm_key_alg vm = a).
Proof.
  intros F. split; [intros (vm' & F' & <-)|intros <-; exists vm; auto]. now rewrite (first_with_fun _ _ _ _ F F').
Qed.
Lemma picked_entries doc ka kids keys :
  Forall2 (fun kid vm => vm_id vm = kid /\ first_with (fun v => vm_id v = kid) (doc_verification_method doc) vm) kids keys ->
  picked (on_curve doc ka) kids (map vm_id (filter (fun vm => kalg_eqb (vm_key_alg vm) ka) keys)).
Proof.
  induction 1 as [|kid vm l l' [E H] F IH]; cbn [filter map]; [constructor|].
  destruct (kalg_eqb (vm_key_alg vm) ka) eqn:K.
  - cbn [map]. rewrite E. apply picked_keep; auto. apply (on_curve_entry _ _ _ _ H). now apply kalg_eqb_eq.
  - apply picked_skip; auto. intros O. apply (on_curve_entry _ _ _ _ H) in O. apply kalg_eqb_eq in O. congruence.
Qed.
Lemma keyed_list doc ka kids0 keys rs (f : verification_method -> bool) : incl kids0 (doc_key_agreement doc) ->
  Forall2 (fun kid vm => vm_id vm = kid /\ first_with (fun v => vm_id v = kid) (doc_verification_method doc) vm) kids0 keys ->
  rmap (vm_recipient C ka) (filter f keys) = Ok rs -> Forall2 (keyed C doc ka) (map vm_id (filter f keys)) rs.
Proof.
  intros IN K R. apply rmap_Ok in R.
  assert (P : forall vm, In vm (filter f keys) -> In (vm_id vm) (doc_key_agreement doc) /\ first_with (fun v => vm_id v = vm_id vm) (doc_verification_method doc) vm).
  { intros vm I. apply filter_In in I as [I _]. destruct (Forall2_In_r _ _ _ _ K I) as (kid & IK & <- & FV). auto. }
  clear K IN. induction R as [|vm [kid k] l rs V F IH]; cbn [map]; constructor.
  - unfold vm_recipient in V. apply rbind_Ok in V as (k' & V & V'). apply Ok_inj in V'. injection V' as <- <-.
    destruct (P vm (or_introl eq_refl)) as [I FW]. split; [reflexivity|]. split; auto. exists vm. split; auto. now apply vm_as_Ok.
  - apply IH. intros; apply P; now right.
Qed.
Lemma first_supported doc kids keys ka :
  Forall2 (fun kid vm => vm_id vm = kid /\ first_with (fun v => vm_id v = kid) (doc_verification_method doc) vm) kids keys ->
  hd_error (map vm_key_alg (filter (fun vm => supported (vm_key_alg vm)) keys)) = Some ka ->
  exists kid, first_with (fun k => ~ on_curve doc KUnsupported k) kids kid /\ on_curve doc ka kid.
Proof.
  induction 1 as [|kid vm l l' [E H] F IH]; cbn [filter map hd_error]; [discriminate|].
  unfold supported at 1. destruct (kalg_eqb (vm_key_alg vm) KUnsupported) eqn:K; cbn [negb].
  - intros X. destruct (IH X) as (k & (l1 & l2 & -> & Q & N) & O). exists k. split; auto. exists (kid :: l1), l2. split; auto. split; auto.
    intros y [<-|I]; auto. intros NQ. apply NQ. apply (on_curve_entry _ _ _ _ H). now apply kalg_eqb_eq.
  - cbn [map hd_error]. injection 1 as X. exists kid. split; [|now apply (on_curve_entry _ _ _ _ H)].
    exists [], l. split; auto. split; [|intros y []]. intros O. apply (on_curve_entry _ _ _ _ H) in O. apply kalg_eqb_eq in O. congruence.
Qed.

Lemma anon_encrypt_seals ka alg msg rs tr text : exec (anon_encrypt C ka alg msg rs) tr (Ok text) ->
  exists ce enc e1 e2 e3 ct tag, enc_of enc ce alg /\ tr = three ce ka e1 e2 e3
    /\ seals C ce KdfEs ka EcdhEsA256kw enc None rs e1 e2 e3 msg ct tag text.
Proof.
  intros H. unfold anon_encrypt in H. destruct alg; apply jwe_encrypt_seals in H as (e1 & e2 & e3 & ct & tag & T & S);
    do 7 eexists; (split; [|split; [exact T|exact S]]); unfold enc_of; auto.
Qed.

Lemma anoncrypt_inv to msg alg tr text kids : exec (anoncrypt C to msg alg) tr (Ok (text, kids)) ->
  exists did doc ka rs ce enc e1 e2 e3 ct tag, did_part to did /\ tr = Ev (OResolve did) (Ok (Some doc)) :: three ce ka e1 e2 e3
    /\ anon_keys C to doc ka kids rs /\ enc_of enc ce alg
    /\ seals C ce KdfEs ka EcdhEsA256kw enc None rs e1 e2 e3 msg ct tag text.
Proof.
  unfold anoncrypt. destruct (did_or_url to) as [did kid] eqn:DU. intros H. step H. step H. cbv zeta in H.
  destruct (select_kids kid (doc_key_agreement a0)) as [|k0 ks] eqn:SK; [destruct H; discriminate|]. rewrite <- SK in *.
  step H. step H. step H. step H. ok.
  assert (CU : agreement a2) by (unfold agreement; destruct a2; auto; destruct K; discriminate).
  assert (K' : exists rs, rmap (vm_recipient C a2) (filter (fun vm => kalg_eqb (vm_key_alg vm) a2) a1) = Ok rs
     /\ exec (anon_encrypt C a2 alg msg rs) t0 (Ok a3)).
  { destruct CU; subst a2; step K; eauto. }
  clear K. destruct K' as (rs & RS & K). apply entries in E0. destruct (first_supported _ _ _ _ E0 E1) as (kf & FW & OC).
  apply anon_encrypt_seals in K as (ce & enc & e1 & e2 & e3 & ct & tag & EN & -> & S).
  exists did, a0, a2, rs, ce, enc, e1, e2, e3, ct, tag. split; [eapply did_part_spec; eauto|]. split; [now rewrite app_nil_r|].
  split; [|auto]. exists (select_kids kid (doc_key_agreement a0)), kf. split; [eapply select_wanted; eauto|]. split; auto. split; auto. split; auto.
  split; [now apply picked_entries|]. eapply keyed_list; eauto. intros x. apply select_kids_In.
Qed.

Lemma F2_In_l {X Y} (P : X -> Y -> Prop) l l' x : Forall2 P l l' -> In x l -> exists y, In y l' /\ P x y.
Proof. induction 1 as [|a b l l' H F IH]; cbn; [tauto|]. intros [<-|I]; [eauto|]. destruct (IH I) as (y & ? & ?); eauto. Qed.
Definition entry_of (doc : diddoc) (kid : bytes) (vm : verification_method) : Prop :=
  vm_id vm = kid /\ first_with (fun v => vm_id v = kid) (doc_verification_method doc) vm.
Lemma first_compatible fdoc doc found fkeys all keys vm :
  Forall2 (entry_of fdoc) found fkeys -> Forall2 (entry_of doc) all keys -> agreement (vm_key_alg vm) ->
  find_first (fun f => existsb (fun t => kalg_eqb (vm_key_alg t) (vm_key_alg f)) keys)
    (filter (fun f => supported (vm_key_alg f)) fkeys) = Some vm ->
  first_with (shares fdoc doc all) found (vm_id vm) /\ on_curve fdoc (vm_key_alg vm) (vm_id vm).
Proof.
  intros FF FT AG. induction FF as [|kid v l l' [E H] F IH]; cbn [filter find_first]; [discriminate|].
  unfold supported at 1. destruct (kalg_eqb (vm_key_alg v) KUnsupported) eqn:K; cbn [negb find_first].
  - intros X. destruct (IH X) as ((l1 & l2 & -> & Q & N) & O). split; auto. exists (kid :: l1), l2. split; auto. split; auto.
    intros y [<-|I]; auto. intros (a & A & O' & _). apply (on_curve_entry _ _ _ _ H) in O'. apply kalg_eqb_eq in K. destruct A; congruence.
  - destruct (existsb _ keys) eqn:X.
    + injection 1 as ->. rewrite E. split; [|now apply (on_curve_entry _ _ _ _ H)]. exists [], l. split; auto. split; [|intros y []].
      exists (vm_key_alg vm). split; auto. split; [now apply (on_curve_entry _ _ _ _ H)|].
      apply existsb_exists in X as (t & I & X). apply kalg_eqb_eq in X. destruct (Forall2_In_r _ _ _ _ FT I) as (k' & I' & E' & H').
      exists k'. split; auto. apply (on_curve_entry _ _ _ _ H'). exact X.
    + intros Y. destruct (IH Y) as ((l1 & l2 & -> & Q & N) & O). split; auto. exists (kid :: l1), l2. split; auto. split; auto.
      intros y [<-|I]; auto. intros (a & A & O' & k' & I' & C'). apply (on_curve_entry _ _ _ _ H) in O'.
      destruct (F2_In_l _ _ _ _ FT I') as (t & It & E' & H'). apply (on_curve_entry _ _ _ _ H') in C'.
      assert (Z : existsb (fun t => kalg_eqb (vm_key_alg t) (vm_key_alg v)) keys = true); [|congruence].
      apply existsb_exists. exists t. split; auto. apply kalg_eqb_eq. congruence.
Qed.

Lemma authcrypt_inv to from msg au an protect tr text fk kids : exec (authcrypt C to from msg au an protect) tr (Ok (text, fk, kids)) ->
  exists did doc fdid fdoc asked found sec sk ka rs e1 e2 e3 ct tag t1 rest,
    did_part to did /\ did_part from fdid
    /\ tr = Ev (OResolve did) (Ok (Some doc)) :: Ev (OResolve fdid) (Ok (Some fdoc)) :: Ev (OFindSecrets asked) (Ok found)
             :: Ev (OGetSecret fk) (Ok (Some sec)) :: three CA256CbcHs512 ka e1 e2 e3 ++ rest
    /\ wanted from (doc_key_agreement fdoc) asked /\ auth_keys C fdoc found to doc ka fk kids rs
    /\ sec_key_pair C sec = Ok (ka, sk)
    /\ seals C CA256CbcHs512 Kdf1pu ka Ecdh1puA256kw A256cbcHs512 (Some (fk, sk)) rs e1 e2 e3 msg ct tag t1
    /\ (if protect then exists ce enc f1 f2 f3 ct' tag', enc_of enc ce an /\ rest = three ce ka f1 f2 f3
                         /\ seals C ce KdfEs ka EcdhEsA256kw enc None rs f1 f2 f3 t1 ct' tag' text
         else rest = [] /\ text = t1).
Proof.
  intros H. unfold authcrypt in H. destruct (did_or_url to) as [did kid] eqn:DT. step H. step H. destruct (did_or_url from) as [fdid fkid] eqn:DF.
  step H. step H. destruct (select_kids fkid (doc_key_agreement a2)) as [|k0 ks] eqn:SF; [destruct H; discriminate|]. rewrite <- SF in *.
  step H. destruct a3 as [|k1 a3]; [destruct H; discriminate|]. step H.
  destruct (select_kids kid (doc_key_agreement a0)) as [|k2 ks2] eqn:ST; [destruct H; discriminate|]. rewrite <- ST in *.
  step H. step H. step H. step H. cbv zeta in H. step H. step H. ok.
  set (ka := vm_key_alg a6) in *.
  assert (CU : agreement ka) by (unfold agreement; destruct ka; auto; destruct K; discriminate).
  assert (K' : exec (auth_encrypt C ka au an protect msg a6 a8 (filter (fun t => kalg_eqb (vm_key_alg t) ka) a5)) t (Ok a9)) by (destruct CU as [X|X]; rewrite X in K |- *; exact K).
  clear K. unfold auth_encrypt in K'. step K'. step K'. step K'. rename a into rs, E into RS, a1 into sk, E0 into SS.
  apply entries in E1, E2. destruct (first_compatible _ _ _ _ _ _ _ E1 E2 CU E3) as [FW OC].
  destruct au. apply jwe_encrypt_seals in K as (e1 & e2 & e3 & ct & tag & -> & S).
  exists did, a0, fdid, a2. do 2 eexists. exists a8, sk, ka, rs, e1, e2, e3, ct, tag, a7. eexists.
  split; [eapply did_part_spec; eauto|]. split; [eapply did_part_spec; eauto|]. split; [rewrite app_nil_r, <- ?app_assoc; reflexivity|].
  split; [eapply select_wanted; eauto|]. split.
  { exists (select_kids kid (doc_key_agreement a0)). split; [eapply select_wanted; eauto|]. split; auto. split; auto. split; auto.
    split; [now apply picked_entries|]. eapply keyed_list; eauto. intros x. apply select_kids_In. }
  split; [unfold sec_as in SS; now apply as_alg_Ok in SS|]. split; [exact S|].
  destruct protect.
  - apply anon_encrypt_seals in K' as (ce & enc & f1 & f2 & f3 & ct' & tag' & EN & -> & S'). do 7 eexists. split; [exact EN|]. split; [reflexivity|exact S'].
  - destruct K' as [-> K']. apply Ok_inj in K'. auto.
Qed.

(** ** Plaintext and signed *)
Lemma resolves_draws {X} (m : prog X) : only_resolves m -> forall tr x, exec m tr x -> draws tr = [].
Proof.
  induction m as [y|[did| | |] k IH]; cbn; try tauto; intros O tr x E.
  - destruct E as [-> _]. reflexivity.
  - destruct E as (r & tr' & -> & E). cbn. eapply IH; eauto.
Qed.
Lemma validate_pack_Ok p kid : validate_pack p (Some kid) = Ok tt ->
  did_text (fp_iss p) /\ ~ In "#"%char (fp_iss p) /\ did_text (fp_sub p) /\ ~ In "#"%char (fp_sub p) /\ fp_iss p <> fp_sub p /\ url_of (fp_iss p) kid.
Proof.
  unfold validate_pack. intros H.
  assert (D : forall s, negb (is_did s) || is_some (snd (did_or_url s)) = false -> did_text s /\ ~ In "#"%char s).
  { intros s E. apply Bool.orb_false_elim in E as [E1 E2]. apply Bool.negb_false_iff in E1. split; [now apply is_did_text|].
    apply did_or_url_none. destruct (did_or_url_cases s) as [[d X]|X]; auto. rewrite X in E2. discriminate. }
  destruct (negb (is_did (fp_iss p)) || _) eqn:E1; [discriminate|]. destruct (negb (is_did (fp_sub p)) || _) eqn:E2; [discriminate|].
  destruct (beq_spec (fp_iss p) (fp_sub p)) as [|N]; [discriminate|]. apply D in E1 as [? ?], E2 as [? ?].
  destruct (did_or_url kid) as [did u] eqn:E. destruct u as [u|]; cbn [is_some negb] in H; [|discriminate].
  destruct (beq_spec did (fp_iss p)) as [->|]; cbn [negb] in H; [|discriminate].
  repeat split; auto. apply url_of_some. rewrite E. apply did_or_url_some in E as [-> _]. reflexivity.
Qed.
Lemma pack_plaintext_inv m tr text : exec (pack_plaintext C m) tr (Ok text) ->
  text = message_text m /\ draws tr = [] /\ rotation_ok C tr m.
Proof.
  unfold pack_plaintext. intros H. step H. step H. step H. apply Ok_inj in H. split; auto. rewrite app_nil_r.
  destruct (msg_from_prior m) as [jwt|] eqn:MF.
  - step K. destruct a1 as [p kid]. step K. apply Ok_inj in K. subst a. rewrite app_nil_r.
    split; [eapply resolves_draws; [apply from_prior_resolves|exact K0]|]. intros jwt' E'. assert (jwt' = jwt) by congruence; subst jwt'.
    unfold validate_pack_plaintext in E. apply rbind_Ok in E as ([] & V & E). apply validate_pack_Ok in V.
    exists p, kid. split; [now apply from_prior_unpack_Ok|]. repeat split; try apply V. intros f F. rewrite F in E.
    destruct (beq_spec (fp_sub p) f); cbn [negb] in E; congruence.
  - step K. subst. split; auto. intros jwt E'. congruence.
Qed.

Lemma rotation_ok_incl tr tr' m : incl tr tr' -> rotation_ok C tr m -> rotation_ok C tr' m.
Proof. intros I R jwt E. destruct (R jwt E) as (p & kid & X & Y). exists p, kid. split; auto. eapply rotation_by_incl; eauto. Qed.

Lemma pack_signed_inv m by_ tr text kid : exec (pack_signed C m by_) tr (Ok (text, kid)) ->
  exists did doc asked found sec a k alg trp,
    did_text by_ /\ did_part by_ did
    /\ tr = Ev (OResolve did) (Ok (Some doc)) :: Ev (OFindSecrets asked) (Ok found) :: Ev (OGetSecret kid) (Ok (Some sec)) :: trp
    /\ auth_wanted by_ doc asked /\ hd_error found = Some kid
    /\ sec_key_pair C sec = Ok (a, k) /\ sign_alg_of a = Ok alg
    /\ exec (pack_plaintext C m) trp (Ok (message_text m)) /\ jws_sign C (message_text m) kid a k alg = Ok text.
Proof.
  intros H. unfold pack_signed in H. destruct (is_did by_) eqn:D; cbn [negb] in H; [|destruct H; discriminate].
  destruct (did_or_url by_) as [did key_id] eqn:DU. step H. step H. step H. step H. step H. step H. step H. step H. destruct a6 as [a6 k].
  step H. step H. step H. step H. apply Ok_inj in H. injection H as -> ->. ok. rewrite app_nil_r.
  pose proof (pack_plaintext_inv _ _ _ K) as [-> _].
  exists did, a0, a1, a2, a5, a6, k, a8. eexists. split; [now apply is_did_text|]. split; [eapply did_part_spec; eauto|]. split; [reflexivity|].
  split; [|auto 10]. pose proof (did_part_spec _ _ _ DU) as DP. destruct key_id as [kid'|].
  - right. apply did_or_url_some in DU as DU'. destruct DU' as [-> _]. apply url_of_some in DU.
    apply rbind_Ok in E0 as (x & E0 & E0'). apply Ok_inj in E0'. subst a1. apply ok_or_Ok in E0. apply find_first_some in E0 as [I E0]. apply beq_eq in E0. subst x.
    split; [eapply url_has_hash; eauto|]. auto.
  - left. apply Ok_inj in E0. split; auto. destruct DP as [U|[N _]]; auto. apply url_of_some in U. congruence.
Qed.

Lemma prior_pack_inv p ik tr jwt kid : exec (from_prior_pack C p ik) tr (Ok (jwt, kid)) ->
  exists doc asked found sec a k alg,
    tr = [Ev (OResolve (fp_iss p)) (Ok (Some doc)); Ev (OFindSecrets asked) (Ok found); Ev (OGetSecret kid) (Ok (Some sec))]
    /\ match ik with
       | None => asked = doc_authentication doc
       | Some u => asked = [u] /\ url_of (fp_iss p) u /\ In u (doc_authentication doc)
       end
    /\ hd_error found = Some kid /\ sec_key_pair C sec = Ok (a, k) /\ sign_alg_of a = Ok alg
    /\ jws_sign_compact C (print (from_prior_tree p)) kid a k (B "JWT") alg = Ok jwt.
Proof.
  unfold from_prior_pack. intros H. step H. cbv zeta in H. step H. step H. step H. step H. step H. step H. step H. step H.
  destruct a7 as [ka k]. step H. step H. step H. ok.
  exists a1, a2, a3, a6, ka, k, a7. split; [reflexivity|]. split; [|auto 10].
  destruct ik as [ik|]; [|apply Ok_inj in E1; now rewrite E1]. destruct (did_or_url ik) as [did key] eqn:DU.
  apply rbind_Ok in E1 as (x & E1 & E1'). apply ok_or_Ok in E1. subst key. apply did_or_url_some in DU as DU'. destruct DU' as [-> _]. apply url_of_some in DU.
  destruct (beq did (fp_iss p)) eqn:BE; cbn [negb] in E1'; [|discriminate]. apply beq_eq in BE. subst did.
  apply rbind_Ok in E1' as (y & E1' & E1''). apply Ok_inj in E1''. subst a2. apply ok_or_Ok in E1'. apply find_first_some in E1' as [I E1']. apply beq_eq in E1'. subst y.
  auto.
Qed.

(** ** Forwards *)
Lemma build_forward_inv fwd next headers tr text : exec (build_forward C fwd next headers) tr (Ok text) ->
  exists v id, from_json (to_value (fparse C) max_depth) fwd = Ok v /\ tr = [Ev (ORandom RUuid) id]
    /\ text = message_text (forward_message id next headers v).
Proof. unfold build_forward. intros H. step H. step H. step H. apply Ok_inj in H. apply kind_Ok in E. eauto. Qed.

Lemma wrap_loop_onion headers alg hops : forall msg tr text, exec (wrap_loop C msg headers hops alg) tr (Ok text) -> onion C (draws tr) msg text.
Proof.
  induction hops as [|[to next] hops IH]; intros msg tr text H; cbn [wrap_loop] in H.
  - step H. apply Ok_inj in H. subst. constructor.
  - step H. step H. destruct a0 as [m kids]. apply build_forward_inv in K as (v & id & P & -> & ->).
    apply anoncrypt_inv in K0 as (did & doc & ka & rs & ce & enc & e1 & e2 & e3 & ct & tag & _ & -> & _ & _ & S).
    apply IH in H. destruct (forward_written id next headers v) as (hs & FE). rewrite FE in S. cbn. eapply onion_forward; [exact P|]. eapply onion_seal; [exact S|]. exact H.
Qed.
Lemma services_draws l sid tr x : exec (services_chain l sid) tr x -> draws tr = [].
Proof.
  apply resolves_draws. unfold services_chain. destruct (did_or_url l) as [d u].
  assert (F : forall d s, only_resolves (find_service d s)).
  { intros d' s. unfold find_service. apply only_resolves_pbind; [cbn; auto|]. intros doc. apply only_resolves_pbind; [exact I|]. intros doc'.
    destruct s; [|exact I]. apply only_resolves_pbind; [exact I|]. intros sv. destruct (svc_kind sv); [destruct (accepts_v2 _)|]; exact I. }
  apply only_resolves_pbind; auto. intros [s|]; [|exact I].
  assert (L : forall n acc cur, only_resolves (chain_loop n acc cur)).
  { induction n as [|n IH]; intros acc cur; cbn [chain_loop]; destruct (is_did _); try exact I; destruct (Nat.ltb 1 _); try exact I.
    apply only_resolves_pbind; auto. intros s'. apply only_resolves_pbind; [exact I|]. intros; apply IH. }
  apply L.
Qed.
Lemma draws_app a b : draws (a ++ b) = draws a ++ draws b. Proof. apply flat_map_app. Qed.
Lemma wrap_inv msg to o tr w : exec (wrap_if_needed C msg to o) tr (Ok w) ->
  match w with Some (text, _) => onion C (draws tr) msg text | None => draws tr = [] end.
Proof.
  unfold wrap_if_needed. intros H. destruct (po_forward o); cbn [negb] in H; [|step H; apply Ok_inj in H; now subst].
  step H. apply services_draws in K. rewrite draws_app, K. cbn [app]. destruct a as [|s rest]; [step H; apply Ok_inj in H; now subst|]. cbv zeta in H.
  destruct (_ ++ _) as [|k ks] eqn:RK; [step H; apply Ok_inj in H; now subst|]. rewrite <- RK in *. step H. step H. apply Ok_inj in H. subst w.
  rewrite app_nil_r. unfold wrap_in_forward in K0. rewrite RK in K0. now apply wrap_loop_onion in K0.
Qed.

(** ** The whole *)
Definition outer_stage (to : bytes) (from : option bytes) (o : pack_options) (msg : bytes) (tr : list event) (text : bytes)
  (fk : option bytes) (kids : list bytes) : Prop :=
  match from with
  | None => exec (anoncrypt C to msg (po_enc_alg_anon o)) tr (Ok (text, kids)) /\ fk = None
  | Some f => exists k, exec (authcrypt C to f msg (po_enc_alg_auth o) (po_enc_alg_anon o) (po_protect_sender o)) tr (Ok (text, k, kids)) /\ fk = Some k
  end.
Lemma pack_encrypted_inv m to from sign_by o tr text pm : exec (pack_encrypted C m to from sign_by o) tr (Ok (text, pm)) ->
  exists tr1 tr2 tr3 msg text2 w, tr = tr1 ++ tr2 ++ tr3 /\ validate_pack_encrypted m to from sign_by = Ok tt
    /\ written C m sign_by tr1 msg (pm_sign_by_kid pm) /\ outer_stage to from o msg tr2 text2 (pm_from_kid pm) (pm_to_kids pm)
    /\ exec (wrap_if_needed C text2 to o) tr3 (Ok w)
    /\ match w with Some (fwd, sm) => text = fwd /\ pm_service pm = Some sm | None => text = text2 /\ pm_service pm = None end.
Proof.
  unfold pack_encrypted. intros H. step H. destruct a. step H. destruct a as [msg skid]. step H. destruct a as [[text2 fk] kids]. step H.
  exists t, t1, t0, msg, text2, a.
  assert (G : pm_sign_by_kid pm = skid /\ pm_from_kid pm = fk /\ pm_to_kids pm = kids
    /\ t3 = [] /\ match a with Some (fwd, sm) => text = fwd /\ pm_service pm = Some sm | None => text = text2 /\ pm_service pm = None end).
  { destruct a as [[fwd sm]|]; step H; apply Ok_inj in H; injection H as -> ->; cbn; auto 10. }
  destruct G as (-> & -> & -> & -> & G). rewrite app_nil_r. split; [reflexivity|]. split; [exact E|]. split; [|split; [|split; [exact K1|exact G]]].
  - unfold written. destruct sign_by as [s|].
    + step K. destruct a0 as [msg0 kid]. step K. apply Ok_inj in K. injection K as -> ->. rewrite app_nil_r. eauto.
    + step K. step K. apply Ok_inj in K. injection K as -> ->. rewrite app_nil_r. eauto.
  - unfold outer_stage. destruct from as [f|].
    + step K0. destruct a0 as [[x k] y]. step K0. apply Ok_inj in K0. injection K0 as -> -> ->. rewrite app_nil_r. eauto.
    + step K0. destruct a0 as [x y]. step K0. apply Ok_inj in K0. injection K0 as -> -> ->. rewrite app_nil_r. eauto.
Qed.
End Env.
