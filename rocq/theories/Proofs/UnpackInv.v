(** What a successful unpack (and each of its stages) did. *)
From Verif.Model Require Import Prelude Utf8 Base64 Json Serde DidDoc Crypto Keys Effects Jws Jwe Message FromPrior Pack Routing Unpack.
From Verif.Spec Require Import Small Events.
From Verif.Proofs Require Import Lib SmallP Wp.
From Coq Require Import Permutation.

(** ** Single calls *)
Lemma exec_resolve_Ok {B} did (f : option diddoc -> prog (res B)) tr b :
  exec (pbind (resolve did) f) tr (Ok b) <-> exists a tr', tr = Ev (OResolve did) (Ok a) :: tr' /\ exec (f a) tr' (Ok b).
Proof.
  unfold resolve. rewrite exec_Do_bind. split.
  - intros (r & tr' & -> & H). cbn in H. destruct r; cbn in H; try (destruct H; discriminate). eauto.
  - intros (a & tr' & -> & H). exists (Ok a), tr'. auto.
Qed.
Lemma exec_find_Ok {B} ids (f : list bytes -> prog (res B)) tr b :
  exec (pbind (find_secrets ids) f) tr (Ok b) <-> exists a tr', tr = Ev (OFindSecrets ids) (Ok a) :: tr' /\ exec (f a) tr' (Ok b).
Proof.
  unfold find_secrets. rewrite exec_Do_bind. split.
  - intros (r & tr' & -> & H). cbn in H. destruct r; cbn in H; try (destruct H; discriminate). eauto.
  - intros (a & tr' & -> & H). exists (Ok a), tr'. auto.
Qed.
Lemma exec_get_Ok {B} id (f : option secret -> prog (res B)) tr b :
  exec (pbind (get_secret id) f) tr (Ok b) <-> exists a tr', tr = Ev (OGetSecret id) (Ok a) :: tr' /\ exec (f a) tr' (Ok b).
Proof.
  unfold get_secret. rewrite exec_Do_bind. split.
  - intros (r & tr' & -> & H). cbn in H. destruct r; cbn in H; try (destruct H; discriminate). eauto.
  - intros (a & tr' & -> & H). exists (Ok a), tr'. auto.
Qed.
Lemma exec_random_Ok {B} u (f : bytes -> prog (res B)) tr b :
  exec (pbind (random u) f) tr (Ok b) <-> exists a tr', tr = Ev (ORandom u) a :: tr' /\ exec (f a) tr' (Ok b).
Proof.
  unfold random. rewrite exec_Do_bind. split.
  - intros (r & tr' & -> & H). cbn in H. eauto.
  - intros (a & tr' & -> & H). exists a, tr'. auto.
Qed.
Lemma exec_kresolve_Ok {B} e did (f : option diddoc -> prog (res B)) tr b :
  exec (pbind (pkind e (resolve did)) f) tr (Ok b) <-> exists a tr', tr = Ev (OResolve did) (Ok a) :: tr' /\ exec (f a) tr' (Ok b).
Proof.
  unfold pkind, resolve. cbn [bind]. rewrite exec_Do_bind. split.
  - intros (r & tr' & -> & H). cbn in H. destruct r; cbn in H; try (destruct H; discriminate). eauto.
  - intros (a & tr' & -> & H). exists (Ok a), tr'. auto.
Qed.

Ltac step H :=
  cbv beta in H; lazymatch type of H with
  | exec (pbind (Ret _) _) _ (Ok _) => let a := fresh "a" in let E := fresh "E" in apply exec_Ret_bind in H; destruct H as (a & E & H)
  | exec (pbind (resolve _) _) _ (Ok _) => let a := fresh "a" in let t := fresh "t" in apply exec_resolve_Ok in H; destruct H as (a & t & -> & H)
  | exec (pbind (pkind _ (resolve _)) _) _ (Ok _) => let a := fresh "a" in let t := fresh "t" in apply exec_kresolve_Ok in H; destruct H as (a & t & -> & H)
  | exec (pbind (find_secrets _) _) _ (Ok _) => let a := fresh "a" in let t := fresh "t" in apply exec_find_Ok in H; destruct H as (a & t & -> & H)
  | exec (pbind (get_secret _) _) _ (Ok _) => let a := fresh "a" in let t := fresh "t" in apply exec_get_Ok in H; destruct H as (a & t & -> & H)
  | exec (pbind (random _) _) _ (Ok _) => let a := fresh "a" in let t := fresh "t" in apply (proj1 (exec_random_Ok _ _ _ _)) in H; destruct H as (a & t & -> & H)
  | exec (pbind _ _) _ (Ok _) => let a := fresh "a" in let t := fresh "t" in let t' := fresh "t" in let K := fresh "K" in
      apply exec_pbind_Ok in H; destruct H as (t & t' & a & -> & K & H)
  | exec (Ret _) _ _ => let T := fresh "T" in destruct H as [T H]; try subst
  | exec (if negb ?c then _ else _) _ _ => let E := fresh "E" in destruct c eqn:E; cbn [negb] in H
  | exec (if ?c then _ else _) _ _ => let E := fresh "E" in destruct c eqn:E
  end.
Ltac ok := repeat match goal with
  | H : ok_or _ _ = Ok _ |- _ => apply ok_or_Ok in H
  | H : kind _ _ = Ok _ |- _ => apply kind_Ok in H
  | H : Ok _ = Ok _ |- _ => injection H as H; subst
  | H : Err _ = Ok _ |- _ => discriminate H
  | H : Ok _ = Err _ |- _ => discriminate H
  | H : Panic = Ok _ |- _ => discriminate H
  end; subst.

Lemma soft_Some {A} (r : res A) a : soft r = Ok (Some a) -> r = Ok a.
Proof. destruct r as [x|[]|]; cbn; congruence. Qed.
Lemma soft_None {A} (r : res A) : soft r = Ok None -> r = Err Malformed.
Proof. destruct r as [x|[]|]; cbn; congruence. Qed.

Lemma in_app_l {A} (x : A) l l' : In x l -> In x (l ++ l'). Proof. intros; apply in_or_app; auto. Qed.
Lemma in_app_r {A} (x : A) l l' : In x l' -> In x (l ++ l'). Proof. intros; apply in_or_app; auto. Qed.

(** ** Order *)
Lemma ble_lex a b : ble a b = true <-> lex_le a b.
Proof.
  unfold ble. split.
  - revert b; induction a as [|x a IH]; intros [|y b]; cbn; intros H; try apply lex_nil; try discriminate.
    destruct (N.compare_spec (N_of_ascii x) (N_of_ascii y)) as [E|E|E]; try discriminate.
    + apply N_of_ascii_inj in E. subst. apply lex_eq. now apply IH.
    + now apply lex_lt.
  - induction 1 as [b|x a y b L|x a b L IH]; cbn; auto.
    + now destruct b.
    + apply N.compare_lt_iff in L. now rewrite L.
    + now rewrite N.compare_refl.
Qed.
Lemma sort_lex l : lex_sorted (sort l).
Proof.
  pose proof (sort_sorted l) as H. induction (sort l) as [|x m IH]; constructor.
  - intros y I. apply ble_lex. now apply H.
  - apply IH, H.
Qed.
Lemma lex_bsorted l : lex_sorted l -> bsorted l.
Proof. induction 1 as [|x l H S IH]; cbn; auto. split; auto. intros y I. apply ble_lex. auto. Qed.
Lemma apv_for_spec C kids apv : apv_for C kids apv <-> apv = apv_of C kids.
Proof.
  split.
  - intros (l & P & S & ->). unfold apv_of. do 2 f_equal. apply bsorted_perm_eq; auto using sort_sorted.
    + now apply lex_bsorted.
    + rewrite P. apply sort_perm.
  - intros ->. exists (sort kids). split; [symmetry; apply sort_perm|]. split; [apply sort_lex|reflexivity].
Qed.

(** ** Addressing *)
Lemma url_of_some did url : url_of did url <-> did_or_url url = (did, Some url).
Proof. unfold url_of. rewrite did_or_url_some. split; [intros (f & H); eauto|intros (_ & f & H); eauto]. Qed.
Lemma did_or_url_cases s : (exists d, did_or_url s = (d, Some s)) \/ did_or_url s = (s, None).
Proof. unfold did_or_url. destruct (split_once "#" s) as [[a b]|]; eauto. Qed.
Lemma check_recipients_spec kids : check_recipients kids = Ok tt <-> one_did kids.
Proof.
  unfold check_recipients, one_did. destruct kids as [|k kids]; [split; [discriminate|intros [H _]; congruence]|].
  destruct (existsb _ _) eqn:E.
  - split; [discriminate|]. intros (_ & did & F). exfalso.
    apply existsb_exists in E as (x & I & E). rewrite Forall_forall in F. pose proof (F x I) as Fx. pose proof (F k (or_introl eq_refl)) as Fk.
    apply url_of_some in Fx, Fk. rewrite Fx, Fk in E. cbn in E. now rewrite beq_refl in E.
  - split; [|auto]. intros _. split; [discriminate|]. exists (fst (did_or_url k)). apply Forall_forall. intros x I.
    assert (G : forall x, In x (k :: kids) -> (negb (beq (fst (did_or_url x)) (fst (did_or_url k))) || negb (is_some (snd (did_or_url x)))) = false).
    { intros y J. destruct (_ || _) eqn:F; auto. exfalso. assert (existsb (fun k0 => negb (beq (fst (did_or_url k0)) (fst (did_or_url k))) || negb (is_some (snd (did_or_url k0)))) (k :: kids) = true) by (apply existsb_exists; eauto). congruence. }
    specialize (G x I). apply orb_false_elim in G as [G1 G2]. apply negb_false_iff in G1, G2. apply beq_eq in G1.
    apply url_of_some. destruct (did_or_url_cases x) as [(d & H)|H]; rewrite H in *; cbn in *; congruence.
Qed.
Lemma check_recipients_bad kids : ~ one_did kids -> check_recipients kids = Err Malformed.
Proof.
  rewrite <- check_recipients_spec. unfold check_recipients. destruct kids; auto. destruct (existsb _ _); congruence.
Qed.

(** ** Published keys *)
Lemma find_auth_publishes C rel doc kid a k vm kid' :
  find_first (fun x => beq x kid) (rel doc) = Some kid' ->
  find_first (fun vm => beq (vm_id vm) kid') (doc_verification_method doc) = Some vm ->
  vm_key_pair C vm = Ok (a, k) -> kid' = kid /\ publishes C rel doc kid a k.
Proof.
  intros H1 H2 H3. apply find_first_some in H1 as [I E]. apply beq_eq in E. subst kid'. split; auto. split; auto.
  exists vm. split; auto. apply find_first_first in H2. revert H2. apply first_with_ext. intros; apply beq_eq.
Qed.
Lemma kalg_eqb_eq a b : kalg_eqb a b = true <-> a = b.
Proof. destruct a, b; cbn; split; congruence. Qed.
Lemma as_alg_Ok C a alg kp k : as_alg C a alg kp = Ok k -> alg = a /\ kp = Ok (a, k).
Proof.
  unfold as_alg. destruct (kalg_eqb alg a) eqn:E; [|discriminate]. apply kalg_eqb_eq in E. intros H.
  apply rbind_Ok in H as ([a' k'] & -> & H). destruct (kalg_eqb a' a) eqn:F; [|discriminate].
  apply kalg_eqb_eq in F. injection H as <-. subst. auto.
Qed.
Lemma vm_as_Ok C a vm k : vm_as C a vm = Ok k -> vm_key_pair C vm = Ok (a, k).
Proof. intros H. now apply as_alg_Ok in H. Qed.

(** ** Signatures *)
Lemma verify_alg_row a ka : verify_alg_of a = Ok ka ->
  exists st sa, alg_row a ka st sa /\ sig_type a = Ok st /\ sign_alg_md a = Ok sa.
Proof. destruct a; cbn; intros H; try discriminate; injection H as <-; do 2 eexists; unfold alg_row; intuition. Qed.

Lemma jws_parse_Ok j pj : jws_parse j = Ok pj -> fst pj = j /\ Forall2 (fun sg h => exists hb, b64dec (sig_protected sg) = Some hb /\ from_json de_jws_header hb = Ok h) (jws_signatures j) (snd pj).
Proof.
  unfold jws_parse. intros H. apply rbind_Ok in H as (hs & H & E). injection E as <-. split; auto. cbn.
  apply rmap_Ok in H. induction H as [|sg h l hs Hx HF IH]; constructor; auto.
  unfold parse_jws_header in Hx. apply rbind_Ok in Hx as (hb & Hb & Hx). apply ok_or_Ok in Hb. eauto.
Qed.

Lemma try_sign_Some C msg md tr pl md' : exec (try_sign C msg md) tr (Ok (Some (pl, md'))) ->
  exists kid sa, signed_by C tr msg kid sa pl /\ md' = md_sign sa kid msg md.
Proof.
  intros H. unfold try_sign in H. step H. destruct a as [j|]; [|destruct H; discriminate].
  apply soft_Some in E. step H. apply jws_parse_Ok in E0 as [Ej F]. destruct a as [j' hs]. cbn in Ej, F. subst j'.
  cbn [snd] in H. destruct hs as [|h [|]]; cbv iota in H; try (destruct H; discriminate).
  destruct (jws_signatures j) as [|sg sgs] eqn:Es; cbv iota in H; try (destruct H; discriminate).
  inversion F as [|? ? ? ? (hb & Hb & Hh) F']; subst. inversion F'; subst.
  destruct (did_or_url (sig_kid sg)) as [did url] eqn:Ed.
  step H; [|destruct H; discriminate]. step H. step H. step H. step H. step H. step H. step H. step H. step H; [|destruct H; discriminate].
  step H. step H; [|destruct H; discriminate]. destruct H as [-> H]. injection H as -> ->. ok.
  apply vm_as_Ok in E6. destruct (find_auth_publishes C doc_authentication _ _ _ _ _ _ E2 E3 E6) as [-> P].
  destruct (verify_alg_row _ _ E4) as (st & sa & R & St & Sa).
  destruct url as [url|]; [|discriminate]. assert (U : url_of did (sig_kid sg)).
  { apply url_of_some. destruct (did_or_url_cases (sig_kid sg)) as [(d & X)|X]; rewrite X in Ed; congruence. }
  rewrite Sa in E5. injection E5 as <-.
  exists (sig_kid sg), sa. split; [|reflexivity].
  unfold jws_verify in E7. rewrite Es in E7. cbn [find_sig] in E7. rewrite beq_refl in E7. cbn [rbind hd_error ok_or] in E7.
  rewrite St in E7. cbn [rbind] in E7. apply rbind_Ok in E7 as (s & Hs & V). ok.
  exists j, sg, hb, h, did, a0, a3, a5, st, s. repeat split; auto; try apply P. now left.
Qed.

(** ** Rotation tokens *)
Lemma split3 s a b c : split "." s = [a; b; c] ->
  s = a ++ "."%char :: b ++ "."%char :: c /\ ~ In "."%char a /\ ~ In "."%char b /\ ~ In "."%char c.
Proof.
  assert (N : forall s ps p, split "." s = ps -> In p ps -> ~ In "."%char p).
  { clear. induction s as [|x s IH]; cbn; intros ps p <- I.
    - destruct I as [<-|[]]. tauto.
    - destruct (Ascii.eqb_spec x "."); [destruct I as [<-|I]; [tauto|eauto]|].
      destruct (split_cons "." s) as (q & qs & E). rewrite E in I. destruct I as [<-|I].
      + intros [J|J]; [congruence|]. eapply IH; [exact E|left; reflexivity|exact J].
      + eapply IH; [exact E|right; exact I]. }
  intros H. pose proof (N _ _ a H) as Na. pose proof (N _ _ b H) as Nb. pose proof (N _ _ c H) as Nc.
  repeat split; [|apply Na; cbn; tauto|apply Nb; cbn; tauto|apply Nc; cbn; tauto].
  destruct (split_hd _ _ _ _ H) as [[_ X]|(t & -> & X)]; [discriminate|]. symmetry in X.
  destruct (split_hd _ _ _ _ X) as [[_ Y]|(t' & -> & Y)]; [discriminate|]. symmetry in Y.
  destruct (split_hd _ _ _ _ Y) as [[-> _]|(t'' & -> & Z)]; [reflexivity|].
  destruct (split_cons "." t'') as (? & ? & W). rewrite W in Z. discriminate.
Qed.
Lemma parse_compact_Ok s pc : parse_compact s = Ok pc ->
  s = pc_header pc ++ "."%char :: pc_payload pc ++ "."%char :: pc_signature pc
  /\ ~ In "."%char (pc_header pc) /\ ~ In "."%char (pc_payload pc) /\ ~ In "."%char (pc_signature pc)
  /\ exists hb, b64dec (pc_header pc) = Some hb /\ from_json de_compact_header hb = Ok (pc_parsed pc).
Proof.
  unfold parse_compact. destruct (split "." s) as [|a [|b [|c [|]]]] eqn:E; try discriminate.
  intros H. apply rbind_Ok in H as (hb & Hb & H). apply rbind_Ok in H as (ph & Hp & H). ok. cbn.
  apply split3 in E as (-> & Na & Nb & Nc). repeat split; auto. eauto.
Qed.
Lemma from_prior_unpack_Ok C jwt tr p kid : exec (from_prior_unpack C jwt) tr (Ok (p, kid)) -> rotation_by C tr jwt p kid.
Proof.
  intros H. unfold from_prior_unpack in H. step H. apply parse_compact_Ok in E as (-> & N1 & N2 & N3 & hb & Hb & Hh).
  step H; [|destruct H; discriminate]. apply beq_eq in E.
  destruct (did_or_url (ch_kid (pc_parsed a))) as [did url] eqn:Ed.
  step H; [|destruct H; discriminate]. step H. step H. step H. step H. step H. step H. step H.
  step H; [|destruct H; discriminate]. step H. step H; [|destruct H; discriminate]. step H. destruct H as [-> H]. injection H as -> ->. ok.
  apply vm_as_Ok in E5. destruct (find_auth_publishes C doc_authentication _ _ _ _ _ _ E2 E3 E5) as [-> P].
  destruct (verify_alg_row _ _ E4) as (st & sa & R & St & Sa).
  destruct url as [url|]; [|discriminate]. assert (U : url_of did (ch_kid (pc_parsed a))).
  { apply url_of_some. destruct (did_or_url_cases (ch_kid (pc_parsed a))) as [(d & X)|X]; rewrite X in Ed; congruence. }
  unfold compact_verify in E6. rewrite St in E6. cbn [rbind] in E6. apply rbind_Ok in E6 as (s & Hs & V). ok.
  exists (pc_header a), (pc_payload a), (pc_signature a), hb, (pc_parsed a), did, a1, a4, a5, st, sa, s, a7.
  repeat split; auto; try apply P. now left.
Qed.

(** ** Plaintext *)
Lemma try_plaintext_Some C msg md tr m md' : exec (try_plaintext C msg md) tr (Ok (Some (m, md'))) ->
  message_from_str (fparse C) msg = Ok m /\ msg_typ m = plaintext_typ
  /\ (msg_from_prior m = None /\ md' = md /\ tr = []
      \/ exists jwt p kid, msg_from_prior m = Some jwt /\ rotation_by C tr jwt p kid /\ md' = md_prior p kid md).
Proof.
  intros H. unfold try_plaintext in H. step H. destruct a as [m0|]; [|destruct H; discriminate].
  apply soft_Some in E. step H. unfold msg_validate in E0. destruct (beq_spec (msg_typ m0) plaintext_typ) as [T|T]; [|discriminate].
  cbn in E0. ok. destruct (msg_from_prior a) as [jwt|] eqn:Ef.
  - step H. destruct a0 as [p kid]. destruct H as [-> H]. injection H as <- ->. apply from_prior_unpack_Ok in K.
    rewrite app_nil_r. repeat split; auto. right. eauto 6.
  - destruct H as [-> H]. injection H as <- ->. auto 6.
Qed.

(** ** Envelopes *)
Lemma jwe_parse_Ok C j p : jwe_parse C j = Ok p ->
  pj_jwe p = j /\ (exists hb, b64dec (jwe_protected j) = Some hb /\ from_json (de_jwe_header C) hb = Ok (pj_protected p))
  /\ b64dec (ph_apv (pj_protected p)) = Some (pj_apv p) /\ announces (pj_protected p) (pj_apu p).
Proof.
  unfold jwe_parse. intros H. apply rbind_Ok in H as (hb & Hb & H). apply rbind_Ok in H as (h & Hh & H).
  apply rbind_Ok in H as (apv & Ha & H). apply rbind_Ok in H as (apu & Hu & H). ok. cbn. repeat split; eauto.
  unfold announces. destruct (ph_apu h) as [t|].
  - apply rbind_Ok in Hu as (a & Hu & X). ok. auto.
  - injection Hu as <-. auto.
Qed.
Lemma verify_didcomm_Ok C p p' : verify_didcomm C p = Ok p' ->
  p' = p /\ apv_for C (map rc_kid (jwe_recipients (pj_jwe p))) (pj_apv p)
  /\ match pj_apu p with
     | Some apu => utf8 apu = true /\ (ph_skid (pj_protected p) = None \/ ph_skid (pj_protected p) = Some apu)
     | None => ph_skid (pj_protected p) = None
     end.
Proof.
  unfold verify_didcomm. rewrite apv_for_spec. destruct (beq_spec (pj_apv p) (apv_of C (map rc_kid (jwe_recipients (pj_jwe p))))) as [E|E]; cbn [negb]; [|discriminate].
  destruct (pj_apu p) as [apu|], (ph_skid (pj_protected p)) as [skid|]; try discriminate.
  - destruct (utf8 apu); [|discriminate]. cbn. destruct (beq_spec apu skid); [|discriminate]. subst. injection 1 as <-. auto.
  - destruct (utf8 apu); [|discriminate]. cbn. injection 1 as <-. auto.
  - injection 1 as <-. auto.
Qed.
Lemma jwe_decrypt_Ok C ce d ka p sender kid k pt : jwe_decrypt C ce d ka p sender kid k = Ok pt ->
  option_map fst sender = pj_apu p /\ exists rc ek epk tag kw c cek ct iv,
   first_with (fun r => rc_kid r = kid) (jwe_recipients (pj_jwe p)) rc
   /\ b64dec (rc_key rc) = Some ek /\ from_jwk C ka (ph_epk (pj_protected p)) = Some epk
   /\ b64dec (jwe_tag (pj_jwe p)) = Some tag
   /\ derive_key C d ka epk (option_map snd sender) k (jwe_alg_str (ph_alg (pj_protected p))) (opt_default (pj_apu p)) (pj_apv p) tag true = Ok kw
   /\ kw_unwrap C kw ek = Some c /\ cek_import C ce c = Some cek
   /\ b64dec (jwe_ciphertext (pj_jwe p)) = Some ct /\ b64dec (jwe_iv (pj_jwe p)) = Some iv
   /\ aead_dec C ce cek iv (jwe_protected (pj_jwe p)) (ct ++ tag) = Some pt.
Proof.
  unfold jwe_decrypt. destruct (beq_opt _ _) eqn:E; cbn [negb]; [|discriminate]. apply beq_opt_eq in E. intros H.
  apply rbind_Ok in H as (rc & H0 & H). apply rbind_Ok in H as (ek & H1 & H). apply rbind_Ok in H as (epk & H2 & H).
  apply rbind_Ok in H as (tag & H3 & H). apply rbind_Ok in H as (kw & H4 & H). apply rbind_Ok in H as (c & H5 & H).
  apply rbind_Ok in H as (cek & H6 & H). apply rbind_Ok in H as (ct & H7 & H). apply rbind_Ok in H as (iv & H8 & H). ok.
  split; auto. exists rc, ek, epk, tag, kw, c, cek, ct, iv. repeat split; auto.
  apply find_first_first in H0. revert H0. apply first_with_ext. intros; apply beq_eq.
Qed.
Lemma jwe_decrypt_opened C ce ka p sender kid k pt :
  b64dec (ph_apv (pj_protected p)) = Some (pj_apv p) ->
  jwe_decrypt C ce (match sender with None => KdfEs | _ => Kdf1pu end) ka p sender kid k = Ok pt ->
  option_map fst sender = pj_apu p /\ opened C ce ka (pj_jwe p) (pj_protected p) sender kid k pt.
Proof.
  intros Ha H. apply jwe_decrypt_Ok in H as (Es & rc & ek & epk & tag & kw & c & cek & ct & iv & H0 & H1 & H2 & H3 & H4 & H5 & H6 & H7 & H8 & H9).
  split; auto. exists cek, iv, ct, tag. repeat split; auto. exists rc, ek, epk, (pj_apv p), tag, kw, c. repeat split; auto.
  rewrite <- Es in H4. destruct sender as [[apu s]|]; cbn in H4; now apply ok_or_Ok in H4.
Qed.

Lemma open_loop_Ok {A} C (all : bool) (open : bytes -> kalg -> key C -> res A) found : forall last tr x,
  exec (open_loop C all open found last) tr (Ok x) -> found <> [] ->
  let ok kid a := exists sec ka k, held tr kid sec /\ sec_key_pair C sec = Ok (ka, k) /\ open kid ka k = Ok a in
  if all then exists l kid, found = l ++ [kid] /\ ok kid x /\ forall kid', In kid' l -> exists a, ok kid' a
  else exists kid l, found = kid :: l /\ ok kid x /\ exists sec, tr = [Ev (OGetSecret kid) (Ok (Some sec))].
Proof.
  cbn zeta. induction found as [|kid found IH]; intros last tr x H N; [congruence|]. clear N.
  cbn [open_loop] in H. step H. step H. step H. destruct a1 as [ka k]. step H. ok. destruct all.
  - destruct found as [|kid' found'].
    + cbn in H. destruct H as [-> H]. injection H as <-. exists [], kid. repeat split; [|intros ? []].
      exists a0, ka, k. repeat split; auto. now left.
    + apply IH in H; [|discriminate]. destruct H as (l & kd & E & (sec & ka' & k' & Hh & Hs & Ho) & F).
      rewrite E. exists (kid :: l), kd. repeat split.
      * exists sec, ka', k'. repeat split; auto. now right.
      * intros z [<-|I].
        -- eexists. exists a0, ka, k. repeat split; eauto. now left.
        -- destruct (F z I) as (y & sec' & ka2 & k2 & G1 & G2 & G3). exists y, sec', ka2, k2. repeat split; auto. now right.
  - destruct H as [-> H]. injection H as <-. exists kid, found. repeat split; eauto.
    exists a0, ka, k. repeat split; auto. now left.
Qed.

Lemma anon_cenc_Ok e ce alg : anon_cenc e = Ok (ce, alg) <-> enc_of e ce alg.
Proof.
  unfold enc_of. destruct e; cbn; split; intros H; try discriminate;
   try (injection H as <- <-; tauto); destruct H as [H|[H|H]]; try discriminate; injection H as -> ->; reflexivity.
Qed.

Lemma try_anoncrypt_Some C msg o md tr pt md' : exec (try_anoncrypt C msg o md) tr (Ok (Some (pt, md'))) ->
  exists j alg, anon_opened C tr (uo_all_keys o) msg j alg pt /\ md' = md_anon (recipient_kids j) alg md /\ utf8 pt = true.
Proof.
  intros H. unfold try_anoncrypt in H. step H. destruct a as [j|]; [|destruct H; discriminate].
  apply soft_Some in E. step H. apply jwe_parse_Ok in E0 as (Ej & (hb & Hb & Hh) & Ha & Hu).
  destruct (ph_alg (pj_protected a)) eqn:Al; try (destruct H; discriminate).
  step H. apply verify_didcomm_Ok in E0 as (-> & Hapv & Hs). step H. destruct a0. apply check_recipients_spec in E0.
  step H. destruct a0 as [|kid found]; [destruct H; discriminate|]. step H. destruct a0 as [pt0 alg].
  step H; [|destruct H; discriminate]. destruct H as [-> H]. injection H as -> ->. rewrite app_nil_r.
  apply open_loop_Ok in K; [|discriminate].
  assert (EN : forall kid ka k x, anon_open C a kid ka k = Ok x -> exists ce, enc_of (ph_enc (pj_protected a)) ce (snd x)
     /\ pj_apu a = None /\ (ka = KX25519 \/ ka = KP256) /\ opened C ce ka j (pj_protected a) None kid k (fst x)).
  { intros kid0 ka k [pt1 alg1] H. unfold anon_open in H.
    assert (KA : ka = KX25519 \/ ka = KP256) by (destruct ka; auto; discriminate).
    assert (H' : rbind (anon_cenc (ph_enc (pj_protected a))) (fun '(ce, alg) => rbind (jwe_decrypt C ce KdfEs ka a None kid0 k) (fun pt => Ok (pt, alg))) = Ok (pt1, alg1))
      by (destruct ka; auto; discriminate).
    apply rbind_Ok in H' as ([ce al] & H1 & H2). apply rbind_Ok in H2 as (pt2 & H2 & H3). injection H3 as -> ->.
    apply anon_cenc_Ok in H1. exists ce. cbn. split; auto.
    destruct (jwe_decrypt_opened C ce ka a None kid0 k pt1 Ha H2) as [U O]. cbn in U. rewrite <- U. rewrite Ej in O. auto. }
  assert (G : forall tr kid x, (exists sec ka k, held tr kid sec /\ sec_key_pair C sec = Ok (ka, k) /\ anon_open C a kid ka k = Ok x) ->
     exists ce, enc_of (ph_enc (pj_protected a)) ce (snd x) /\ pj_apu a = None /\
     exists sec ka k, held tr kid sec /\ sec_key_pair C sec = Ok (ka, k) /\ (ka = KX25519 \/ ka = KP256) /\ opened C ce ka j (pj_protected a) None kid k (fst x)).
  { intros tr kid0 x (sec & ka & k & H1 & H2 & H3). apply EN in H3 as (ce & H3 & H4 & H5 & H6). eauto 12. }
  assert (CE : exists ce, enc_of (ph_enc (pj_protected a)) ce alg /\ pj_apu a = None).
  { destruct (uo_all_keys o).
    - destruct K as (l & kd & _ & K & _). apply G in K as (ce & ? & ? & _). eauto.
    - destruct K as (kd & l & _ & K & _). apply G in K as (ce & ? & ? & _). eauto. }
  destruct CE as (ce & CE & U).
  assert (UN : forall ce' al, enc_of (ph_enc (pj_protected a)) ce' al -> ce' = ce).
  { intros ce' al H. apply anon_cenc_Ok in H, CE. congruence. }
  exists j, alg. split; [|split; [reflexivity|assumption]].
  rewrite U in *. exists (pj_protected a), (pj_apv a), (kid :: found), ce.
  split; [split; eauto|]. repeat split; auto; try apply E0.
  { now rewrite Ej in Hapv. }
  { now left. }
  unfold tried. assert (W : forall t kd sec, held t kd sec -> held (Ev (OFindSecrets (map rc_kid (jwe_recipients j))) (Ok (kid :: found)) :: t) kd sec) by (intros; now right).
  destruct (uo_all_keys o).
  - destruct K as (l & kd & Ef & K & F). exists l, kd. split; auto. split.
    + apply G in K as (ce' & H1 & _ & sec & ka & k & H2 & H3 & H4 & H5). apply UN in H1. subst ce'. exists sec, ka, k. auto.
    + intros z I. destruct (F z I) as (x & K'). apply G in K' as (ce' & H1 & _ & sec & ka & k & H2 & H3 & H4 & H5). apply UN in H1. subst ce'.
      exists (fst x), sec, ka, k. auto.
  - destruct K as (kd & l & Ef & K & _). exists kd, l. split; auto.
    apply G in K as (ce' & H1 & _ & sec & ka & k & H2 & H3 & H4 & H5). apply UN in H1. subst ce'. exists sec, ka, k. auto.
Qed.

Lemma auth_open_Ok C p from fk kid ka k pt :
  b64dec (ph_apv (pj_protected p)) = Some (pj_apv p) ->
  auth_open C p from fk kid ka k = Ok pt ->
  ka = fst fk /\ (ka = KX25519 \/ ka = KP256) /\ ph_enc (pj_protected p) = A256cbcHs512
  /\ pj_apu p = Some from /\ opened C CA256CbcHs512 ka (pj_jwe p) (pj_protected p) (Some (from, snd fk)) kid k pt.
Proof.
  intros Ha H. unfold auth_open in H. destruct fk as [fa f]. cbn [fst snd] in *.
  destruct fa, ka; try discriminate; destruct (ph_enc (pj_protected p)); try discriminate;
  apply (jwe_decrypt_opened C CA256CbcHs512 _ p (Some (from, f)) kid k pt Ha) in H as [U O]; cbn in U; auto 7.
Qed.

Lemma try_authcrypt_Some C msg o md tr pt md' : exec (try_authcrypt C msg o md) tr (Ok (Some (pt, md'))) ->
  exists j from, auth_opened C tr (uo_all_keys o) msg j from pt /\ md' = md_auth (recipient_kids j) from md /\ utf8 pt = true.
Proof.
  intros H. unfold try_authcrypt in H. step H. destruct a as [j|]; [|destruct H; discriminate].
  apply soft_Some in E. step H. apply jwe_parse_Ok in E0 as (Ej & (hb & Hb & Hh) & Ha & Hu).
  destruct (ph_alg (pj_protected a)) eqn:Al; try (destruct H; discriminate).
  step H. apply verify_didcomm_Ok in E0 as (-> & Hapv & Hs). step H. ok.
  step H; [|destruct H; discriminate]. destruct (did_or_url a0) as [did url] eqn:Ed. step H; [|destruct H; discriminate].
  step H. step H. step H. step H. step H. step H. step H. ok. destruct a7 as [|kid found]; [destruct H; discriminate|].
  step H. step H; [|destruct H; discriminate]. destruct H as [-> H]. injection H as -> ->. rewrite app_nil_r.
  destruct a5 as [fa fk]. destruct (find_auth_publishes C doc_key_agreement _ _ _ _ _ _ E4 E5 E6) as [-> P].
  destruct a6. apply check_recipients_spec in E7.
  apply open_loop_Ok in K; [|discriminate].
  destruct url as [url|]; [|discriminate]. assert (U : url_of did a0).
  { apply url_of_some. destruct (did_or_url_cases a0) as [(d & X)|X]; rewrite X in Ed; congruence. }
  rewrite E0 in *. destruct Hs as [Hs1 Hs2].
  assert (FA : (fa = KX25519 \/ fa = KP256) /\ ph_enc (pj_protected a) = A256cbcHs512).
  { destruct (uo_all_keys o).
    - destruct K as (l & kd & _ & (sec & ka & k & _ & _ & K) & _). apply auth_open_Ok in K as (-> & H1 & H2 & _); auto.
    - destruct K as (kd & l & _ & (sec & ka & k & _ & _ & K) & _). apply auth_open_Ok in K as (-> & H1 & H2 & _); auto. }
  destruct FA as [FA FE].
  exists (pj_jwe a), a0. split; [|split; [reflexivity|auto]].
  exists (pj_protected a), (pj_apv a), (kid :: found), did, a2, fa, fk.
  split; [split; eauto|]. repeat split; auto; try apply E7; try apply P.
  
  { now left. }
  { right. now left. }
  unfold tried.
  assert (G : forall t kd x, (exists sec ka k, held t kd sec /\ sec_key_pair C sec = Ok (ka, k) /\ auth_open C a a0 (fa, fk) kd ka k = Ok x) ->
     exists sec ka k, held (Ev (OResolve did) (Ok (Some a2)) :: Ev (OFindSecrets (map rc_kid (jwe_recipients (pj_jwe a)))) (Ok (kid :: found)) :: t) kd sec
      /\ sec_key_pair C sec = Ok (ka, k) /\ ka = fa /\ opened C CA256CbcHs512 fa (pj_jwe a) (pj_protected a) (Some (a0, fk)) kd k x).
  { intros t9 kd x (sec & ka & k & H1 & H2 & H3). apply auth_open_Ok in H3 as (-> & _ & _ & _ & O); auto.
    exists sec, fa, k. repeat split; auto. right. now right. }
  destruct (uo_all_keys o).
  - destruct K as (l & kd & Ef & K & F). exists l, kd. split; auto. split; [now apply G|].
    intros z I. destruct (F z I) as (x & K'). exists x. now apply G.
  - destruct K as (kd & l & Ef & K & _). exists kd, l. split; auto.
Qed.

(** ** More events never hurt *)
Lemma resolved_app tr t did doc : resolved tr did doc -> resolved (tr ++ t) did doc. Proof. apply in_app_l. Qed.
Lemma resolved_app_r tr t did doc : resolved t did doc -> resolved (tr ++ t) did doc. Proof. apply in_app_r. Qed.
Definition incl_ev (tr tr' : list event) := incl tr tr'.
Lemma tried_incl C tr tr' all found open pt : incl tr tr' -> tried C tr all found open pt -> tried C tr' all found open pt.
Proof.
  intros I. unfold tried. assert (G : forall kid pt, (exists sec ka k, held tr kid sec /\ sec_key_pair C sec = Ok (ka, k) /\ open kid ka k pt) ->
    exists sec ka k, held tr' kid sec /\ sec_key_pair C sec = Ok (ka, k) /\ open kid ka k pt).
  { intros kid p (sec & ka & k & H1 & H2). exists sec, ka, k. split; auto. now apply I. }
  destruct all.
  - intros (l & kid & E & K & F). exists l, kid. split; auto. split; [now apply G|]. intros z J. destruct (F z J) as (q & Q). exists q. now apply G.
  - intros (kid & l & E & K). exists kid, l. split; auto.
Qed.
Lemma anon_opened_incl C tr tr' all text j alg pt : incl tr tr' -> anon_opened C tr all text j alg pt -> anon_opened C tr' all text j alg pt.
Proof.
  intros I (h & apv & found & ce & H1 & H2 & H3 & H4 & H5 & H6 & H7 & H8 & H9 & H10).
  exists h, apv, found, ce. do 8 (split; auto). split; [now apply I|]. eapply tried_incl; eauto.
Qed.
Lemma auth_opened_incl C tr tr' all text j from pt : incl tr tr' -> auth_opened C tr all text j from pt -> auth_opened C tr' all text j from pt.
Proof.
  intros I (h & apv & found & did & doc & ka & fk & H1 & H2 & H3 & H4 & H5 & H6 & H7 & H8 & H9 & H10 & H11 & H12 & H13 & H14 & H15).
  exists h, apv, found, did, doc, ka, fk. do 10 (split; auto). split; [now apply I|]. split; auto. split; [now apply I|]. split; auto. eapply tried_incl; eauto.
Qed.
Lemma signed_by_incl C tr tr' text kid sa pl : incl tr tr' -> signed_by C tr text kid sa pl -> signed_by C tr' text kid sa pl.
Proof.
  intros I (j & sg & hb & h & did & doc & ka & k & st & s & H1 & H2 & H3 & H4 & H5 & H6 & H7 & H8 & H9).
  exists j, sg, hb, h, did, doc, ka, k, st, s. do 7 (split; auto). split; auto. now apply I.
Qed.
Lemma rotation_by_incl C tr tr' jwt p kid : incl tr tr' -> rotation_by C tr jwt p kid -> rotation_by C tr' jwt p kid.
Proof.
  intros I (hd & pl & sg & hb & h & did & doc & ka & k & st & sa & s & payload & H1 & H2 & H3 & H4 & H5 & H6 & H7 & H8 & H9 & H10 & H11 & H12).
  exists hd, pl, sg, hb, h, did, doc, ka, k, st, sa, s, payload. do 10 (split; auto). split; auto. now apply I.
Qed.
Lemma asked_next_incl tr tr' next found : incl tr tr' -> asked_next tr next found -> asked_next tr' next found.
Proof.
  intros I (ids & H & [K|(N & doc & R & ->)]); exists ids || exists (doc_key_agreement doc); (split; [now apply I|]); auto.
  right. split; auto. exists doc. split; auto. now apply I.
Qed.
Lemma outer_incl C o tr tr' text rew anon text' : incl tr tr' -> outer C o tr text rew anon text' -> outer C o tr' text rew anon text'.
Proof.
  intros I. induction 1 as [text N|text j alg pt A F|text j alg pt next v kid found rew last text' A U F M O IH].
  - now constructor.
  - constructor; [eapply anon_opened_incl; eauto|]. intros U. destruct (F U) as [G|[G|(next & v & G1 & G2)]]; auto.
    right. right. exists next, v. split; auto. eapply asked_next_incl; eauto.
  - econstructor; eauto; [eapply anon_opened_incl; eauto|]. eapply asked_next_incl; eauto.
Qed.

(** ** Stages that do not apply *)
Ltac nope H := solve [destruct H; discriminate] || (step H; nope H) ||
  (cbv beta iota in H; lazymatch type of H with exec (match ?x with _ => _ end) _ _ => destruct x end; nope H).
Lemma try_anoncrypt_None C msg o md tr : exec (try_anoncrypt C msg o md) tr (Ok None) -> tr = [] /\ not_jwe C EcdhEsA256kw msg.
Proof.
  intros H. unfold try_anoncrypt in H. step H. destruct a as [j|].
  2:{ destruct H as [-> _]. apply soft_None in E. split; auto. now left. }
  apply soft_Some in E. step H. apply jwe_parse_Ok in E0 as (Ej & (hb & Hb & Hh) & Ha & Hu).
  destruct (ph_alg (pj_protected a)) eqn:Al.
  - destruct H as [-> _]. split; auto. right. exists j, (pj_protected a). split; [split; eauto|congruence].
  - exfalso. nope H.
  - destruct H as [-> _]. split; auto. right. exists j, (pj_protected a). split; [split; eauto|congruence].
Qed.
Lemma try_authcrypt_None C msg o md tr : exec (try_authcrypt C msg o md) tr (Ok None) -> tr = [] /\ not_jwe C Ecdh1puA256kw msg.
Proof.
  intros H. unfold try_authcrypt in H. step H. destruct a as [j|].
  2:{ destruct H as [-> _]. apply soft_None in E. split; auto. now left. }
  apply soft_Some in E. step H. apply jwe_parse_Ok in E0 as (Ej & (hb & Hb & Hh) & Ha & Hu).
  destruct (ph_alg (pj_protected a)) eqn:Al.
  - exfalso. nope H.
  - destruct H as [-> _]. split; auto. right. exists j, (pj_protected a). split; [split; eauto|congruence].
  - destruct H as [-> _]. split; auto. right. exists j, (pj_protected a). split; [split; eauto|congruence].
Qed.
Lemma try_sign_None C msg md tr : exec (try_sign C msg md) tr (Ok None) -> tr = [] /\ jws_from_str msg = Err Malformed.
Proof.
  intros H. unfold try_sign in H. step H. destruct a as [j|].
  2:{ destruct H as [-> _]. apply soft_None in E. auto. }
  exfalso. nope H.
Qed.

(** ** Forwards *)
Lemma try_parse_forward_spec C pt m : message_from_str (fparse C) pt = Ok m ->
  match try_parse_forward m with
  | Some f => forward_to C pt (pf_next f) (pf_forwarded f)
  | None => forall next v, ~ forward_to C pt next v
  end.
Proof.
  intros H. unfold try_parse_forward. destruct (beq_spec (msg_type m) forward_type) as [T|T]; cbn [negb].
  2:{ intros next v (m' & ? & ? & ? & ? & E & T' & _). rewrite H in E. injection E as <-. auto. }
  assert (NF : forall P : Prop, (forall next v body att rest js, msg_body m = VObj body -> amap_get (B "next") body = Some (VStr next)
     -> msg_attachments m = Some (att :: rest) -> att_data att = AJson v js -> P) -> forall next v, forward_to C pt next v -> P).
  { intros P G next v (m' & body & att & rest & js & E & _ & H2 & H3 & H4 & H5). rewrite H in E. injection E as <-. eauto. }
  destruct (msg_body m) as [| | | | |body] eqn:Eb; try (intros next v F; revert F; apply NF; congruence).
  destruct (amap_get (B "next") body) as [[| | |next| |]|] eqn:En; try (intros next' v F; revert F; apply NF; congruence).
  destruct (msg_attachments m) as [[|att rest]|] eqn:Ea; try (intros next' v F; revert F; apply NF; congruence).
  destruct (att_data att) as [|v js|] eqn:Ed; try (intros next' v' F; revert F; apply NF; congruence).
  exists m, body, att, rest, js. auto 7.
Qed.
Lemma has_secret_Ok next tr b : exec (has_secret next) tr (Ok b) -> exists found, asked_next tr next found /\ b = negb (match found with [] => true | _ => false end).
Proof.
  intros H. unfold has_secret in H. step H. step H. destruct H as [-> H]. injection H as ->.
  destruct (did_or_url next) as [did [url|]] eqn:Ed.
  - destruct K as [-> K]. injection K as ->. exists a0. split; [|now destruct a0]. exists [url]. split; [now left|]. left.
    assert (url = next) by (destruct (did_or_url_cases next) as [(d & X)|X]; rewrite X in Ed; congruence). subst.
    split; auto. exists did. now apply url_of_some.
  - assert (did = next) by (destruct (did_or_url_cases next) as [(d & X)|X]; rewrite X in Ed; congruence). subst did.
    apply did_or_url_none in Ed. apply exec_resolve_Ok in K as (od & t1 & -> & K). apply exec_Ret_bind in K as (doc & E & K).
    destruct K as [-> K]. injection K as ->. apply ok_or_Ok in E. subst od. exists a0.
    split; [|now destruct a0]. exists (doc_key_agreement doc). split; [right; now left|]. right. split; auto. exists doc. split; auto. now left.
Qed.
Lemma try_unwrap_Ok C pt tr r : exec (try_unwrap C pt) tr (Ok r) ->
  match r with
  | Some fwd => exists next v kid found, forward_to C pt next v /\ asked_next tr next (kid :: found) /\ fwd = print v
  | None => message_from_str (fparse C) pt = Err Malformed
       \/ (exists m, message_from_str (fparse C) pt = Ok m /\ forall next v, ~ forward_to C pt next v)
       \/ exists next v, forward_to C pt next v /\ asked_next tr next []
  end.
Proof.
  intros H. unfold try_unwrap in H. step H. destruct a as [m|].
  2:{ destruct H as [-> H]. injection H as ->. apply soft_None in E. auto. }
  apply soft_Some in E. pose proof (try_parse_forward_spec C pt m E) as F. destruct (try_parse_forward m) as [f|].
  2:{ destruct H as [-> H]. injection H as ->. right. left. eauto. }
  step H. destruct H as [-> H]. injection H as ->. rewrite app_nil_r. apply has_secret_Ok in K as (found & A & ->).
  destruct found as [|kid found]; cbn.
  - right. right. eauto.
  - exists (pf_next f), (pf_forwarded f), kid, found. auto.
Qed.

(** ** All of unpack *)
Definition md_of (rew : bool) (anon : option (list bytes * anon_alg)) (md : unpack_metadata) : unpack_metadata :=
  mkUM (is_some anon || um_encrypted md) (um_authenticated md) (um_non_repudiation md) (is_some anon || um_anonymous_sender md)
       (rew || um_re_wrapped md) (um_encrypted_from_kid md)
       (match anon with Some a => Some (fst a) | None => um_encrypted_to_kids md end)
       (um_sign_from md) (um_from_prior_issuer_kid md) (um_enc_alg_auth md)
       (match anon with Some a => Some (snd a) | None => um_enc_alg_anon md end)
       (um_sign_alg md) (um_signed_message md) (um_from_prior md).

Lemma unpack_loop_Ok C o fuel : forall text md0 tr m md,
  exec (unpack_loop C fuel text o md0) tr (Some (Ok (m, md))) ->
  exists rew anon text1 tr1 tr2, tr = tr1 ++ tr2 /\ outer C o tr1 text rew anon text1
    /\ exec (unpack_rest C text1 o (md_of rew anon md0)) tr2 (Ok (m, md)).
Proof.
  induction fuel as [|f IH]; intros text md0 tr m md H; cbn [unpack_loop] in H; [destruct H; discriminate|].
  apply exec_bind in H as (tr1 & tr2 & r & -> & H1 & H2).
  assert (R : forall tr2 text md1, exec (bind (unpack_rest C text o md1) (fun x => Ret (Some x))) tr2 (Some (Ok (m, md))) ->
     exec (unpack_rest C text o md1) tr2 (Ok (m, md))).
  { intros t x md1 X. apply exec_bind in X as (t1 & t2 & y & -> & X & [-> Y]). injection Y as <-. now rewrite app_nil_r. }
  destruct r as [[[pt md1]|]|k|]; try (destruct H2; discriminate).
  - apply try_anoncrypt_Some in H1 as (j & alg & A & -> & _). destruct (uo_unwrap o) eqn:U.
    + apply exec_bind in H2 as (tr3 & tr4 & u & -> & H2 & H3). destruct u as [[fwd|]|k|]; try (destruct H3; discriminate).
      * apply try_unwrap_Ok in H2 as (next & v & kid & found & F & M & ->). apply IH in H3 as (rew & anon & text1 & tr5 & tr6 & -> & O & X).
        exists true, (match anon with Some l => Some l | None => Some (recipient_kids j, alg) end), text1, (tr1 ++ tr3 ++ tr5), tr6.
        split; [now rewrite !app_assoc|]. split.
        -- apply outer_fwd with (pt := pt) (next := next) (v := v) (kid := kid) (found := found) (rew := rew); auto.
           ++ eapply anon_opened_incl; [|exact A]. now apply incl_appl.
           ++ eapply asked_next_incl; [|exact M]. apply incl_appr. now apply incl_appl.
           ++ eapply outer_incl; [|exact O]. apply incl_appr. now apply incl_appr.
        -- replace (md_of true _ md0) with (md_of rew anon (md_rewrapped (md_anon (recipient_kids j) alg md0))); auto.
           destruct anon as [[? ?]|], rew; reflexivity.
      * apply try_unwrap_Ok in H2. apply R in H3. exists false, (Some (recipient_kids j, alg)), pt, (tr1 ++ tr3), tr4.
        split; [now rewrite app_assoc|]. split; auto. constructor.
        -- eapply anon_opened_incl; [|exact A]. now apply incl_appl.
        -- intros _. destruct H2 as [G|[G|(next & v & G1 & G2)]]; auto. right. right. exists next, v. split; auto.
           eapply asked_next_incl; [|exact G2]. now apply incl_appr.
    + apply R in H2. exists false, (Some (recipient_kids j, alg)), pt, tr1, tr2. split; auto. split; auto.
      constructor; auto. congruence.
  - apply try_anoncrypt_None in H1 as [-> N]. apply R in H2. exists false, None, text, [], tr2. split; auto. split; [now constructor|].
    destruct md0; exact H2.
Qed.

Lemma unpack_inv C fuel text o tr m md : exec (unpack C fuel text o) tr (Some (Ok (m, md))) -> unpacked C o tr text m md.
Proof.
  intros H. unfold unpack in H. apply unpack_loop_Ok in H as (rew & anon & text1 & tr1 & tr2 & -> & O & H).
  unfold unpack_rest in H. apply exec_pbind_Ok in H as (ta & tb & a & -> & Ha & H).
  set (md1 := md_of rew anon um_init) in *.
  assert (HA : exists auth text2 md2, match a with Some (m, d) => (m, d) | None => (text1, md1) end = (text2, md2)
     /\ match auth with
       | None => text2 = text1 /\ not_jwe C Ecdh1puA256kw text1
       | Some (kids, from) => exists j, auth_opened C ta (uo_all_keys o) text1 j from text2 /\ kids = recipient_kids j
       end /\ md2 = match auth with None => md1 | Some (kids, from) => md_auth kids from md1 end).
  { destruct a as [[pt d]|].
    - apply try_authcrypt_Some in Ha as (j & from & A & -> & _). exists (Some (recipient_kids j, from)), pt. eexists. repeat split; eauto.
    - apply try_authcrypt_None in Ha as [-> N]. exists None, text1, md1. auto. }
  destruct HA as (auth & text2 & md2 & E & PA & M2). rewrite E in H. clear E Ha a. cbv beta iota in H.
  apply exec_pbind_Ok in H as (tc & td & s & -> & Hs & H).
  assert (HS : exists sign text3 md3, match s with Some (m, d) => (m, d) | None => (text2, md2) end = (text3, md3)
     /\ match sign with
       | None => text3 = text2 /\ jws_from_str text2 = Err Malformed
       | Some (kid, sa) => signed_by C tc text2 kid sa text3
       end /\ md3 = match sign with None => md2 | Some (kid, sa) => md_sign sa kid text2 md2 end).
  { destruct s as [[pt d]|].
    - apply try_sign_Some in Hs as (kid & sa & A & ->). exists (Some (kid, sa)), pt. eexists. repeat split; eauto.
    - apply try_sign_None in Hs as [-> N]. exists None, text2, md2. auto. }
  destruct HS as (sign & text3 & md3 & E & PS & M3). rewrite E in H. clear E Hs s. cbv beta iota in H.
  apply exec_pbind_Ok in H as (te & tf & p & -> & Hp & [-> H]). destruct p as [[m' md']|]; [|discriminate]. injection H as <- <-.
  apply try_plaintext_Some in Hp as (HM & HT & HP). rewrite app_nil_r.
  assert (I1 : incl tr1 (tr1 ++ ta ++ tc ++ te)) by (apply incl_appl, incl_refl).
  assert (I2 : incl ta (tr1 ++ ta ++ tc ++ te)) by (apply incl_appr, incl_appl, incl_refl).
  assert (I3 : incl tc (tr1 ++ ta ++ tc ++ te)) by (apply incl_appr, incl_appr, incl_appl, incl_refl).
  assert (I4 : incl te (tr1 ++ ta ++ tc ++ te)) by (apply incl_appr, incl_appr, incl_appr, incl_refl).
  assert (exists prior, match prior with
       | None => msg_from_prior m = None
       | Some (p, kid) => exists jwt, msg_from_prior m = Some jwt /\ rotation_by C (tr1 ++ ta ++ tc ++ te) jwt p kid
       end /\ md = match prior with None => md3 | Some (p, kid) => md_prior p kid md3 end) as (prior & PP & M4).
  { destruct HP as [(E & -> & _)|(jwt & p & kid & E & R & ->)]; [exists None; auto|]. exists (Some (p, kid)). split; auto.
    exists jwt. split; auto. eapply rotation_by_incl; [exact I4|exact R]. }
  exists rew, anon, auth, sign, prior, text1, text2, text3.
  split; [exact (outer_incl _ _ _ _ _ _ _ _ I1 O)|]. split.
  { destruct auth as [[kids from]|]; auto. destruct PA as (j & A & ->). exists j. split; auto. eapply auth_opened_incl; [exact I2|exact A]. }
  split. { destruct sign as [[kid sa]|]; auto. eapply signed_by_incl; [exact I3|exact PS]. }
  repeat split; auto.
  rewrite M4, M3, M2. unfold md1. clear. destruct auth as [[kids from]|], sign as [[kid sa]|], prior as [[p kid']|], anon as [[ks al]|], rew; reflexivity.
Qed.
