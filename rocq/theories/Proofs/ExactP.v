(** What unpack accepts, exactly. *)
From Verif.Model Require Import Prelude Utf8 Base64 Json Serde DidDoc Crypto Keys Effects Jws Jwe Message FromPrior Pack Routing Unpack.
From Verif.Spec Require Import Small Codec Text Sane Events World Accept.
From Verif.Proofs Require Import Lib Base64P SmallP Wp Errs NoPanic UnpackInv RejectP WorldP TextP SaneP SealP RoundP AcceptP.

Section Exact.
Context (C : crypto) (dir : bytes -> option diddoc) (own : bytes -> option secret).
Notation ans := (answers dir own).
Notation go := (safe ans).

(** ** Accepted texts are acceptable *)
Lemma resolved_dir tr did doc : Forall ans tr -> resolved tr did doc -> dir did = Some doc.
Proof. intros A R. rewrite Forall_forall in A. apply A in R. cbn in R. symmetry. exact (Ok_inj _ _ R). Qed.
Lemma held_own tr kid sec : Forall ans tr -> held tr kid sec -> own kid = Some sec.
Proof. intros A R. rewrite Forall_forall in A. apply A in R. cbn in R. symmetry. exact (Ok_inj _ _ R). Qed.
Lemma reported_own tr ids found : Forall ans tr -> reported tr ids found -> forall i, In i found <-> In i ids /\ exists s, own i = Some s.
Proof. intros A R. rewrite Forall_forall in A. apply A in R. cbn in R. destruct R as (f & E & F). apply Ok_inj in E. now subst. Qed.

Lemma tried_opens tr all kids found open pt : Forall ans tr -> reported tr kids found ->
  tried C tr all found open pt -> opens_some C own all kids open pt.
Proof.
  intros A R T. pose proof (reported_own _ _ _ A R) as F. unfold tried in T. unfold opens_some.
  assert (OK : forall kid p, (exists sec ka k, held tr kid sec /\ sec_key_pair C sec = Ok (ka, k) /\ open kid ka k p) ->
    exists sec, own kid = Some sec /\ exists ka k, sec_key_pair C sec = Ok (ka, k) /\ open kid ka k p).
  { intros kid p (sec & ka & k & H1 & H2 & H3). exists sec. split; [eapply held_own; eauto|eauto]. }
  destruct all; split.
  - destruct T as (l & kid & -> & K & _). apply OK in K as (sec & K). exists kid, sec. split; auto.
    apply (proj1 (F kid)). apply in_or_app. right. now left.
  - intros _ kid sec I O. destruct T as (l & kid' & -> & K & G). assert (J : In kid (l ++ [kid'])) by (apply F; eauto).
    apply in_app_or in J as [J|[<-|[]]].
    + destruct (G _ J) as (p & K'). apply OK in K' as (sec' & E & K'). exists p. rewrite O in E. injection E as <-. auto.
    + apply OK in K as (sec' & E & K). exists pt. rewrite O in E. injection E as <-. auto.
  - destruct T as (kid & l & -> & K). apply OK in K as (sec & K). exists kid, sec. split; auto. apply (proj1 (F kid)). now left.
  - discriminate.
Qed.

Lemma anon_sound text o md tr pt md' : exec (try_anoncrypt C text o md) tr (Ok (Some (pt, md'))) -> Forall ans tr ->
  exists j alg, anon_valid C (opens_some C own (uo_all_keys o)) text j alg pt /\ md' = md_anon (recipient_kids j) alg md.
Proof.
  intros H A. apply try_anoncrypt_Some in H as (j & alg & (h & apv & found & ce & H1 & H2 & H3 & H4 & H5 & H6 & H7 & H8 & R & T) & -> & U).
  exists j, alg. split; [|reflexivity]. exists h, apv, ce. do 9 (split; auto). exact (tried_opens _ _ _ _ _ _ A R T).
Qed.
Lemma auth_sound text o md tr pt md' : exec (try_authcrypt C text o md) tr (Ok (Some (pt, md'))) -> Forall ans tr ->
  exists j from, auth_valid C dir (opens_some C own (uo_all_keys o)) text j from pt /\ md' = md_auth (recipient_kids j) from md.
Proof.
  intros H A. apply try_authcrypt_Some in H as (j & from & (h & apv & found & did & doc & ka & fk & H1 & H2 & H3 & H4 & H5 & H6 & H7 & H8 & H9 & H10 & RD & PU & R & KA & T) & -> & U).
  exists j, from. split; [|reflexivity]. exists h, apv, did, doc, ka, fk. do 11 (split; auto). split; [eapply resolved_dir; eauto|].
  do 2 (split; auto). exact (tried_opens _ _ _ _ _ _ A R T).
Qed.
Lemma anon_none text o md tr : exec (try_anoncrypt C text o md) tr (Ok None) -> other_jwe C EcdhEsA256kw text.
Proof.
  intros H. unfold try_anoncrypt in H. step H. destruct a as [j|]; [|left; now apply soft_None in E].
  apply soft_Some in E. step H. apply jwe_parse_Ok in E0 as (Ej & (hb & Hb & Hh) & Ha & Hu). right. exists j, (pj_protected a), (pj_apv a), (pj_apu a).
  split; [split; eauto|]. split; [|auto]. destruct (ph_alg (pj_protected a)) eqn:Al; try discriminate. exfalso. nope H.
Qed.
Lemma auth_none text o md tr : exec (try_authcrypt C text o md) tr (Ok None) -> other_jwe C Ecdh1puA256kw text.
Proof.
  intros H. unfold try_authcrypt in H. step H. destruct a as [j|]; [|left; now apply soft_None in E].
  apply soft_Some in E. step H. apply jwe_parse_Ok in E0 as (Ej & (hb & Hb & Hh) & Ha & Hu). right. exists j, (pj_protected a), (pj_apv a), (pj_apu a).
  split; [split; eauto|]. split; [|auto]. destruct (ph_alg (pj_protected a)) eqn:Al; try discriminate. exfalso. nope H.
Qed.
Lemma signed_world tr text kid sa pl : Forall ans tr -> signed_by C tr text kid sa pl -> signed_valid C dir text kid sa pl.
Proof.
  intros A (j & sg & hb & h & did & doc & ka & k & st & s & H1 & H2 & H3 & H4 & H5 & H6 & H7 & RD & H).
  exists j, sg, hb, h, did, doc, ka, k, st, s. do 7 (split; auto). split; [eapply resolved_dir; eauto|auto].
Qed.
Lemma rotation_world tr jwt p kid : Forall ans tr -> rotation_by C tr jwt p kid -> rotation_valid C dir jwt p kid.
Proof.
  intros A (hd & pl & sg & hb & h & did & doc & ka & k & st & sa & s & payload & H1 & H2 & H3 & H4 & H5 & H6 & H7 & H8 & H9 & H10 & RD & H).
  exists hd, pl, sg, hb, h, did, doc, ka, k, st, sa, s, payload. do 10 (split; auto). split; [eapply resolved_dir; eauto|auto].
Qed.
Lemma asked_mine tr next kid found : Forall ans tr -> asked_next tr next (kid :: found) -> mine dir own next.
Proof.
  intros A (ids & R & H). pose proof (proj1 (reported_own _ _ _ A R kid) (or_introl eq_refl)) as (I & s & O).
  destruct H as [[U ->]|(N & doc & RD & ->)].
  - left. split; auto. destruct I as [<-|[]]. congruence.
  - right. split; auto. exists doc. split; [eapply resolved_dir; eauto|]. now exists kid, s.
Qed.
Lemma asked_foreign tr next : Forall ans tr -> asked_next tr next [] -> foreign dir own next.
Proof.
  intros A (ids & R & H). pose proof (fun i => proj2 (reported_own _ _ _ A R i)) as F.
  assert (G : forall i, In i ids -> own i = None). { intros i I. destruct (own i) as [s|] eqn:O; auto. destruct (F i); eauto. }
  destruct H as [[U ->]|(N & doc & RD & ->)].
  - left. split; auto. apply G. now left.
  - right. split; auto. exists doc. split; [eapply resolved_dir; eauto|auto].
Qed.

Lemma loop_sound o fuel : forall text md0 tr m md,
  exec (unpack_loop C fuel text o md0) tr (Some (Ok (m, md))) -> Forall ans tr ->
  exists n rew anon text1 tr', n < fuel /\ layers C dir own (opens_some C own (uo_all_keys o)) o n text rew anon text1
    /\ Forall ans tr' /\ exec (unpack_rest C text1 o (md_of rew anon md0)) tr' (Ok (m, md)).
Proof.
  induction fuel as [|f IH]; intros text md0 tr m md H A; cbn [unpack_loop] in H; [destruct H; discriminate|].
  apply exec_bind in H as (tr1 & tr2 & r & -> & H1 & H2). apply Forall_app in A as [A1 A2].
  assert (R : forall tr2 text md1, exec (bind (unpack_rest C text o md1) (fun x => Ret (Some x))) tr2 (Some (Ok (m, md))) ->
     exec (unpack_rest C text o md1) tr2 (Ok (m, md))).
  { intros t x md1 X. apply exec_bind in X as (t1 & t2 & y & -> & X & [-> Y]). injection Y as <-. now rewrite app_nil_r. }
  destruct r as [[[pt md1]|]|k|]; try (destruct H2; discriminate).
  - apply anon_sound in H1 as (j & alg & V & ->); auto. destruct (uo_unwrap o) eqn:U.
    + apply exec_bind in H2 as (tr3 & tr4 & u & -> & H2 & H3). apply Forall_app in A2 as [A3 A4].
      destruct u as [[fwd|]|k|]; try (destruct H3; discriminate).
      * apply try_unwrap_Ok in H2 as (next & v & kid & found & F & M & ->). apply IH in H3 as (n & rew & anon & text1 & tr' & LT & L & A' & X); auto.
        exists (S n), true, (match anon with Some l => Some l | None => Some (recipient_kids j, alg) end), text1, tr'.
        split; [lia|]. split. { exact (layers_fwd C dir own _ o n text j alg pt next v rew anon text1 V U F (asked_mine _ _ _ _ A3 M) L). }
        split; auto. replace (md_of true _ md0) with (md_of rew anon (md_rewrapped (md_anon (recipient_kids j) alg md0))); auto.
        destruct anon as [[? ?]|], rew; reflexivity.
      * apply try_unwrap_Ok in H2. apply R in H3. exists 0, false, (Some (recipient_kids j, alg)), pt, tr4. split; [lia|]. split; auto. constructor; auto.
        intros _. destruct H2 as [G|[G|(next & v & G1 & G2)]]; auto. right. right. exists next, v. split; auto. exact (asked_foreign _ _ A3 G2).
    + apply R in H2. exists 0, false, (Some (recipient_kids j, alg)), pt, tr2. split; [lia|]. split; auto. constructor; auto. congruence.
  - apply anon_none in H1. apply R in H2. exists 0, false, None, text, tr2. split; [lia|]. split; [now constructor|]. split; auto.
    destruct md0; exact H2.
Qed.

Lemma acceptable_sound fuel text o tr m md : exec (unpack C fuel text o) tr (Some (Ok (m, md))) -> Forall ans tr ->
  exists n, n < fuel /\ acceptable C dir own o n text m md.
Proof.
  intros H A. unfold unpack in H. apply loop_sound in H as (n & rew & anon & text1 & tr' & LT & L & A' & H); auto. clear A tr.
  unfold unpack_rest in H. apply exec_pbind_Ok in H as (ta & tb & a & -> & Ha & H). apply Forall_app in A' as [Aa Ab].
  set (md1 := md_of rew anon um_init) in *.
  assert (HA : exists auth text2 md2, match a with Some (m, d) => (m, d) | None => (text1, md1) end = (text2, md2)
     /\ match auth with
       | None => text2 = text1 /\ other_jwe C Ecdh1puA256kw text1
       | Some (kids, from) => exists j, auth_valid C dir (opens_some C own (uo_all_keys o)) text1 j from text2 /\ kids = recipient_kids j
       end /\ md2 = match auth with None => md1 | Some (kids, from) => md_auth kids from md1 end).
  { destruct a as [[pt d]|].
    - apply auth_sound in Ha as (j & from & V & ->); auto. exists (Some (recipient_kids j, from)), pt. eexists. repeat split; eauto.
    - apply auth_none in Ha. exists None, text1, md1. auto. }
  destruct HA as (auth & text2 & md2 & E & PA & M2). rewrite E in H. clear E Ha a. cbv beta iota in H.
  apply exec_pbind_Ok in H as (tc & td & s & -> & Hs & H). apply Forall_app in Ab as [Ac Ad].
  assert (HS : exists sign text3 md3, match s with Some (m, d) => (m, d) | None => (text2, md2) end = (text3, md3)
     /\ match sign with
       | None => text3 = text2 /\ jws_from_str text2 = Err Malformed
       | Some (kid, sa) => signed_valid C dir text2 kid sa text3
       end /\ md3 = match sign with None => md2 | Some (kid, sa) => md_sign sa kid text2 md2 end).
  { destruct s as [[pt d]|].
    - apply try_sign_Some in Hs as (kid & sa & V & ->). exists (Some (kid, sa)), pt. eexists. repeat split; eauto. exact (signed_world _ _ _ _ _ Ac V).
    - apply try_sign_None in Hs as [-> N]. exists None, text2, md2. auto. }
  destruct HS as (sign & text3 & md3 & E & PS & M3). rewrite E in H. clear E Hs s. cbv beta iota in H.
  apply exec_pbind_Ok in H as (te & tf & p & -> & Hp & [-> H]). destruct p as [[m' md']|]; [|discriminate]. injection H as <- <-.
  apply Forall_app in Ad as [Ae _]. apply try_plaintext_Some in Hp as (HM & HT & HP).
  assert (exists prior, match prior with
       | None => msg_from_prior m = None
       | Some (p, kid) => exists jwt, msg_from_prior m = Some jwt /\ rotation_valid C dir jwt p kid
       end /\ md = match prior with None => md3 | Some (p, kid) => md_prior p kid md3 end) as (prior & PP & M4).
  { destruct HP as [(E & -> & _)|(jwt & p & kid & E & R & ->)]; [exists None; auto|]. exists (Some (p, kid)). split; auto.
    exists jwt. split; auto. exact (rotation_world _ _ _ _ Ae R). }
  exists n. split; auto. exists rew, anon, auth, sign, prior, text1, text2, text3.
  do 6 (split; auto). rewrite M4, M3, M2. unfold md1. clear.
  destruct auth as [[kids from]|], sign as [[kid sa]|], prior as [[p kid']|], anon as [[ks al]|], rew; reflexivity.
Qed.

(** ** Acceptable texts are accepted by some execution *)
Definition can {A} (p : prog A) (a : A) : Prop := exists tr, exec p tr a /\ Forall ans tr.
Lemma can_bind {A B} (p : prog A) a (f : A -> prog B) b : can p a -> can (f a) b -> can (bind p f) b.
Proof. intros (t1 & H1 & A1) (t2 & H2 & A2). exists (t1 ++ t2). split; [apply exec_bind; eauto 6|now apply Forall_app]. Qed.
Lemma can_pbind {A B} (p : prog (res A)) a (f : A -> prog (res B)) b : can p (Ok a) -> can (f a) b -> can (pbind p f) b.
Proof. intros H K. unfold pbind. eapply can_bind; [exact H|exact K]. Qed.
Lemma can_ret {A} (a : A) : can (Ret a) a.
Proof. exists []. split; [split; reflexivity|constructor]. Qed.
Lemma can_do {A} o r (k : resp o -> prog A) a : ans (Ev o r) -> can (k r) a -> can (Do o k) a.
Proof. intros H (t & E & F). exists (Ev o r :: t). split; [|now constructor]. cbn. eauto. Qed.
Lemma can_any {A} (p : prog A) : exists a, can p a.
Proof.
  induction p as [a|o k IH]; [exists a; apply can_ret|].
  assert (R : exists r, ans (Ev o r)).
  { destruct o as [did|ids|i|u].
    - now exists (Ok (dir did)).
    - exists (Ok (filter (fun i => match own i with Some _ => true | None => false end) ids)). eexists. split; [reflexivity|].
      intros i. rewrite filter_In. destruct (own i) as [s|]; [split; [intros [H _]; eauto|intros [H _]; auto]|split; [intros [_ H]; discriminate|intros [_ [s H]]; discriminate]].
    - now exists (Ok (own i)).
    - exists []. destruct u; cbn; auto. }
  destruct R as (r & R). destruct (IH r) as (a & H). exists a. eapply can_do; eauto.
Qed.
Lemma safe_can {A} (p : prog A) a : go p (fun r => r = a) -> can p a.
Proof. intros S. destruct (can_any p) as (b & tr & E & F). rewrite <- (safe_exec _ _ _ _ _ S E F). now exists tr. Qed.

Lemma loop_can {A} (all : bool) (open : bytes -> kalg -> key C -> res A) found last pt :
  (forall kid, In kid found -> exists sec, own kid = Some sec) ->
  (if all then exists l kid, found = l ++ [kid]
      /\ (forall sec, own kid = Some sec -> exists ka k, sec_key_pair C sec = Ok (ka, k) /\ open kid ka k = Ok pt)
      /\ forall kid' sec, In kid' l -> own kid' = Some sec -> exists ka k x, sec_key_pair C sec = Ok (ka, k) /\ open kid' ka k = Ok x
   else exists kid l, found = kid :: l /\ forall sec, own kid = Some sec -> exists ka k, sec_key_pair C sec = Ok (ka, k) /\ open kid ka k = Ok pt) ->
  can (open_loop C all open found last) (Ok pt).
Proof.
  assert (G : forall kid sec ka k x (f : bytes -> kalg -> key C -> A -> prog (res A)) b, own kid = Some sec -> sec_key_pair C sec = Ok (ka, k) -> open kid ka k = Ok x ->
     can (f kid ka k x) b ->
     can (pbind (get_secret kid) (fun sec => pbind (Ret (ok_or InvalidState sec)) (fun sec => pbind (Ret (sec_key_pair C sec)) (fun '(ka, k) =>
       pbind (Ret (open kid ka k)) (fun a => f kid ka k a))))) b).
  { intros kid sec ka k x f b O S P K. unfold get_secret. eapply (can_pbind _ (Some sec)).
    - apply (can_do (OGetSecret kid) (Ok (Some sec))); [cbn; now rewrite O|apply can_ret].
    - cbn [ok_or pbind bind]. rewrite S. cbn [pbind bind]. rewrite P. exact K. }
  intros H. destruct all.
  - intros (l & kid & -> & K & F). revert last. induction l as [|k0 l IH]; intros last; cbn [app open_loop].
    + destruct (H kid) as (sec & O); [now left|]. destruct (K _ O) as (ka & k & S & P).
      apply (G kid sec ka k pt (fun _ _ _ a => open_loop C true open [] (Some a))); auto. apply can_ret.
    + destruct (H k0) as (sec & O); [now left|]. destruct (F k0 sec (or_introl eq_refl) O) as (ka & k & x & S & P).
      apply (G k0 sec ka k x (fun _ _ _ a => open_loop C true open (l ++ [kid]) (Some a))); auto.
      apply IH; [intros; apply H; now right|intros; eapply F; eauto; now right].
  - intros (kid & l & -> & K). cbn [open_loop]. destruct (H kid) as (sec & O); [now left|]. destruct (K _ O) as (ka & k & S & P).
    apply (G kid sec ka k pt (fun _ _ _ a => Ret (Ok a))); auto. apply can_ret.
Qed.

(** An answer of the secrets resolver with which the keys are tried in the right order. *)
Lemma order_found all kids open pt : opens_some C own all kids open pt -> exists found, found <> []
  /\ (forall i, In i found <-> In i kids /\ exists s, own i = Some s)
  /\ let opening kid pt := forall sec, own kid = Some sec -> exists ka k, sec_key_pair C sec = Ok (ka, k) /\ open kid ka k pt in
     if all then exists l kid, found = l ++ [kid] /\ opening kid pt /\ forall kid', In kid' l -> exists pt', opening kid' pt'
     else exists kid l, found = kid :: l /\ opening kid pt.
Proof.
  intros [(kid & sec & I & O & KO) ALL]. set (l := filter (fun i => match own i with Some _ => true | None => false end) kids).
  assert (L : forall i, In i l <-> In i kids /\ exists s, own i = Some s).
  { intros i. unfold l. rewrite filter_In. destruct (own i) as [s|]; [split; [intros [H _]; eauto|intros [H _]; auto]|split; [intros [_ H]; discriminate|intros [_ [s H]]; discriminate]]. }
  assert (U : forall p, (exists ka k, sec_key_pair C sec = Ok (ka, k) /\ open kid ka k p) -> forall sec', own kid = Some sec' -> exists ka k, sec_key_pair C sec' = Ok (ka, k) /\ open kid ka k p).
  { intros p H sec' O'. rewrite O in O'. injection O' as <-. exact H. }
  destruct all.
  - exists (l ++ [kid]). split; [now destruct l|]. split.
    { intros i. rewrite in_app_iff, L. cbn. split; [|tauto]. intros [H|[<-|[]]]; eauto. }
    exists l, kid. split; auto. split; [now apply U|]. intros kid' J. apply L in J as (J & s & O').
    destruct (ALL eq_refl kid' s J O') as (p & _ & H). exists p. intros s' O2. rewrite O' in O2. injection O2 as <-. exact H.
  - exists (kid :: l). split; [discriminate|]. split.
    { intros i. cbn. rewrite L. split; [|tauto]. intros [<-|H]; eauto. }
    exists kid, l. split; auto.
Qed.

Lemma anon_can text j alg pt o md : anon_valid C (opens_some C own (uo_all_keys o)) text j alg pt ->
  can (try_anoncrypt C text o md) (Ok (Some (pt, md_anon (recipient_kids j) alg md))).
Proof.
  intros (h & apv & ce & E & A & EN & AN & SK & AP & AF & OD & U & OP). apply order_found in OP as (found & NE & F & OP).
  destruct (envelope_parses _ _ _ _ _ _ E AP AN) as [J P]. unfold try_anoncrypt. rewrite J.
  cbn [soft]. eapply can_pbind; [apply can_ret|]. cbv beta iota. rewrite P. eapply can_pbind; [apply can_ret|]. cbv beta. cbn [pj_protected]. rewrite A.
  eapply (can_pbind _ (mkPJ j h None apv)).
  { rewrite verify_spec. cbn [pj_apv pj_jwe pj_apu pj_protected]. rewrite SK. apply apv_for_spec in AF. rewrite <- AF, beq_refl. apply can_ret. }
  cbv beta zeta. fold (recipient_kids j). rewrite (proj2 (check_recipients_spec _) OD). eapply can_pbind; [apply can_ret|]. cbv beta.
  eapply (can_pbind _ found). { unfold find_secrets. apply (can_do (OFindSecrets (recipient_kids j)) (Ok found)); [cbn; eauto|apply can_ret]. }
  cbv beta. destruct found as [|k0 found]; [congruence|].
  assert (OO : forall kid p, (forall sec, own kid = Some sec -> exists ka k, sec_key_pair C sec = Ok (ka, k) /\ (ka = KX25519 \/ ka = KP256) /\ opened C ce ka j h None kid k p) ->
    forall sec, own kid = Some sec -> exists ka k, sec_key_pair C sec = Ok (ka, k) /\ anon_open C (mkPJ j h None apv) kid ka k = Ok (p, alg)).
  { intros kid p H sec O. destruct (H sec O) as (ka & k & S & KA & OO). exists ka, k. split; auto.
    unfold anon_open. cbn [pj_protected]. rewrite (proj2 (anon_cenc_Ok _ _ _) EN). cbn [rbind].
    pose proof (opened_decrypts C ce ka (mkPJ j h None apv) None kid k p AP eq_refl OO) as D. cbv iota in D. rewrite D.
    destruct KA as [-> | ->]; reflexivity. }
  eapply (can_pbind _ (pt, alg)).
  - apply loop_can; [intros kid I; now apply F in I|]. destruct (uo_all_keys o).
    + destruct OP as (l & kid & E' & K & G). exists l, kid. split; auto. split; [now apply OO|]. intros kid' sec I O. destruct (G _ I) as (p & H).
      destruct (OO _ _ H sec O) as (ka & k & ? & ?). eauto.
    + destruct OP as (kid & l & E' & K). exists kid, l. split; auto.
  - cbv iota. rewrite U. apply can_ret.
Qed.
Lemma auth_can text j from pt o md : auth_valid C dir (opens_some C own (uo_all_keys o)) text j from pt ->
  can (try_authcrypt C text o md) (Ok (Some (pt, md_auth (recipient_kids j) from md))).
Proof.
  intros (h & apv & did & doc & ka & fk & E & A & EN & AN & UF & SK & AP & AF & OD & U & URL & RD & PU & KA & OP).
  apply order_found in OP as (found & NE & F & OP).
  destruct (envelope_parses _ _ _ _ _ _ E AP AN) as [J P]. unfold try_authcrypt. rewrite J.
  cbn [soft]. eapply can_pbind; [apply can_ret|]. cbv beta iota. rewrite P. eapply can_pbind; [apply can_ret|]. cbv beta. cbn [pj_protected]. rewrite A.
  eapply (can_pbind _ (mkPJ j h (Some from) apv)).
  { rewrite verify_spec. cbn [pj_apv pj_jwe pj_apu pj_protected]. apply apv_for_spec in AF. rewrite <- AF, beq_refl, UF. cbn [andb].
    destruct SK as [-> | ->]; [apply can_ret|]. rewrite beq_refl. apply can_ret. }
  cbv beta. cbn [pj_apu ok_or]. eapply can_pbind; [apply can_ret|]. cbv beta. rewrite UF. cbn [negb].
  apply url_of_some in URL. rewrite URL. cbn [is_some negb].
  eapply (can_pbind _ (Some doc)).
  { unfold pkind, resolve. eapply (can_bind _ (Ok (Some doc))); [|apply can_ret]. apply (can_do (OResolve did) (Ok (Some doc))); [cbn; now rewrite RD|apply can_ret]. }
  cbv beta. cbn [ok_or]. eapply can_pbind; [apply can_ret|]. cbv beta.
  destruct (publishes_find C _ _ _ _ _ PU) as (vm & F1 & F2 & VK).
  rewrite F1. cbn [ok_or]. eapply can_pbind; [apply can_ret|]. cbv beta. rewrite F2. cbn [ok_or]. eapply can_pbind; [apply can_ret|]. cbv beta.
  rewrite VK. eapply can_pbind; [apply can_ret|]. cbv beta zeta. fold (recipient_kids j).
  rewrite (proj2 (check_recipients_spec _) OD). eapply can_pbind; [apply can_ret|]. cbv beta.
  eapply (can_pbind _ found). { unfold find_secrets. apply (can_do (OFindSecrets (recipient_kids j)) (Ok found)); [cbn; eauto|apply can_ret]. }
  cbv beta. destruct found as [|k0 found]; [congruence|].
  assert (OO : forall kid p, (forall sec, own kid = Some sec -> exists ka' k, sec_key_pair C sec = Ok (ka', k) /\ ka' = ka /\ opened C CA256CbcHs512 ka j h (Some (from, fk)) kid k p) ->
    forall sec, own kid = Some sec -> exists ka' k, sec_key_pair C sec = Ok (ka', k) /\ auth_open C (mkPJ j h (Some from) apv) from (ka, fk) kid ka' k = Ok p).
  { intros kid p H sec O. destruct (H sec O) as (ka' & k & S & -> & OO). exists ka, k. split; auto.
    pose proof (opened_decrypts C CA256CbcHs512 ka (mkPJ j h (Some from) apv) (Some (from, fk)) kid k p AP eq_refl OO) as D. cbv iota in D.
    unfold auth_open. cbn [fst snd pj_protected]. rewrite EN. destruct KA as [-> | ->]; exact D. }
  eapply (can_pbind _ pt).
  - apply loop_can; [intros kid I; now apply F in I|]. destruct (uo_all_keys o).
    + destruct OP as (l & kid & E' & K & G). exists l, kid. split; auto. split; [now apply OO|]. intros kid' sec I O. destruct (G _ I) as (p & H).
      destruct (OO _ _ H sec O) as (ka' & k & ? & ?). eauto.
    + destruct OP as (kid & l & E' & K). exists kid, l. split; auto.
  - cbv beta. rewrite U. apply can_ret.
Qed.

Lemma layers_can o n text rew anon text1 : layers C dir own (opens_some C own (uo_all_keys o)) o n text rew anon text1 -> forall fuel md x, n < fuel ->
  can (unpack_rest C text1 o (md_of rew anon md)) (Ok x) -> can (unpack_loop C fuel text o md) (Some (Ok x)).
Proof.
  induction 1 as [text N|text j alg pt A K|n text j alg pt next v rew last text' A U F M L IH]; intros fuel md x LT R;
    (destruct fuel as [|fuel]; [inversion LT|]); cbn [unpack_loop].
  - eapply can_bind; [apply safe_can, anon_other, N|]. cbv iota. eapply can_bind; [|apply can_ret].
    replace md with (md_of false None md) by (now destruct md). exact R.
  - eapply can_bind; [apply anon_can, A|]. cbv iota.
    assert (R' : can (unpack_rest C pt o (md_anon (recipient_kids j) alg md)) (Ok x)) by exact R.
    destruct (uo_unwrap o).
    + eapply can_bind; [apply safe_can, (unwrap_kept' C dir own), K; reflexivity|]. cbv iota. eapply can_bind; [exact R'|apply can_ret].
    + eapply can_bind; [exact R'|apply can_ret].
  - eapply can_bind; [apply anon_can, A|]. cbv iota. rewrite U.
    eapply can_bind; [eapply safe_can, unwrap_mine; eauto|]. cbv iota. apply IH; [lia|].
    replace (md_of rew last (md_rewrapped (md_anon (recipient_kids j) alg md)))
      with (md_of true (match last with Some l => Some l | None => Some (recipient_kids j, alg) end) md); [exact R|].
    unfold md_of, md_rewrapped, md_anon. cbn. destruct last; cbn; rewrite ?Bool.orb_true_r; reflexivity.
Qed.
Lemma acceptable_can o n text m md fuel : acceptable C dir own o n text m md -> n < fuel -> can (unpack C fuel text o) (Some (Ok (m, md))).
Proof.
  intros (rew & anon & auth & sign & prior & t1 & t2 & t3 & L & A & S & R & T & P & ->) LT. unfold unpack.
  eapply layers_can; [exact L|exact LT|]. unfold unpack_rest.
  set (md0 := md_of rew anon um_init).
  set (md1 := match auth with Some (kids, from) => md_auth kids from md0 | None => md0 end).
  eapply (can_pbind _ (option_map (fun '(kids, from) => (t2, md_auth kids from md0)) auth)).
  { destruct auth as [[kids from]|].
    - destruct A as (j & A & ->). apply auth_can, A.
    - destruct A as [-> A]. apply safe_can, auth_other, A. }
  cbv beta. replace (match option_map _ auth with Some (m0, d) => (m0, d) | None => (t1, md0) end) with (t2, md1)
    by (subst md1; destruct auth as [[kids from]|]; [reflexivity|destruct A as [-> _]; reflexivity]).
  cbv iota zeta.
  set (md2 := match sign with Some (kid, sa) => md_sign sa kid t2 md1 | None => md1 end).
  eapply (can_pbind _ (option_map (fun '(kid, sa) => (t3, md_sign sa kid t2 md1)) sign)).
  { destruct sign as [[kid sa]|].
    - apply safe_can, sign_accept, S.
    - destruct S as [-> S]. unfold try_sign. rewrite S. apply can_ret. }
  cbv beta. replace (match option_map _ sign with Some (m0, d) => (m0, d) | None => (t2, md1) end) with (t3, md2)
    by (subst md2; destruct sign as [[kid sa]|]; [reflexivity|destruct S as [-> _]; reflexivity]).
  cbv iota zeta. eapply can_pbind; [eapply safe_can, plain_accept; eauto|]. cbn [ok_or].
  match goal with |- can (Ret ?x) ?y => replace y with x; [apply can_ret|] end. do 2 f_equal.
  subst md2 md1 md0. unfold with_prior, md_of, md_auth, md_sign, md_prior, um_init.
  destruct prior as [[p kid]|], sign as [[kid' sa]|], auth as [[kids from]|], anon as [[ks al]|], rew; reflexivity.
Qed.

Lemma accepted_iff o text m md fuel :
  (exists tr, exec (unpack C fuel text o) tr (Some (Ok (m, md))) /\ Forall ans tr) <-> exists n, n < fuel /\ acceptable C dir own o n text m md.
Proof.
  split.
  - intros (tr & H & A). eapply acceptable_sound; eauto.
  - intros (n & LT & H). eapply acceptable_can; eauto.
Qed.

(** ** One key *)
Lemma carries_mono (op op' : list bytes -> (bytes -> kalg -> key C -> bytes -> Prop) -> bytes -> Prop) o n text m md :
  (forall kids open pt, op kids open pt -> op' kids open pt) ->
  carries C dir own op o n text m md -> carries C dir own op' o n text m md.
Proof.
  intros M (rew & anon & auth & sign & prior & t1 & t2 & t3 & L & A & H).
  assert (AN : forall text j alg pt, anon_valid C op text j alg pt -> anon_valid C op' text j alg pt).
  { intros x j alg pt (h & apv & ce & H1 & H2 & H3 & H4 & H5 & H6 & H7 & H8 & H9 & OP). exists h, apv, ce. do 9 (split; auto). }
  exists rew, anon, auth, sign, prior, t1, t2, t3. split.
  { clear A H. induction L as [text N|text j alg pt V K|n text j alg pt next v rew last text' V U F I L IH].
    - now constructor.
    - constructor; auto.
    - eapply layers_fwd; eauto. }
  split; [|exact H]. destruct auth as [[kids from]|]; [|exact A]. destruct A as (j & (h & apv & did & doc & ka & fk & A) & ->).
  exists j. split; [|reflexivity]. exists h, apv, did, doc, ka, fk.
  destruct A as (H1 & H2 & H3 & H4 & H5 & H6 & H7 & H8 & H9 & H10 & H11 & H12 & H13 & H14 & OP). do 14 (split; auto).
Qed.
Lemma valid_acceptable o n text m md : valid C dir own o n text m md -> acceptable C dir own o n text m md.
Proof.
  apply carries_mono. intros kids open pt [(kid & sec & I & O) F]. split.
  - exists kid, sec. split; auto.
  - intros _ kid' sec' I' O'. exists pt. split; auto.
Qed.
Lemma acceptable_valid o n text m md : (forall i j s t, own i = Some s -> own j = Some t -> i = j) ->
  acceptable C dir own o n text m md -> valid C dir own o n text m md.
Proof.
  intros ONE. apply carries_mono. intros kids open pt [(kid & sec & I & O & K) _]. split; [now exists kid, sec|].
  intros kid' sec' I' O'. pose proof (ONE _ _ _ _ O O') as <-. rewrite O in O'. injection O' as <-. exact K.
Qed.
Lemma one_key_iff o text m md fuel tr x : (forall i j s t, own i = Some s -> own j = Some t -> i = j) ->
  exec (unpack C fuel text o) tr x -> Forall ans tr ->
  (x = Some (Ok (m, md)) <-> exists n, n < fuel /\ valid C dir own o n text m md).
Proof.
  intros ONE X A. split.
  - intros ->. apply acceptable_sound in X as (n & LT & H); auto. exists n. split; auto. now apply acceptable_valid.
  - intros (n & LT & V). exact (safe_exec _ _ _ _ _ (valid_accepted C dir own o n text m md fuel V LT) X A).
Qed.

(** ** Plaintext *)
Lemma plain_valid text m prior o : only_plain C text -> message_from_str (fparse C) text = Ok m ->
  msg_typ m = B "application/didcomm-plain+json" ->
  match prior with
  | None => msg_from_prior m = None
  | Some (p, kid) => exists jwt, msg_from_prior m = Some jwt /\ rotation_valid C dir jwt p kid
  end -> valid C dir own o 0 text m (metadata None None None prior).
Proof.
  intros (N1 & N2 & N3) R T P. exists false, None, None, None, prior, text, text, text.
  split; [now constructor|]. do 5 (split; auto).
Qed.
Lemma plain_valid_inv fuel text o tr m prior : exec (unpack C fuel text o) tr (Some (Ok (m, metadata None None None prior))) -> Forall ans tr ->
  only_plain C text /\ message_from_str (fparse C) text = Ok m /\ msg_typ m = B "application/didcomm-plain+json".
Proof.
  intros H A. apply acceptable_sound in H as (n & _ & rew & anon & auth & sign & pr & t1 & t2 & t3 & L & Au & S & R & T & P & M); auto.
  pose proof (f_equal um_encrypted M) as M1. pose proof (f_equal um_non_repudiation M) as M2. cbn in M1, M2.
  destruct anon, auth as [[? ?]|], sign as [[? ?]|]; try discriminate. destruct S as [-> S]. destruct Au as [-> Au].
  inversion L; subst; [|now destruct last]. repeat split; auto.
Qed.
End Exact.

Lemma comes_back_iff C dir own own' m tr text fuel o tr' x : floats_stable (fparse C) ->
  exec (pack_plaintext C m) tr (Ok text) -> Forall (answers dir own) tr ->
  exec (unpack C (S fuel) text o) tr' x -> Forall (answers dir own') tr' ->
  ((exists prior, x = Some (Ok (m, metadata None None None prior)))
   <-> message_sane C m /\ msg_typ m = B "application/didcomm-plain+json" /\ only_plain C text).
Proof.
  intros FS P A X A'. destruct (pack_plaintext_Ok C dir own m tr text P A) as (-> & prior & RO & _). split.
  - intros (pr & ->). apply (plain_valid_inv C dir own') in X as (N & R & T); auto. split; [exact (read_sane C FS _ _ R)|auto].
  - intros (SA & T & N). exists prior.
    refine (safe_exec _ _ _ _ _ (valid_accepted C dir own' o 0 _ m _ (S fuel) _ (Nat.lt_0_succ _)) X A').
    apply plain_valid; auto.
    + rewrite message_written. exact (sane_reread C m SA).
    + unfold rotation_of in RO. destruct prior as [[p kid]|]; [|exact RO]. destruct RO as (jwt & E & R). exists jwt. split; auto.
      exact (rotation_world C dir own tr jwt p kid A R).
Qed.
