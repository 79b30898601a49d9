(** Error kinds. *)
From Verif.Model Require Import Prelude Utf8 Base64 Json Serde Base58 DidDoc Crypto Keys Effects Jws Jwe Message FromPrior Pack Routing Unpack.
From Verif.Spec Require Import Small Events Packing Conc Asked Blame.
From Verif.Proofs Require Import Lib SmallP Errs Wp UnpackInv UnpackP SealP PackP RouteP AskedP.

(** ** Functions without calls *)
Definition kinds {A} (K : errkind -> Prop) (r : res A) : Prop := forall k, r = Err k -> K k.
Definition plain (k : errkind) : Prop := k = Malformed \/ k = InvalidState \/ k = Unsupported.
Section Kinds.
Variable K : errkind -> Prop.
Hypothesis KP : forall k, plain k -> K k.
Lemma km : K Malformed. Proof. apply KP. now left. Qed.
Lemma ks : K InvalidState. Proof. apply KP. right. now left. Qed.
Lemma ku : K Unsupported. Proof. apply KP. right. now right. Qed.
Lemma kinds_Ok {A} (a : A) : kinds K (Ok a). Proof. intros k; discriminate. Qed.
Lemma kinds_Panic {A} : kinds K (@Panic A). Proof. intros k; discriminate. Qed.
Lemma kinds_Err {A} k : K k -> kinds K (@Err A k). Proof. intros H k' E. injection E as <-. exact H. Qed.
Lemma kinds_bind {A B} (r : res A) (f : A -> res B) : kinds K r -> (forall a, r = Ok a -> kinds K (f a)) -> kinds K (rbind r f).
Proof. intros H1 H2 k. destruct r; cbn; try discriminate; [now apply (H2 a)|]. intros E. injection E as <-. now apply H1. Qed.
Lemma kinds_ok_or {A} k (o : option A) : K k -> kinds K (ok_or k o).
Proof. intros H. destruct o; [apply kinds_Ok|now apply kinds_Err]. Qed.
Lemma kinds_kind {A} k (r : res A) : K k -> kinds K (kind k r).
Proof. intros H. destruct r; [apply kinds_Ok|now apply kinds_Err|apply kinds_Panic]. Qed.
Lemma kinds_json {A} (r : res A) : errs json_kind r -> kinds K r.
Proof. intros H k ->. apply KP. cbn in H. unfold json_kind in H. unfold plain. tauto. Qed.
Lemma kinds_rmap {A B} (f : A -> res B) l : (forall a, In a l -> kinds K (f a)) -> kinds K (rmap f l).
Proof.
  induction l as [|a l IH]; intros H; cbn; [apply kinds_Ok|]. apply kinds_bind; [apply H; now left|]. intros b _.
  apply kinds_bind; [apply IH; intros; apply H; now right|]. intros; apply kinds_Ok.
Qed.
Ltac kd := repeat (cbv beta iota zeta; lazymatch goal with
  | |- forall _, _ => intro
  | |- kinds K (Ok _) => apply kinds_Ok
  | |- kinds K (Err _) => apply kinds_Err; first [exact km|exact ks|exact ku]
  | |- kinds K Panic => apply kinds_Panic
  | |- kinds K (rbind _ _) => apply kinds_bind
  | |- kinds K (ok_or _ _) => apply kinds_ok_or; first [exact km|exact ks|exact ku]
  | |- kinds K (kind _ _) => apply kinds_kind; first [exact km|exact ks|exact ku]
  | |- kinds K (if ?x then _ else _) => destruct x
  | |- kinds K (match ?x with _ => _ end) => destruct x
  end).
Lemma kinds_soft {A} (r : res A) : kinds K r -> kinds K (soft r).
Proof. intros H. destruct r as [|k|]; cbn; [apply kinds_Ok| |apply kinds_Panic]. specialize (H k eq_refl). destruct k; first [apply kinds_Ok|now apply kinds_Err]. Qed.
Lemma kinds_jwe_parse C j : kinds K (jwe_parse C j).
Proof. unfold jwe_parse. kd. apply kinds_json, jwe_header_errs. Qed.
Lemma kinds_verify C p : kinds K (verify_didcomm C p).
Proof. unfold verify_didcomm. kd. Qed.
Lemma kinds_recipients l : kinds K (check_recipients l).
Proof. unfold check_recipients. kd. Qed.
Lemma kinds_derive C d ka e s r alg apu apv tag b : kinds K (derive_key C d ka e s r alg apu apv tag b).
Proof. unfold derive_key. kd. Qed.
Lemma kinds_decrypt C ce d ka p s kid k : kinds K (jwe_decrypt C ce d ka p s kid k).
Proof. unfold jwe_decrypt. kd. apply kinds_derive. Qed.
Lemma kinds_anon_open C p kid ka k : kinds K (anon_open C p kid ka k).
Proof. unfold anon_open, anon_cenc. kd; apply kinds_decrypt. Qed.
Lemma kinds_auth_open C p f fk kid ka k : kinds K (auth_open C p f fk kid ka k).
Proof. unfold auth_open. kd; apply kinds_decrypt. Qed.
Lemma kinds_jws_parse j : kinds K (jws_parse j).
Proof. unfold jws_parse. kd. apply kinds_rmap. intros s _. unfold parse_jws_header. kd. apply kinds_json, jws_header_errs. Qed.
Lemma kinds_verify_alg a : kinds K (verify_alg_of a). Proof. unfold verify_alg_of. kd. Qed.
Lemma kinds_sign_md a : kinds K (sign_alg_md a). Proof. unfold sign_alg_md. kd. Qed.
Lemma kinds_sign_alg a : kinds K (sign_alg_of a). Proof. unfold sign_alg_of. kd. Qed.
Lemma kinds_sig_type a : kinds K (sig_type a). Proof. unfold sig_type. kd. Qed.
Lemma kinds_find_sig kid l : forall hs, kinds K (find_sig kid l hs).
Proof. induction l as [|s l IH]; intros hs; cbn; kd; apply IH. Qed.
Lemma kinds_jws_verify C pj kid ka k : kinds K (jws_verify C pj kid ka k).
Proof. unfold jws_verify. kd. - apply kinds_find_sig. - apply kinds_sig_type. Qed.
Lemma kinds_compact_verify C pc ka k : kinds K (compact_verify C pc ka k).
Proof. unfold compact_verify. kd. apply kinds_sig_type. Qed.
Lemma kinds_jws_sign C pl kid ka k alg : kinds K (jws_sign C pl kid ka k alg).
Proof. unfold jws_sign. kd. apply kinds_sig_type. Qed.
Lemma kinds_compact s : kinds K (parse_compact s).
Proof. unfold parse_compact. kd. Qed.
Lemma kinds_msg_validate m : kinds K (msg_validate m).
Proof. unfold msg_validate. kd. Qed.
Lemma kinds_wrap_one C d ka e s alg apu apv tag cek r : kinds K (wrap_one C d ka e s alg apu apv tag cek r).
Proof. unfold wrap_one. kd. apply kinds_derive. Qed.
(** Keys: IllegalArgument comes from multibase. *)
Lemma kinds_multibase cd s : K IllegalArgument -> kinds K (multibase_key cd s).
Proof.
  intros KI. unfold multibase_key, from_multicodec, codec_by_prefix, split_at. kd; apply kinds_Err; exact KI.
Qed.
Lemma kinds_jwk C a v : kinds K (jwk_key C a v). Proof. unfold jwk_key. kd. Qed.
Lemma kinds_vm C vm : (forall s, vm_material vm = MMultibase s -> K IllegalArgument) -> kinds K (vm_key_pair C vm).
Proof.
  intros KI. unfold vm_key_pair. destruct (vm_type vm); kd; try apply kinds_jwk; apply kinds_multibase; eapply KI; eauto.
Qed.
Lemma kinds_sec C sec : (forall s, sec_material sec = MMultibase s -> K IllegalArgument) -> kinds K (sec_key_pair C sec).
Proof.
  intros KI. unfold sec_key_pair, x25519_secret_key, ed25519_secret_key, split_at.
  destruct (sec_type sec); kd; try apply kinds_jwk; apply kinds_multibase; eapply KI; eauto.
Qed.
Lemma kinds_as C a alg kp : kinds K kp -> kinds K (as_alg C a alg kp).
Proof. intros H. unfold as_alg. kd. exact H. Qed.
End Kinds.

(** ** Reports of a program *)
Section Report.
Context (blame : list event -> errkind -> Prop) (verdict : event -> errkind -> Prop).
Hypothesis blame_plain : forall h k, plain k -> blame h k.
Hypothesis blame_raised : forall h e k, failed e k -> blame (h ++ [e]) k.

Definition calm (h : list event) : Prop := forall e k, In e h -> ~ verdict e k.
Definition report {X} (h : list event) (x : res X) : Prop :=
  match x with
  | Err k => blame h k /\ forall e k', In e h -> verdict e k' -> k' = k
  | _ => calm h
  end.
Lemma calm_snoc h e : calm h -> (forall k, ~ verdict e k) -> calm (h ++ [e]).
Proof. intros H V e' k I. apply in_app_iff in I as [I|[<-|[]]]; [apply (H _ k I)|apply V]. Qed.
Lemma report_Err {X} h k : calm h -> blame h k -> report h (@Err X k).
Proof. intros H B. split; auto. intros e k' I V. destruct (H e k' I V). Qed.
Lemma report_plain {X} h k : calm h -> plain k -> report h (@Err X k).
Proof. intros H B. apply report_Err; auto. Qed.
Lemma report_last {X} h e k : calm h -> blame (h ++ [e]) k -> (forall k', verdict e k' -> k' = k) -> report (h ++ [e]) (@Err X k).
Proof. intros H B V. split; auto. intros e' k' I W. apply in_app_iff in I as [I|[<-|[]]]; auto. destruct (H e' k' I W). Qed.
Lemma report_kinds {X Y} h (r : res X) k : calm h -> kinds (blame h) r -> r = Err k -> report h (@Err Y k).
Proof. intros H B E. apply report_Err; auto. Qed.
Lemma report_cast {X Y} h k : report h (@Err X k) -> report h (@Err Y k).
Proof. auto. Qed.
End Report.

(** ** Unpack *)
Definition ends_unpack (e : event) (k : errkind) : Prop := (exists did, e = Ev (OResolve did) (Ok None)) /\ k = DIDNotResolved.
Definition none_answer (e : event) : bool := match e with Ev (OResolve _) (Ok None) => true | _ => false end.
Lemma not_none e : none_answer e = false -> forall k, ~ ends_unpack e k.
Proof. intros H k ((d & ->) & _). discriminate. Qed.
Lemma last_last h e : last_call (h ++ [e]) e. Proof. now exists h. Qed.
Lemma in_last {X} (h : list X) e : In e (h ++ [e]). Proof. apply in_or_app. right. now left. Qed.
#[local] Hint Resolve last_last in_last : core.
Section Unpack.
Context (C : crypto) (A : event -> Prop) (text : bytes).
Notation P := (fun (_ : list event) (_ : op) => True).
Notation blame := (unpack_blames C text).
Notation calm := (calm ends_unpack).
Notation Q := (report blame ends_unpack).
Notation met := (met C text).

Lemma ub_plain h k : plain k -> blame h k.
Proof. intros [->|[->| ->]]; right; exact I. Qed.
Lemma ub_raised h e k : failed e k -> blame (h ++ [e]) k.
Proof. intros F. left. exists e. auto. Qed.
Lemma calm_resolved h did doc : calm h -> calm (h ++ [Ev (OResolve did) (Ok (Some doc))]).
Proof. intros H. apply calm_snoc; auto. now apply not_none. Qed.
Lemma calm_find h ids r : calm h -> calm (h ++ [Ev (OFindSecrets ids) r]).
Proof. intros H. apply calm_snoc; auto. now apply not_none. Qed.
Lemma calm_get h id r : calm h -> calm (h ++ [Ev (OGetSecret id) r]).
Proof. intros H. apply calm_snoc; auto. now apply not_none. Qed.
Lemma calm_bad h did k : calm h -> calm (h ++ [Ev (OResolve did) (Err k)]).
Proof. intros H. apply calm_snoc; auto. now apply not_none. Qed.
Lemma calm_panic h did : calm h -> calm (h ++ [Ev (OResolve did) Panic]).
Proof. intros H. apply calm_snoc; auto. now apply not_none. Qed.
Lemma none_reported {X} h did : calm h -> Q (h ++ [Ev (OResolve did) (Ok None)]) (@Err X DIDNotResolved).
Proof. intros H. apply report_last; auto. - right. cbn. eauto. - intros k [_ ->]. reflexivity. Qed.
Hint Resolve calm_resolved calm_find calm_get calm_bad calm_panic : core.
Hint Extern 1 (plain _) => unfold plain; tauto : core.

(** Leaves: panics and failed calls. *)
Ltac leaf := cbv beta; lazymatch goal with
  | |- report _ _ _ (Ok _) => cbn [report]; auto 6
  | |- report _ _ _ Panic => try (exfalso; match goal with E : ok_or _ ?x = Panic |- _ => destruct x; discriminate E end); cbn [report]; auto 6
  | |- report _ _ (?h ++ [?e]) (Err ?k) =>
      first [apply report_Err; [solve [auto 6]|first [apply ub_raised; reflexivity|apply ub_plain; solve [auto]]]
            |apply none_reported; solve [auto 6]
            |idtac]
  | |- report _ _ _ (Err ?k) => try (apply report_Err; [solve [auto 6]|apply ub_plain; solve [auto]])
  | |- True => exact I
  | |- _ => idtac
  end.
Ltac pure lem := match goal with E : ?r = Err ?k |- _ => eapply report_kinds; [solve [auto 6]| |exact E]; apply lem; auto using ub_plain end.
Ltac mut := let s := fresh "s" in let M := fresh "M" in intros s M; right; cbn.

Lemma loop_reports {X} all (open : bytes -> kalg -> key C -> res X) found : (forall kid ka k (K : errkind -> Prop), (forall k, plain k -> K k) -> kinds K (open kid ka k)) ->
  forall last h, calm h -> wp A P h (open_loop C all open found last) Q.
Proof.
  intros O. induction found as [|kid found IH]; intros last h H; cbn [open_loop]; [wstep; destruct last; cbn [ok_or]; leaf|].
  wstep; leaf. wstep; leaf; [|destruct a; cbn in E; try discriminate; injection E as <-; leaf]. wstep; leaf.
  2:{ pure kinds_sec. intros s M. right. right. apply ok_or_Ok in E. subst a. eauto 6. }
  destruct a1 as [ka k]. wstep; leaf; [|pure O]. wstep; [apply IH; auto|wstep; leaf].
Qed.
Lemma anon_reports t o md h : met t -> calm h -> wp A P h (try_anoncrypt C t o md) Q.
Proof.
  intros R H. unfold try_anoncrypt. wstep; leaf; [|pure kinds_soft; apply kinds_json; auto using ub_plain, jwe_str_errs].
  destruct a as [j|]; [|wstep; leaf]. apply soft_Some in E.
  wstep; leaf; [|pure kinds_jwe_parse]. apply jwe_parse_Ok in E0 as (Ej & (hb & Hb & Hh) & Ha & Hu).
  destruct (ph_alg _); try (wstep; leaf; fail). wstep; leaf; [|pure kinds_verify]. apply verify_didcomm_Ok in E0 as (-> & _).
  wstep; leaf; [|pure kinds_recipients]. wstep; leaf. wstep; leaf.
  - wstep. apply report_Err; auto. right. cbn. exists t, j, (pj_protected a). split; auto. split; [split; eauto|]. auto.
  - wstep. eapply wp_mono; [|apply loop_reports; [intros; now apply kinds_anon_open|auto]].
    intros h' [[pt alg]|k|] X; cbn [wpr]; auto. destruct (utf8 pt); wstep; leaf.
Qed.
Lemma url_key s did u : did_or_url s = (did, u) -> is_some u = true -> url_of did s.
Proof. apply url_here. Qed.
Lemma unlisted_use use doc kid k : ok_or DIDUrlNotFound (find_first (fun x => beq x kid) (use doc)) = Err k -> k = DIDUrlNotFound /\ unlisted use doc kid.
Proof.
  intros E. destruct (find_first _ _) eqn:F; [discriminate|]. injection E as <-. split; auto. left. intros I.
  pose proof (find_first_none _ _ F kid I) as X. cbv beta in X. now rewrite beq_refl in X.
Qed.
Lemma unlisted_vm use doc kid k : ok_or DIDUrlNotFound (find_first (fun vm => beq (vm_id vm) kid) (doc_verification_method doc)) = Err k -> k = DIDUrlNotFound /\ unlisted use doc kid.
Proof.
  intros E. destruct (find_first _ _) eqn:F; [discriminate|]. injection E as <-. split; auto. right. intros vm I Ev.
  pose proof (find_first_none _ _ F vm I) as X. cbv beta in X. now rewrite Ev, beq_refl in X.
Qed.
Lemma url_blame h use kid did doc : names_key C text use kid -> url_of did kid -> unlisted use doc kid ->
  blame (h ++ [Ev (OResolve did) (Ok (Some doc))]) DIDUrlNotFound.
Proof. intros N U X. right. cbn. exists use, kid, did, doc. auto. Qed.
Lemma vm_blame h did doc vm kid : find_first (fun v => beq (vm_id v) kid) (doc_verification_method doc) = Some vm ->
  forall s, vm_material vm = MMultibase s -> blame (h ++ [Ev (OResolve did) (Ok (Some doc))]) IllegalArgument.
Proof. intros F s M. right. cbn. left. apply find_first_some in F as [I _]. exists did, doc, vm, s. split; auto. apply in_last. Qed.

Lemma auth_reports t o md h : met t -> calm h -> wp A P h (try_authcrypt C t o md) Q.
Proof.
  intros R H. unfold try_authcrypt. wstep; leaf; [|pure kinds_soft; apply kinds_json; auto using ub_plain, jwe_str_errs].
  destruct a as [j|]; [|wstep; leaf]. apply soft_Some in E.
  wstep; leaf; [|pure kinds_jwe_parse]. apply jwe_parse_Ok in E0 as (Ej & (hb & Hb & Hh) & Ha & Hu).
  destruct (ph_alg _) eqn:Al; try (wstep; leaf; fail). wstep; leaf; [|pure kinds_verify]. apply verify_didcomm_Ok in E0 as (-> & _).
  wstep; leaf; [|pure kinds_ok_or]. apply ok_or_Ok in E0.
  wstep; [wstep; leaf|]. destruct (did_or_url a0) as [did url] eqn:Ed. wstep; [wstep; leaf|].
  assert (U : url_of did a0) by (eapply url_here; eauto; now destruct url).
  assert (N : names_key C text doc_key_agreement a0).
  { eapply nk_sender with (j := j) (h := pj_protected a); eauto; [split; eauto|]. rewrite E0 in Hu. exact Hu. }
  wstep; leaf. wstep; leaf. 2:{ destruct a1; [discriminate|]. injection E3 as <-. leaf. }
  apply ok_or_Ok in E3. subst a1. wstep; leaf.
  2:{ apply unlisted_use in E3 as [-> X]. apply report_Err; auto. eapply url_blame; eauto. }
  assert (a1 = a0) by (apply ok_or_Ok in E3; apply find_first_some in E3 as [_ X]; now apply beq_eq in X). subst a1.
  wstep; leaf. 2:{ apply (unlisted_vm doc_key_agreement) in E4 as [-> X]. apply report_Err; auto. eapply url_blame; eauto. }
  apply ok_or_Ok in E4. wstep; leaf; [|pure kinds_vm; eapply vm_blame; eauto].
  wstep; leaf; [|pure kinds_recipients]. wstep; leaf. wstep; leaf.
  - wstep. apply report_Err; auto. right. cbn. exists t, j, (pj_protected a). split; auto. split; [split; eauto|]. apply last_last.
  - wstep. eapply wp_mono; [|apply loop_reports; [intros; now apply kinds_auth_open|auto]].
    intros h' [pt|k|] X; cbn [wpr]; auto. destruct (utf8 pt); wstep; leaf.
Qed.
Lemma sign_reports t md h : met t -> calm h -> wp A P h (try_sign C t md) Q.
Proof.
  intros R H. unfold try_sign. wstep; leaf; [|pure kinds_soft; apply kinds_json; auto using ub_plain, jws_str_errs].
  destruct a as [j|]; [|wstep; leaf]. apply soft_Some in E. wstep; leaf; [|pure kinds_jws_parse].
  apply jws_parse_Ok in E0 as [Ej F].
  destruct (snd a) as [|x [|]] eqn:Es; try (wstep; leaf; fail). destruct (jws_signatures j) as [|sg l] eqn:Ej'; [wstep; leaf|].
  destruct (did_or_url (sig_kid sg)) as [did url] eqn:Ed. wstep; [wstep; leaf|].
  assert (U : url_of did (sig_kid sg)) by (eapply url_here; eauto; now destruct url).
  assert (N : names_key C text doc_authentication (sig_kid sg)).
  { eapply nk_signer; eauto. rewrite Ej'. inversion F as [|? ? ? ? _ F']; subst. inversion F'. reflexivity. }
  wstep; leaf. wstep; leaf. 2:{ destruct a0; [discriminate|]. injection E1 as <-. leaf. }
  apply ok_or_Ok in E1. subst a0. wstep; leaf.
  2:{ apply unlisted_use in E1 as [-> X]. apply report_Err; auto. eapply url_blame; eauto. }
  assert (a0 = sig_kid sg) by (apply ok_or_Ok in E1; apply find_first_some in E1 as [_ X]; now apply beq_eq in X). subst a0.
  wstep; leaf. 2:{ apply (unlisted_vm doc_authentication) in E2 as [-> X]. apply report_Err; auto. eapply url_blame; eauto. }
  apply ok_or_Ok in E2. wstep; leaf; [|pure kinds_verify_alg]. wstep; leaf; [|pure kinds_sign_md].
  wstep; leaf; [|pure kinds_as; apply kinds_vm; [apply ub_plain|]; eapply vm_blame; eauto].
  wstep; leaf; [|pure kinds_jws_verify]. wstep; [wstep; leaf|]. wstep; leaf; [|pure kinds_ok_or].
  match goal with |- context [utf8 ?x] => destruct (utf8 x) end; wstep; leaf.
Qed.
Lemma prior_reports t m jwt h : met t -> message_from_str (fparse C) t = Ok m -> msg_from_prior m = Some jwt -> calm h ->
  wp A P h (from_prior_unpack C jwt) Q.
Proof.
  intros R M J H. unfold from_prior_unpack. wstep; leaf; [|pure kinds_compact]. cbv zeta. wstep; [wstep; leaf|].
  destruct (did_or_url (ch_kid (pc_parsed a))) as [did url] eqn:Ed. wstep; [wstep; leaf|].
  assert (U : url_of did (ch_kid (pc_parsed a))) by (eapply url_here; eauto; now destruct url).
  assert (N : names_key C text doc_authentication (ch_kid (pc_parsed a))).
  { eapply nk_prior; eauto. apply parse_compact_Ok in E as (-> & N1 & N2 & N3 & hb & Hb & Hh).
    exists (pc_header a), (pc_payload a), (pc_signature a), hb, (pc_parsed a). auto 9. }
  wstep; leaf. wstep; leaf. 2:{ destruct a0; [discriminate|]. injection E2 as <-. leaf. }
  apply ok_or_Ok in E2. subst a0. wstep; leaf.
  2:{ apply unlisted_use in E2 as [-> X]. apply report_Err; auto. eapply url_blame; eauto. }
  assert (a0 = ch_kid (pc_parsed a)) by (apply ok_or_Ok in E2; apply find_first_some in E2 as [_ X]; now apply beq_eq in X). subst a0.
  wstep; leaf. 2:{ apply (unlisted_vm doc_authentication) in E3 as [-> X]. apply report_Err; auto. eapply url_blame; eauto. }
  apply ok_or_Ok in E3. wstep; leaf; [|pure kinds_verify_alg].
  wstep; leaf; [|pure kinds_as; apply kinds_vm; [apply ub_plain|]; eapply vm_blame; eauto].
  wstep; leaf; [|pure kinds_compact_verify]. wstep; [wstep; leaf|]. wstep; leaf; [|pure kinds_ok_or].
  wstep; [wstep; leaf|]. wstep; leaf; [|pure kinds_kind]. wstep; leaf.
Qed.
Lemma plain_reports t md h : met t -> calm h -> wp A P h (try_plaintext C t md) Q.
Proof.
  intros R H. unfold try_plaintext. wstep; leaf; [|pure kinds_soft; apply kinds_json; auto using ub_plain, msg_str_errs].
  destruct a as [m|]; [|wstep; leaf]. apply soft_Some in E. wstep; leaf; [|pure kinds_msg_validate].
  assert (m = a) by (unfold msg_validate in E0; destruct (beq _ _); [now injection E0|discriminate]). subst a.
  destruct (msg_from_prior m) as [jwt|] eqn:J; [|wstep; leaf]. wstep. eapply wp_mono; [|eapply prior_reports; eauto].
  intros h' [[p k]|k|] X; cbn [wpr wp]; auto.
Qed.
Lemma unwrap_reports t h : met t -> calm h -> wp A P h (try_unwrap C t) Q.
Proof.
  intros R H. unfold try_unwrap. wstep; leaf; [|pure kinds_soft; apply kinds_json; auto using ub_plain, msg_str_errs].
  destruct a as [m|]; [|wstep; leaf]. apply soft_Some in E.
  destruct (try_parse_forward m) as [f|]; [|wstep; leaf].
  wstep. eapply wp_mono with (Q := Q); [intros h' [b|k|] X; cbn [wpr]; auto; wstep; leaf|].
  unfold has_secret. destruct (did_or_url (pf_next f)) as [did [url|]] eqn:Ed.
  - wstep; leaf; [|discriminate]. wstep; leaf. wstep; leaf.
  - rewrite wp_pbind. eapply wp_mono with (Q := Q).
    + intros h' [ids|k|] X; cbn [wpr]; auto. cbn [report] in X. wstep; leaf. wstep; leaf.
    + wstep; leaf. wstep; leaf. 2:{ destruct a; [discriminate|]. injection E0 as <-. leaf. } apply ok_or_Ok in E0. subst a. wstep. leaf.
Qed.
Definition met_res {Y} (r : res (option (bytes * Y))) : Prop := match r with Ok (Some (pt, _)) => met pt | _ => True end.
Lemma wp_both {X} h (m : prog X) (Q1 Q2 : list event -> X -> Prop) : wp A P h m Q1 ->
  (forall tr x, exec m tr x -> Q2 (h ++ tr) x) -> wp A P h m (fun h x => Q1 h x /\ Q2 h x).
Proof. intros W E. apply wp_conj; auto. eapply wp_post; [exact W|]. intros; now apply E. Qed.
Lemma rest_reports t o md h : met t -> calm h -> wp A P h (unpack_rest C t o md) Q.
Proof.
  intros R H. unfold unpack_rest. wstep. eapply wp_mono; [|eapply wp_both with (Q2 := fun _ r => met_res r); [now apply auth_reports|]].
  2:{ intros tr [[[pt md']|]|k|] E; try exact I. apply try_authcrypt_Some in E as (j & from & O & _). eapply auth_met; eauto. }
  intros h1 [a|k|] [X1 Ma]; cbn [wpr]; auto. cbn [report] in X1.
  assert (M2 : met (fst (match a with Some (m, d) => (m, d) | None => (t, md) end))) by (destruct a as [[]|]; auto).
  destruct (match a with Some _ => _ | None => _ end) as [t2 md2]. cbn [fst] in M2.
  wstep. eapply wp_mono; [|eapply wp_both with (Q2 := fun _ r => met_res r); [now apply sign_reports|]].
  2:{ intros tr [[[pt md']|]|k|] E; try exact I. apply try_sign_Some in E as (kid & sa & O & _). eapply sign_met; eauto. }
  intros h2 [s|k|] [X2 Ms]; cbn [wpr]; auto. cbn [report] in X2.
  assert (M3 : met (fst (match s with Some (m, d) => (m, d) | None => (t2, md2) end))) by (destruct s as [[]|]; auto).
  destruct (match s with Some _ => _ | None => _ end) as [t3 md3]. cbn [fst] in M3. wstep. eapply wp_mono; [|now apply plain_reports].
  intros h3 [p|k|] X; cbn [wpr]; auto. wstep. cbn [report] in X. destruct p; cbn [ok_or]; leaf.
Qed.
Definition oreport {X} (h : list event) (x : option (res X)) : Prop := match x with Some y => Q h y | None => True end.
Lemma loop_reports_all fuel : forall t o md h, met t -> calm h -> wp A P h (unpack_loop C fuel t o md) oreport.
Proof.
  induction fuel as [|f IH]; intros t o md h R H; cbn [unpack_loop]; [exact I|].
  assert (G : forall t' md' h', met t' -> calm h' -> wp A P h' (bind (unpack_rest C t' o md') (fun x => Ret (Some x))) oreport).
  { intros t' md' h' R' H'. rewrite wp_bind. eapply wp_mono; [|now apply rest_reports]. intros h2 x X. exact X. }
  rewrite wp_bind. eapply wp_mono; [|eapply wp_both with (Q2 := fun _ r => met_res r); [now apply anon_reports|]].
  2:{ intros tr x E. destruct x as [[[pt md']|]|k|]; try exact I. apply try_anoncrypt_Some in E as (j & alg & O & _). eapply anon_met; eauto. }
  intros h' [[[pt md']|]|k|] [X M]; try exact X; [|now apply G]. cbn [report met_res] in X, M. destruct (uo_unwrap o); [|now apply G].
  rewrite wp_bind. eapply wp_mono; [|eapply wp_both with (Q2 := fun _ r => match r with Ok (Some t') => met t' | _ => True end); [now apply unwrap_reports|]].
  - intros h2 [[t'|]|k|] [X2 Q2]; try exact X2; [now apply IH|now apply G].
  - intros tr x E. destruct x as [[t'|]|k|]; auto.
    apply try_unwrap_Ok in E as (next & v & kid & found & F & _ & ->). eapply met_forward; eauto.
Qed.
End Unpack.

Lemma unpack_reports C fuel text o tr x : exec (unpack C fuel text o) tr (Some x) ->
  match x with Err k => unpack_blames C text tr k | _ => True end
  /\ forall did, In (Ev (OResolve did) (Ok None)) tr -> x = Err DIDNotResolved.
Proof.
  intros E. unfold unpack in E.
  apply (wp_exec (fun _ => True) (fun _ _ => True) []) with (Q := oreport C text) in E.
  - destruct E as [E _]. cbn [app oreport] in E. destruct x as [a|k|]; cbn [report] in E.
    + split; [exact I|]. intros did In0. destruct (E _ DIDNotResolved In0). split; eauto.
    + destruct E as [B V]. split; auto. intros did In0. f_equal. symmetry. eapply V; eauto. split; eauto.
    + split; [exact I|]. intros did In0. destruct (E _ DIDNotResolved In0). split; eauto.
  - apply loop_reports_all; [constructor|]. intros e k [].
  - now apply Forall_forall.
Qed.

(** ** Pack *)
Definition bad_answer (e : event) : option errkind :=
  match e with
  | Ev (OResolve _) (Ok None) => Some DIDNotResolved
  | Ev (OResolve _) (Err k) => Some k
  | Ev (OFindSecrets _) (Ok []) => Some SecretNotFound
  | Ev (OFindSecrets _) (Err k) => Some k
  | Ev (OGetSecret _) (Err k) => Some k
  | _ => None
  end.
Lemma ends_bad e k : ends_pack e k -> bad_answer e = Some k.
Proof. intros [F|[((d & ->) & ->)|((d & ->) & ->)]]; [|reflexivity|reflexivity]. destruct e as [[] r]; cbn in F |- *; subst; auto. destruct F. Qed.
Section Pack.
Context (C : crypto) (A : event -> Prop) (m : message) (to : bytes) (from sign_by : option bytes) (o : pack_options).
Notation P := (fun (_ : list event) (_ : op) => True).
Notation blame := (pack_blames C m to from sign_by o).
Notation names := (pack_names m to from sign_by o).
Notation calm := (calm ends_pack).
Notation Q := (report blame ends_pack).

Lemma pb_plain h k : plain k -> blame h k.
Proof. intros [->|[->| ->]]; right; exact I. Qed.
Lemma pb_raised h e k : failed e k -> blame (h ++ [e]) k.
Proof. intros F. left. exists e. auto. Qed.
Lemma calm_step h e : calm h -> bad_answer e = None -> calm (h ++ [e]).
Proof. intros H B. apply calm_snoc; auto. intros k V. apply ends_bad in V. congruence. Qed.
Lemma pk_bad {X} h e k : calm h -> bad_answer e = Some k -> Q (h ++ [e]) (@Err X k).
Proof.
  intros H B. apply report_last; auto. 2:{ intros k' V. apply ends_bad in V. congruence. }
  destruct e as [[did|ids|id|u] r]; cbn in B; try discriminate; repeat match goal with H : context [match ?x with _ => _ end] |- _ => destruct x end; try discriminate; injection B as <-.
  - right. cbn. eauto.
  - now apply pb_raised.
  - right. cbn. eauto.
  - now apply pb_raised.
  - now apply pb_raised.
Qed.
Lemma names_more h h' use arg : incl h h' -> names h use arg -> names h' use arg.
Proof.
  intros I [| | | |td doc id ms k F D R Ch X]; [apply pn_to|now apply pn_from|now apply pn_signer|eapply pn_prior; eauto|eapply pn_hop; eauto; now apply I].
Qed.
Lemma incl_snoc {X} (h : list X) t : incl h (h ++ t). Proof. intros x I. apply in_or_app. now left. Qed.
Hint Extern 2 (calm (_ ++ [_])) => apply calm_step; [|reflexivity] : core.
Hint Extern 1 (plain _) => unfold plain; tauto : core.
Ltac leaf := cbv beta; lazymatch goal with
  | |- report _ _ _ (Ok _) => cbn [report]; auto 8
  | |- report _ _ _ Panic => try (exfalso; match goal with E : ok_or _ ?x = Panic |- _ => destruct x; discriminate E end); cbn [report]; auto 8
  | |- report _ _ (?h ++ [?e]) (Err ?k) =>
      first [apply pk_bad; [solve [auto 8]|reflexivity]
            |apply report_Err; [solve [auto 8]|apply pb_plain; solve [auto]]
            |idtac]
  | |- report _ _ _ (Err ?k) => try (apply report_Err; [solve [auto 8]|apply pb_plain; solve [auto]])
  | |- True => exact I
  | |- _ => idtac
  end.
Ltac pure lem := match goal with E : ?r = Err ?k |- _ => eapply report_kinds; [solve [auto 8]| |exact E]; apply lem; auto using pb_plain end.

Lemma pvm_blame h did doc vm : resolved h did doc -> In vm (doc_verification_method doc) ->
  forall s, vm_material vm = MMultibase s -> blame h IllegalArgument.
Proof. intros R I s M. right. cbn. right. right. right. left. exists did, doc, vm, s. auto. Qed.
Lemma psec_blame h id sec : In (Ev (OGetSecret id) (Ok (Some sec))) h -> forall s, sec_material sec = MMultibase s -> blame h IllegalArgument.
Proof. intros I s M. right. cbn. right. right. right. right. eauto. Qed.
Lemma purl_blame h use arg did doc : names h use arg -> did_part arg did -> resolved h did doc -> lacks use doc arg -> blame h DIDUrlNotFound.
Proof. intros N D R L. right. cbn. exists use, arg, did, doc. auto. Qed.
Lemma url_lacks use doc kid did : url_of did kid -> unlisted use doc kid -> lacks use doc kid.
Proof. intros U X. left. split; auto. eapply url_has_hash; eauto. Qed.

Lemma pprior_reports jwt h : msg_from_prior m = Some jwt -> calm h -> wp A P h (from_prior_unpack C jwt) Q.
Proof.
  intros J H. unfold from_prior_unpack. wstep; leaf; [|pure kinds_compact]. cbv zeta. wstep; [wstep; leaf|].
  destruct (did_or_url (ch_kid (pc_parsed a))) as [did url] eqn:Ed. wstep; [wstep; leaf|].
  assert (U : url_of did (ch_kid (pc_parsed a))) by (eapply url_here; eauto; now destruct url).
  assert (N : forall h, names h doc_authentication (ch_kid (pc_parsed a))).
  { intros h'. eapply pn_prior; eauto. apply parse_compact_Ok in E as (-> & N1 & N2 & N3 & hb & Hb & Hh).
    exists (pc_header a), (pc_payload a), (pc_signature a), hb, (pc_parsed a). auto 9. }
  wstep; leaf. wstep; leaf. 2:{ destruct a0; [discriminate|]. injection E2 as <-. leaf. }
  apply ok_or_Ok in E2. subst a0. wstep; leaf.
  2:{ apply unlisted_use in E2 as [-> X]. apply report_Err; auto. eapply purl_blame; eauto; [left; eauto|apply in_last|eapply url_lacks; eauto]. }
  assert (a0 = ch_kid (pc_parsed a)) by (apply ok_or_Ok in E2; apply find_first_some in E2 as [_ X]; now apply beq_eq in X). subst a0.
  wstep; leaf. 2:{ apply (unlisted_vm doc_authentication) in E3 as [-> X]. apply report_Err; auto. eapply purl_blame; eauto; [left; eauto|apply in_last|eapply url_lacks; eauto]. }
  apply ok_or_Ok in E3. apply find_first_some in E3 as [Iv _]. wstep; leaf; [|pure kinds_verify_alg].
  wstep; leaf; [|pure kinds_as; apply kinds_vm; [apply pb_plain|]; eapply pvm_blame; eauto; apply in_last].
  wstep; leaf; [|pure kinds_compact_verify]. wstep; [wstep; leaf|]. wstep; leaf; [|pure kinds_ok_or].
  wstep; [wstep; leaf|]. wstep; leaf; [|pure kinds_kind]. wstep; leaf.
Qed.
Lemma pplain_reports h : calm h -> wp A P h (pack_plaintext C m) Q.
Proof.
  intros H. unfold pack_plaintext. wstep. destruct (msg_from_prior m) as [jwt|] eqn:J.
  - wstep. eapply wp_mono; [|apply wp_conj; [apply (pprior_reports jwt); eauto|eapply wp_post; [apply (pprior_reports jwt); eauto|]]].
    2:{ intros tr x E _. instantiate (1 := fun h' x => exists tr, h' = h ++ tr /\ exec (from_prior_unpack C jwt) tr x). cbn. eauto. }
    intros h' [[p kid]|k|] [X (tr & -> & E)]; cbn [wpr wp]; auto. cbn [report] in X.
    apply from_prior_unpack_Ok in E as R.
    wstep; leaf; [wstep; leaf|].
    match goal with E : validate_pack_plaintext _ _ = Err ?k |- _ => rename E into V; eapply report_kinds; [solve [auto 8]| |exact V] end.
    assert (F : ~ url_of (fp_iss p) kid -> blame (h ++ tr) IllegalArgument).
    { intros NU. right. cbn. right. right. left. exists jwt, p, kid. split; auto. split; auto.
      destruct R as (hd & pl & sg & hb & hh & did & doc & ka & kk & st & sa & s & pay & H1 & H2 & H3 & H4 & H5 & H6 & H7 & H8 & H9 & H10 & H11 & HR).
      exists hd, pl, sg, hb, hh, did, doc, ka, kk, st, sa, s, pay. do 10 (split; [assumption|]). split; [apply in_app_r; exact H11|exact HR]. }
    unfold validate_pack_plaintext. cbn [validate_pack]. apply kinds_bind.
    + unfold validate_pack. destruct (negb (is_did (fp_iss p)) || _); [apply kinds_Err, pb_plain; auto|].
      destruct (negb (is_did (fp_sub p)) || _); [apply kinds_Err, pb_plain; auto|].
      destruct (beq _ _); [apply kinds_Err, pb_plain; auto|]. destruct (did_or_url kid) as [did u] eqn:DU.
      assert (G : ~ url_of (fp_iss p) kid \/ (is_some u = true /\ beq did (fp_iss p) = true)).
      { destruct u as [u|]; cbn; [|left; intros U; apply url_of_some in U; congruence]. destruct (beq_spec did (fp_iss p)); auto.
        left. intros U. apply url_of_some in U. congruence. }
      destruct G as [G|[-> ->]]; [|apply kinds_Ok]. destruct (negb (is_some u)); [apply kinds_Err; auto|]. destruct (negb _); [apply kinds_Err; auto|apply kinds_Ok].
    + intros _ _. destruct (msg_from m); [|apply kinds_Ok]. destruct (negb _); [apply kinds_Err, pb_plain; auto|apply kinds_Ok].
  - cbn [wp wpr]. wstep; leaf; [wstep; leaf|]. cbn in E. discriminate.
Qed.
Lemma psigned_reports s h : sign_by = Some s -> is_did s = true -> calm h -> wp A P h (pack_signed C m s) Q.
Proof.
  intros S D H. unfold pack_signed. rewrite D. cbn [negb]. destruct (did_or_url s) as [did key_id] eqn:Ed. pose proof (did_part_spec _ _ _ Ed) as DP.
  wstep; leaf. wstep; leaf. 2:{ destruct a; [discriminate|]. injection E as <-. leaf. } apply ok_or_Ok in E. subst a.
  wstep; leaf.
  2:{ destruct key_id as [kid'|]; [|discriminate]. apply did_or_url_some in Ed as DU'. destruct DU' as [-> _]. apply url_of_some in Ed.
      destruct (ok_or _ _) eqn:F in E; cbn in E; try discriminate. injection E as <-. apply unlisted_use in F as [-> X]. apply report_Err; auto.
      eapply purl_blame; [eapply pn_signer; exact S|exact DP|apply in_last|eapply url_lacks; eauto]. }
  match goal with |- wp _ _ ?h _ _ => set (h1 := h) end. assert (C1 : calm h1) by (unfold h1; auto).
  wstep; leaf. destruct a1 as [|k0 found].
  { wstep; cbn in E0; [discriminate|injection E0 as <-; leaf|discriminate]. }
  wstep; leaf; [|discriminate]. wstep; leaf. wstep; leaf.
  2:{ destruct a2; [discriminate|]. injection E1 as <-. apply report_Err; auto. right. cbn. right. eauto. }
  apply ok_or_Ok in E1. subst a2. wstep; leaf; [|pure kinds_sec; eapply psec_blame; apply in_last].
  match goal with |- context [let (_, _) := ?x in _] => destruct x as [ka k] end. wstep. eapply wp_mono; [|apply pplain_reports; auto].
  intros h' [pl|k'|] X; cbn [wpr]; auto. cbn [report] in X. wstep; leaf; [|pure kinds_sign_alg]. wstep; leaf; [|pure kinds_jws_sign]. wstep; leaf.
Qed.
Lemma pencrypt_reports ce d ka pt alg enc sender rs h : calm h ->
  wp A P h (jwe_encrypt C ce d ka pt alg enc sender rs) (fun h' x => Q h' x /\ incl h h').
Proof.
  intros H. eapply wp_mono; [|apply wp_hist with (Q := Q)]. { intros h' x [X (t & ->)]. split; auto. apply incl_snoc. }
  unfold jwe_encrypt. cbv zeta. rewrite wp_pbind. unfold random. cbn [wp]. split; [exact I|]. intros r _. cbn [wpr]. wstep; leaf; [|pure kinds_ok_or].
  rewrite wp_pbind. cbn [wp]. split; [exact I|]. intros r' _. cbn [wpr]. wstep; leaf; [|pure kinds_ok_or]. wstep; leaf; [|pure kinds_ok_or].
  rewrite wp_pbind. cbn [wp]. split; [exact I|]. intros r'' _. cbn [wpr]. wstep; leaf; [|pure kinds_ok_or].
  match goal with |- context [let (_, _) := ?x in _] => destruct x as [ct tag] end.
  wstep; leaf; [|pure kinds_rmap; intros; apply kinds_wrap_one, pb_plain]. wstep; leaf.
Qed.
Lemma panon_encrypt_reports ka alg msg rs h : calm h -> wp A P h (anon_encrypt C ka alg msg rs) (fun h' x => Q h' x /\ incl h h').
Proof. unfold anon_encrypt. destruct alg; apply pencrypt_reports. Qed.
Lemma select_lacks use arg did u doc : did_or_url arg = (did, u) -> select_kids u (use doc) = [] -> lacks use doc arg.
Proof.
  intros E S. pose proof (select_wanted arg did u (use doc) E) as W. rewrite S in W. destruct W as [[Hh Pk]|[Hh X]]; [left|right]; auto.
  split; auto. left. intros I. clear -Pk I. remember [] as n eqn:N in Pk. induction Pk as [|x l l' Px Pk IH|x l l' Nx Pk IH]; [destruct I|discriminate|].
  destruct I as [->|I]; auto.
Qed.
Lemma kinds_recipients_of h ka did doc e kids keys : resolved h did doc -> rmap (find_vm e doc) kids = Ok keys ->
  forall f, kinds (blame h) (rmap (vm_recipient C ka) (filter f keys)).
Proof.
  intros R E f. apply kinds_rmap. intros vm I. apply filter_In in I as [I _]. apply entries in E. unfold vm_recipient. apply kinds_bind; [|intros; apply kinds_Ok].
  unfold vm_as. apply kinds_as; [apply pb_plain|]. apply kinds_vm; [apply pb_plain|]. eapply pvm_blame; eauto.
  clear -E I. induction E as [|x y l l' [_ Fx] F IH]; [destruct I|]. destruct I as [<-|I]; auto. destruct Fx as (l1 & l2 & -> & _). apply in_or_app. right. now left.
Qed.
Ltac precip := match goal with E : rmap (vm_recipient _ _) _ = Err _ |- _ => eapply report_kinds; [solve [auto 8]| |exact E]; eapply kinds_recipients_of end.
Lemma kinds_find_vm h e doc kids : plain e -> kinds (blame h) (rmap (find_vm e doc) kids).
Proof. intros Pe. apply kinds_rmap. intros k _. unfold find_vm. apply kinds_ok_or. now apply pb_plain. Qed.
Lemma panon_reports to' msg alg h : names h doc_key_agreement to' -> calm h ->
  wp A P h (anoncrypt C to' msg alg) Q.
Proof.
  intros N H. unfold anoncrypt. destruct (did_or_url to') as [did kid] eqn:Ed. pose proof (did_part_spec _ _ _ Ed) as DP.
  wstep; leaf. wstep; leaf. 2:{ destruct a; [discriminate|]. injection E as <-. leaf. } apply ok_or_Ok in E. subst a.
  cbv zeta. destruct (select_kids kid (doc_key_agreement a0)) as [|k0 ks] eqn:S.
  { wstep. apply report_Err; auto. eapply purl_blame; [eapply names_more; [|exact N]; apply incl_snoc|exact DP|apply in_last|eapply select_lacks; eauto]. }
  rewrite <- S. wstep; leaf; [|pure kinds_find_vm]. wstep; leaf; [|pure kinds_ok_or]. wstep.
  match goal with |- context [match ?k with KX25519 => _ | _ => _ end] => destruct k end; try (cbn [wp wpr]; leaf; fail);
    (wstep; leaf; [|precip; [apply in_last|eassumption]]; eapply wp_mono; [|apply panon_encrypt_reports; auto]; intros h' [x|k|] [X _]; cbn [wpr wp]; auto).
Qed.
Lemma pauth_reports f msg au an protect h : from = Some f -> calm h -> wp A P h (authcrypt C to f msg au an protect) Q.
Proof.
  intros F H. unfold authcrypt. destruct (did_or_url to) as [did kid] eqn:DT. pose proof (did_part_spec _ _ _ DT) as DP.
  wstep; leaf. wstep; leaf. 2:{ destruct a; [discriminate|]. injection E as <-. leaf. } apply ok_or_Ok in E. subst a.
  destruct (did_or_url f) as [fdid fkid] eqn:DF. pose proof (did_part_spec _ _ _ DF) as FP.
  wstep. cbn [wp]; split; [exact I|intros [?|?|] ?; cbn [wpr]; leaf].
  wstep; leaf. 2:{ destruct a; [discriminate|]. injection E as <-. leaf. } apply ok_or_Ok in E. subst a.
  match goal with |- wp _ _ ?h _ _ => set (h1 := h) end. assert (C1 : calm h1) by (unfold h1; auto).
  assert (R1 : resolved h1 did a0) by (unfold h1; apply in_app_l; apply in_last). assert (R2 : resolved h1 fdid a1) by (apply in_last).
  destruct (select_kids fkid (doc_key_agreement a1)) as [|k0 ks] eqn:SF.
  { wstep. apply report_Err; auto. eapply purl_blame; [eapply pn_from; exact F|exact FP|exact R2|eapply select_lacks; eauto]. }
  rewrite <- SF. wstep; leaf. destruct a as [|k1 found]; [wstep; leaf|].
  match goal with |- wp _ _ ?h _ _ => set (h2 := h) end. assert (C2 : calm h2) by (unfold h2; auto). assert (I2 : incl h1 h2) by apply incl_snoc.
  wstep; leaf; [|pure kinds_find_vm].
  destruct (select_kids kid (doc_key_agreement a0)) as [|k2 ks2] eqn:ST.
  { wstep. apply report_Err; auto. eapply purl_blame; [apply pn_to|exact DP|apply I2; exact R1|eapply select_lacks; eauto]. }
  rewrite <- ST. wstep; leaf; [|pure kinds_find_vm]. wstep; leaf.
  2:{ destruct (find_first _ _) eqn:FF in E1; [discriminate|]. injection E1 as <-. apply report_Err; auto. right. cbn.
      exists f, did, a0, fdid, a1, (select_kids fkid (doc_key_agreement a1)), (k1 :: found), (select_kids kid (doc_key_agreement a0)).
      split; auto. split; auto. split; auto. split; [now apply I2|]. split; [now apply I2|]. split; [apply in_last|].
      split; [eapply select_wanted; eauto|]. split; [eapply select_wanted; eauto|].
      intros k k' a' Ik Ik' (vm & Fv & Av) (vm' & Fv' & Av').
      destruct (kalg_eqb a' KUnsupported) eqn:U; [now apply kalg_eqb_eq in U|exfalso].
      assert (Iv : In vm a).
      { apply entries in E. clear -E Ik Fv. induction E as [|x y l l' [_ Fx] F2 IH]; [destruct Ik|]. destruct Ik as [<-|Ik]; [left; eapply first_with_fun; eauto|right; auto]. }
      assert (Iv' : In vm' a2).
      { apply entries in E0. clear -E0 Ik' Fv'. induction E0 as [|x y l l' [_ Fx] F2 IH]; [destruct Ik'|]. destruct Ik' as [<-|Ik']; [left; eapply first_with_fun; eauto|right; auto]. }
      pose proof (find_first_none _ _ FF vm) as Z. cbv beta in Z. assert (Y : existsb (fun t => kalg_eqb (vm_key_alg t) (vm_key_alg vm)) a2 = false).
      { apply Z. apply filter_In. split; auto. unfold supported. rewrite Av. now rewrite U. }
      assert (Y' : existsb (fun t => kalg_eqb (vm_key_alg t) (vm_key_alg vm)) a2 = true).
      { apply existsb_exists. exists vm'. split; auto. rewrite Av, Av'. now apply kalg_eqb_eq. }
      congruence. }
  wstep; leaf. match goal with |- wp _ _ (_ ++ [Ev (OGetSecret _) (Ok ?x)]) _ _ => rename x into osec end.
  wstep; leaf; [|pure kinds_ok_or]. apply ok_or_Ok in E2. subst osec. cbv zeta. wstep.
  match goal with |- wp _ _ ?h _ _ => set (h3 := h) end. assert (C3 : calm h3) by (unfold h3; auto). assert (I3 : incl h1 h3) by (intros e Ie; apply in_app_l; now apply I2).
  assert (G : forall ka, wp A P h3 (auth_encrypt C ka au an protect msg a3 a4 (filter (fun t => kalg_eqb (vm_key_alg t) (vm_key_alg a3)) a2)) Q).
  { intros ka. unfold auth_encrypt. wstep; leaf; [|precip; [apply I3; exact R1|eassumption]].
    wstep; leaf; [|pure kinds_as; apply kinds_sec; [apply pb_plain|]; eapply psec_blame; apply in_last]. wstep. destruct au. eapply wp_mono; [|apply pencrypt_reports; auto].
    intros h' [x|?|] [X _]; cbn [wpr]; auto. cbn [report] in X. destruct protect; [|wstep; leaf]. eapply wp_mono; [|apply panon_encrypt_reports; auto]. intros h4 y [Y _]. exact Y. }
  match goal with |- context [match ?k with KX25519 => _ | _ => _ end] => destruct k eqn:KA end; try (cbn [wp wpr]; leaf; fail);
    (eapply wp_mono; [|apply G]; intros h' [x|k|] X; cbn [wpr wp]; auto).
Qed.
Lemma pservice_reports did sid h : (forall i, sid = Some i -> po_messaging_service o = Some i /\ did_part to did) -> calm h ->
  wp A P h (find_service did sid) Q.
Proof.
  intros S H. unfold find_service. wstep; leaf. wstep; leaf. 2:{ destruct a; [discriminate|]. injection E as <-. leaf. } apply ok_or_Ok in E. subst a.
  destruct sid as [i|]; [|wstep; leaf]. destruct (S i eq_refl) as [Po DP].
  assert (B : (forall id ms, ~ chosen a0 (Some i) id ms) -> blame (h ++ [Ev (OResolve did) (Ok (Some a0))]) IllegalArgument).
  { intros U. right. cbn. right. left. exists did, a0, i. split; auto. split; auto. split; [apply in_last|exact U]. }
  wstep; leaf.
  2:{ destruct (find_first _ _) eqn:F in E; [discriminate|]. injection E as <-. apply report_Err; auto. apply B.
      intros id ms (s & (l1 & l2 & L & Es & _) & _). pose proof (find_first_none _ _ F s) as Z. cbv beta in Z. rewrite Es, beq_refl in Z.
      discriminate Z. rewrite L. apply in_or_app. right. now left. }
  apply ok_or_Ok in E. apply find_first_first in E. assert (Fw : first_with (fun s => svc_id s = i) (doc_service a0) a) by (revert E; apply first_with_ext; intros; apply beq_eq).
  assert (U : (forall ms, ~ usable a ms) -> forall id ms, ~ chosen a0 (Some i) id ms).
  { intros N id ms (s & Fs & Us & _). pose proof (first_with_fun _ _ _ _ Fw Fs). subst s. exact (N ms Us). }
  destruct (svc_kind a) as [ms|v] eqn:K; [destruct (accepts_v2 ms) eqn:Ac|]; wstep; leaf; apply report_Err; auto; apply B, U; intros ms' Us.
  - assert (ms' = ms) by (destruct Us as [Ek _]; congruence). subst ms'. apply (accepts_usable _ _ K) in Us. congruence.
  - destruct Us as [Ek _]. congruence.
Qed.
Lemma pchain_reports h : calm h -> wp A P h (services_chain to (po_messaging_service o)) Q.
Proof.
  intros H. unfold services_chain. destruct (did_or_url to) as [did u] eqn:DU. pose proof (did_part_spec _ _ _ DU) as DP. wstep.
  eapply wp_mono; [|apply pservice_reports; auto]. intros h' [[[id ms]|]|k|] X; cbn [wpr]; auto. cbn [report] in X. cbn [snd chain_loop].
  destruct (is_did (ms_uri ms)) eqn:D; [|wstep; leaf]. cbn [List.length Nat.ltb Nat.leb]. wstep. eapply wp_mono; [|apply pservice_reports; [discriminate|auto]].
  intros h2 [s|k|] X2; cbn [wpr]; auto. cbn [report] in X2. wstep; leaf; [|pure kinds_ok_or]. destruct a as [mid mms]. cbn [snd chain_loop].
  destruct (is_did (ms_uri mms)); cbn [List.length Nat.ltb Nat.leb]; wstep; leaf.
Qed.
Lemma pwrap_reports headers alg hops : forall msg h, (forall k, In k (map fst hops) -> names h doc_key_agreement k) -> calm h ->
  wp A P h (wrap_loop C msg headers hops alg) Q.
Proof.
  induction hops as [|[k next] hops IH]; intros msg h N H; cbn [wrap_loop]; [wstep; leaf|]. wstep.
  eapply wp_mono; [|apply wp_hist with (Q := Q)].
  2:{ unfold build_forward. wstep; leaf; [|pure kinds_kind]. wstep. unfold random. cbn [wp]. split; [exact I|]. intros r _. cbn [wpr wp]. leaf. }
  intros h' [x|?|] (X & t & ->); cbn [wpr]; auto. cbn [report] in X. wstep. eapply wp_mono; [|apply wp_hist with (Q := Q), panon_reports; auto].
  2:{ eapply names_more; [apply incl_snoc|]. apply N. now left. }
  intros h' [[y ks]|?|] (Y & t' & ->); cbn [wpr]; auto. apply IH; auto. intros k' I'. rewrite <- app_assoc. eapply names_more; [apply incl_snoc|]. apply N. now right.
Qed.
Lemma pforward_reports msg h : calm h -> wp A P h (wrap_if_needed C msg to o) Q.
Proof.
  intros H. unfold wrap_if_needed. destruct (po_forward o) eqn:F; cbn [negb]; [|wstep; leaf]. wstep.
  eapply wp_mono; [|apply wp_conj; [now apply pchain_reports|eapply wp_post with (Q := fun h' r => forall chain, r = Ok chain -> exists tr, h' = h ++ tr /\ chain_is to (po_messaging_service o) tr chain); [now apply pchain_reports|]]].
  2:{ intros tr x E _ chain ->. exists tr. split; auto. now apply services_chain_Ok. }
  intros h' [chain|?|] [X Hc]; cbn [wpr]; auto. cbn [report] in X. destruct (Hc chain eq_refl) as (tr & -> & Ch). clear Hc.
  assert (W : forall keys, keys <> [] -> (forall k, In k keys -> names (h ++ tr) doc_key_agreement k) -> wp A P (h ++ tr) (wrap_in_forward C msg (po_forward_headers o) to keys (po_enc_alg_anon o)) Q).
  { intros keys NE K. unfold wrap_in_forward. destruct keys as [|k0 keys]; [congruence|]. cbv zeta. apply pwrap_reports; auto. intros k I0. apply K.
    apply in_map_iff in I0 as ([k' n] & <- & I0). apply in_combine_l in I0. now apply in_rev in I0. }
  destruct Ch as [did doc DP S N|did doc id ms DP Ch N|did doc id ms mdoc mid mms DP Ch Dt Ch' N]; [wstep; leaf| |]; cbv zeta; cbn [last map app snd fst].
  - destruct (ms_routing_keys ms) as [|k0 keys] eqn:K; [wstep; leaf|]. rewrite <- K. wstep. eapply wp_mono; [|apply W].
    + intros h' [x|?|] Y; cbn [wpr wp]; auto.
    + rewrite K. discriminate.
    + intros k Ik. eapply pn_hop; eauto. apply in_last.
  - wstep. eapply wp_mono; [|apply W].
    + intros h' [x|?|] Y; cbn [wpr wp]; auto.
    + discriminate.
    + intros k [<-|Ik]; (eapply pn_hop; eauto; apply in_app_r; now left).
Qed.
Lemma ppack_reports : wp A P [] (pack_encrypted C m to from sign_by o) Q.
Proof.
  assert (H : calm []) by (intros e k []). unfold pack_encrypted.
  wstep; leaf; (destruct (validate_cases m to from sign_by) as [[V R]|[V R]]; rewrite V in E; try discriminate).
  2:{ injection E as <-. apply report_Err; auto. right. left. exact R. }
  assert (D : forall s, sign_by = Some s -> is_did s = true).
  { intros s S. destruct (is_did s) eqn:D; auto. exfalso. apply R. unfold refused. rewrite S. right. right. left. exists s. split; auto. now apply not_did_text. }
  wstep. eapply wp_mono with (Q := Q).
  2:{ destruct sign_by as [s|] eqn:S; rewrite <- S in *.
      - wstep. eapply wp_mono; [|apply (psigned_reports s); auto]. intros h' [[x y]|?|] X; cbn [wpr wp]; auto.
      - wstep. eapply wp_mono; [|apply pplain_reports; auto]. intros h' [x|?|] X; cbn [wpr wp]; auto. }
  intros h' [[msg kid]|?|] X; cbn [wpr]; auto. cbn [report] in X. wstep. eapply wp_mono with (Q := Q).
  2:{ destruct from as [f|] eqn:S; rewrite <- S in *.
      - wstep. eapply wp_mono; [|apply (pauth_reports f); auto]. intros h2 [[[x y] z]|?|] Y; cbn [wpr wp]; auto.
      - wstep. eapply wp_mono; [|apply panon_reports; [apply pn_to|auto]]. intros h2 [[x y]|?|] Y; cbn [wpr wp]; auto. }
  intros h2 [[[msg2 fk] tk]|?|] Y; cbn [wpr]; auto. cbn [report] in Y. wstep. eapply wp_mono; [|now apply pforward_reports].
  intros h3 [[[w sm]|]|?|] Z; cbn [wpr wp]; auto.
Qed.
End Pack.

Lemma pack_reports C m to from sign_by o tr x : exec (pack_encrypted C m to from sign_by o) tr x ->
  match x with Err k => pack_blames C m to from sign_by o tr k | _ => True end
  /\ forall e k, In e tr -> ends_pack e k -> x = Err k.
Proof.
  intros E. apply (wp_exec (fun _ => True) (fun _ _ => True) []) with (Q := report (pack_blames C m to from sign_by o) ends_pack) in E.
  - destruct E as [E _]. cbn [app] in E. destruct x as [a|k|]; cbn [report] in E.
    + split; [exact I|]. intros e k In0 V. destruct (E e k In0 V).
    + destruct E as [B V]. split; auto. intros e k' In0 V'. f_equal. symmetry. eapply V; eauto.
    + split; [exact I|]. intros e k In0 V. destruct (E e k In0 V).
  - apply ppack_reports.
  - now apply Forall_forall.
Qed.
