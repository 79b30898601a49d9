(** Several devices of one recipient. *)
From Verif.Model Require Import Prelude Utf8 Base64 Json Serde DidDoc Crypto Keys Effects Jws Jwe Message FromPrior Pack Routing Unpack.
From Verif.Spec Require Import Devices.
From Verif.Proofs Require Import Lib SealP.

Lemma rbind_ok {A B} (r : res A) (f : A -> res B) y : rbind r f = Ok y -> exists x, r = Ok x /\ f x = Ok y.
Proof. destruct r; cbn; intros E; try discriminate. eauto. Qed.

Section Opens.
Context (C : crypto) (CO : committing C).
(** All keys that open an envelope give the same. *)
Definition opens_one {A} (open : bytes -> kalg -> key C -> res A) : Prop :=
  forall kid ka k x kid' ka' k' x', open kid ka k = Ok x -> open kid' ka' k' = Ok x' -> x = x'.
Lemma decrypts ce d ka p s kid k pt : jwe_decrypt C ce d ka p s kid k = Ok pt -> exists cek iv ct tag,
  b64dec (jwe_iv (pj_jwe p)) = Some iv /\ b64dec (jwe_ciphertext (pj_jwe p)) = Some ct /\ b64dec (jwe_tag (pj_jwe p)) = Some tag
  /\ aead_dec C ce cek iv (jwe_protected (pj_jwe p)) (ct ++ tag) = Some pt.
Proof.
  unfold jwe_decrypt. cbv zeta. destruct (negb _); [discriminate|]. intros H.
  apply rbind_ok in H as (rc & _ & H). apply rbind_ok in H as (ek & _ & H). apply rbind_ok in H as (epk & _ & H). apply rbind_ok in H as (tag & T & H).
  apply rbind_ok in H as (kw & _ & H). apply rbind_ok in H as (c & _ & H). apply rbind_ok in H as (cek & _ & H). apply rbind_ok in H as (ct & CT & H). apply rbind_ok in H as (iv & IV & H).
  apply ok_or_Ok in T, CT, IV, H. exists cek, iv, ct, tag. auto.
Qed.
Lemma decrypts_one ce d ka p s kid k pt d' ka' s' kid' k' pt' : jwe_decrypt C ce d ka p s kid k = Ok pt -> jwe_decrypt C ce d' ka' p s' kid' k' = Ok pt' -> pt = pt'.
Proof.
  intros H H'. apply decrypts in H as (cek & iv & ct & tag & I & T & G & D). apply decrypts in H' as (cek' & iv' & ct' & tag' & I' & T' & G' & D').
  rewrite I in I'. rewrite T in T'. rewrite G in G'. assert (iv = iv') as <- by congruence. assert (ct = ct') as <- by congruence. assert (tag = tag') as <- by congruence.
  exact (CO _ _ _ _ _ _ _ _ D D').
Qed.
Lemma anon_opens p : opens_one (anon_open C p).
Proof.
  assert (G : forall kid ka k pt alg, anon_open C p kid ka k = Ok (pt, alg) -> exists ce, anon_cenc (ph_enc (pj_protected p)) = Ok (ce, alg) /\ jwe_decrypt C ce KdfEs ka p None kid k = Ok pt).
  { intros kid ka k pt alg H. unfold anon_open in H. destruct ka; try discriminate H; apply rbind_ok in H as ([ce al] & E & H); apply rbind_ok in H as (t & D & H);
      apply Ok_inj, pair_equal_spec in H as [<- <-]; eauto. }
  intros kid ka k [pt alg] kid' ka' k' [pt' alg'] H H'. apply G in H as (ce & E & D), H' as (ce' & E' & D'). rewrite E in E'. apply Ok_inj, pair_equal_spec in E' as [<- <-].
  now rewrite (decrypts_one _ _ _ _ _ _ _ _ _ _ _ _ _ _ D D').
Qed.
Lemma auth_opens p fk fkey : opens_one (auth_open C p fk fkey).
Proof.
  assert (G : forall kid ka k pt, auth_open C p fk fkey kid ka k = Ok pt -> jwe_decrypt C CA256CbcHs512 Kdf1pu ka p (Some (fk, snd fkey)) kid k = Ok pt).
  { intros kid ka k pt H. unfold auth_open in H. destruct (fst fkey), ka, (ph_enc (pj_protected p)); try discriminate H; exact H. }
  intros kid ka k pt kid' ka' k' pt' H H'. apply G in H, H'. exact (decrypts_one _ _ _ _ _ _ _ _ _ _ _ _ _ _ H H').
Qed.
Lemma loop_opened h {A} all (open : bytes -> kalg -> key C -> res A) found : forall last x, run h (open_loop C all open found last) = Ok x ->
  last = Some x \/ exists kid ka k, open kid ka k = Ok x.
Proof.
  induction found as [|kid found IH]; intros last x H; cbn [open_loop] in H.
  - cbn [run] in H. apply ok_or_Ok in H. auto.
  - rewrite run_pbind in H. destruct (run h (get_secret kid)) as [sec| |]; try discriminate H. rewrite run_pbind in H. cbn [run] in H. destruct (ok_or _ sec) as [s| |]; try discriminate H.
    rewrite run_pbind in H. cbn [run] in H. destruct (sec_key_pair C s) as [[ka k]| |]; try discriminate H. rewrite run_pbind in H. cbn [run] in H.
    destruct (open kid ka k) as [a| |] eqn:E; try discriminate H. destruct all.
    + apply IH in H as [H|H]; auto. injection H as ->. eauto.
    + cbn [run] in H. apply Ok_inj in H. subst a. eauto.
Qed.
Lemma loop_one h h' {A} all all' (open : bytes -> kalg -> key C -> res A) found found' x x' : opens_one open ->
  run h (open_loop C all open found None) = Ok x -> run h' (open_loop C all' open found' None) = Ok x' -> x = x'.
Proof.
  intros O H H'. apply loop_opened in H as [H|(kid & ka & k & H)]; [discriminate H|]. apply loop_opened in H' as [H'|(kid' & ka' & k' & H')]; [discriminate H'|]. exact (O _ _ _ _ _ _ _ _ H H').
Qed.
Lemma loop_first h {A} (open : bytes -> kalg -> key C -> res A) found x : opens_one open -> run h (open_loop C true open found None) = Ok x ->
  run h (open_loop C false open found None) = Ok x.
Proof.
  intros O H. assert (G : exists x', run h (open_loop C false open found None) = Ok x').
  { destruct found as [|kid found]; cbn [open_loop] in *; [eauto|].
    rewrite run_pbind in *. destruct (run h (get_secret kid)) as [sec| |]; try discriminate H. rewrite run_pbind in *. cbn [run] in *. destruct (ok_or _ sec) as [s| |]; try discriminate H.
    rewrite run_pbind in *. cbn [run] in *. destruct (sec_key_pair C s) as [[ka k]| |]; try discriminate H. rewrite run_pbind in *. cbn [run] in *.
    destruct (open kid ka k) as [a| |] eqn:E; try discriminate H. cbn [run]. eauto. }
  destruct G as (x' & G). rewrite G. f_equal. symmetry. exact (loop_one _ _ _ _ _ _ _ _ _ O H G).
Qed.
End Opens.

Section Two.
Context (C : crypto) (CO : committing C) (h1 h2 : handler) (SD : same_documents h1 h2).
(** Both end well only with the same. *)
Definition agree {A} (m1 m2 : prog (res A)) : Prop := forall x1 x2, run h1 m1 = Ok x1 -> run h2 m2 = Ok x2 -> x1 = x2.
Lemma agree_ret {A} (r : res A) : agree (Ret r) (Ret r). Proof. intros x1 x2 E1 E2. cbn in *. congruence. Qed.
Lemma agree_bind {A B} (m1 m2 : prog (res A)) (f1 f2 : A -> prog (res B)) : agree m1 m2 -> (forall x, agree (f1 x) (f2 x)) -> agree (pbind m1 f1) (pbind m2 f2).
Proof.
  intros M F x1 x2 E1 E2. rewrite run_pbind in E1, E2. destruct (run h1 m1) as [a1| |] eqn:R1; try discriminate E1. destruct (run h2 m2) as [a2| |] eqn:R2; try discriminate E2.
  pose proof (M _ _ R1 R2) as ->. exact (F _ _ _ E1 E2).
Qed.
Lemma agree_resolve did : agree (resolve did) (resolve did).
Proof. intros x1 x2 E1 E2. cbn in E1, E2. rewrite SD in E1. congruence. Qed.
Lemma agree_kind {A} k (m1 m2 : prog (res A)) : agree m1 m2 -> agree (pkind k m1) (pkind k m2).
Proof.
  intros M x1 x2 E1 E2. unfold pkind in *. rewrite run_bind in E1, E2. cbn [run] in *. destruct (run h1 m1) as [a1| |] eqn:R1; try discriminate E1.
  destruct (run h2 m2) as [a2| |] eqn:R2; try discriminate E2. cbn [kind] in *. apply Ok_inj in E1, E2. subst. exact (M _ _ R1 R2).
Qed.
Ltac go := repeat first [ apply agree_ret | apply agree_resolve | apply agree_bind; [|intros ?] | apply agree_kind
  | match goal with |- agree (match ?x with _ => _ end) _ => destruct x end ].
Lemma agree_open {A} all1 all2 (open : bytes -> kalg -> key C -> res A) f1 f2 : opens_one C open -> agree (open_loop C all1 open f1 None) (open_loop C all2 open f2 None).
Proof. intros O x1 x2. apply loop_one. exact O. Qed.
Lemma agree_found {A B} ids (m1 m2 : list bytes -> prog (res A)) (g1 g2 : A -> prog (res B)) : (forall l1 l2, agree (m1 l1) (m2 l2)) ->
  (forall x, agree (g1 x) (g2 x)) ->
  agree (pbind (find_secrets ids) (fun found => match found with [] => Ret (Err SecretNotFound) | _ => pbind (m1 found) g1 end))
        (pbind (find_secrets ids) (fun found => match found with [] => Ret (Err SecretNotFound) | _ => pbind (m2 found) g2 end)).
Proof.
  intros M G x1 x2 E1 E2. rewrite run_pbind in E1, E2. destruct (run h1 (find_secrets ids)) as [l1| |]; try discriminate E1. destruct (run h2 (find_secrets ids)) as [l2| |]; try discriminate E2.
  destruct l1; [discriminate E1|]. destruct l2; [discriminate E2|]. revert E1 E2. apply agree_bind; auto.
Qed.
Lemma agree_anon msg a1 a2 u md : agree (try_anoncrypt C msg (mkUO a1 u) md) (try_anoncrypt C msg (mkUO a2 u) md).
Proof.
  unfold try_anoncrypt. apply agree_bind; [apply agree_ret|]. intros [j|]; [|apply agree_ret]. apply agree_bind; [apply agree_ret|]. intros p. destruct (ph_alg _); try apply agree_ret.
  apply agree_bind; [apply agree_ret|]. intros p'. cbv zeta. apply agree_bind; [apply agree_ret|]. intros _.
  apply (agree_found _ (fun l => open_loop C a1 (anon_open C p') l None) (fun l => open_loop C a2 (anon_open C p') l None)).
  - intros. apply agree_open, anon_opens, CO.
  - intros [pt alg]. destruct (utf8 pt); apply agree_ret.
Qed.
Lemma agree_auth msg a1 a2 u md : agree (try_authcrypt C msg (mkUO a1 u) md) (try_authcrypt C msg (mkUO a2 u) md).
Proof.
  unfold try_authcrypt. apply agree_bind; [apply agree_ret|]. intros [j|]; [|apply agree_ret]. apply agree_bind; [apply agree_ret|]. intros p. destruct (ph_alg _); try apply agree_ret.
  apply agree_bind; [apply agree_ret|]. intros p'. apply agree_bind; [apply agree_ret|]. intros apu. destruct (negb _); [apply agree_ret|]. destruct (did_or_url apu) as [fd fu].
  destruct (negb _); [apply agree_ret|]. apply agree_bind; [apply agree_kind, agree_resolve|]. intros d. apply agree_bind; [apply agree_ret|]. intros doc.
  apply agree_bind; [apply agree_ret|]. intros fk. apply agree_bind; [apply agree_ret|]. intros vm.
  apply agree_bind; [apply agree_ret|]. intros fkey. cbv zeta. apply agree_bind; [apply agree_ret|]. intros _.
  apply (agree_found _ (fun l => open_loop C a1 (auth_open C p' fk fkey) l None) (fun l => open_loop C a2 (auth_open C p' fk fkey) l None)).
  - intros. apply agree_open, auth_opens, CO.
  - intros pt. destruct (utf8 pt); apply agree_ret.
Qed.
Lemma agree_sign msg md : agree (try_sign C msg md) (try_sign C msg md).
Proof. unfold try_sign. go. Qed.
Lemma agree_plain msg md : agree (try_plaintext C msg md) (try_plaintext C msg md).
Proof. unfold try_plaintext, from_prior_unpack. cbv zeta. go. Qed.
Lemma agree_rest msg a1 a2 u md : agree (unpack_rest C msg (mkUO a1 u) md) (unpack_rest C msg (mkUO a2 u) md).
Proof.
  unfold unpack_rest. apply agree_bind; [apply agree_auth|]. intros a. destruct (match a with Some (m, d) => (m, d) | None => (msg, md) end) as [m d].
  apply agree_bind; [apply agree_sign|]. intros s. destruct (match s with Some (m, d) => (m, d) | None => _ end) as [m' d']. apply agree_bind; [apply agree_plain|]. intros p. apply agree_ret.
Qed.
Lemma agree_has next : hold_alike h1 h2 -> agree (has_secret next) (has_secret next).
Proof.
  intros HA. unfold has_secret. apply agree_bind; [destruct (did_or_url next) as [did [kid|]]; go|]. intros kids x1 x2 E1 E2. rewrite run_pbind in E1, E2. cbn [find_secrets run] in E1, E2.
  destruct (h1 (OFindSecrets kids)) as [l1| |] eqn:F1; try discriminate E1. destruct (h2 (OFindSecrets kids)) as [l2| |] eqn:F2; try discriminate E2.
  cbn [run] in E1, E2. apply Ok_inj in E1, E2. subst. specialize (HA _ _ _ F1 F2). destruct l1, l2; auto; exfalso; [assert (X : b :: l2 = []) by (now apply HA)|assert (X : b :: l1 = []) by (now apply HA)]; discriminate X.
Qed.
Lemma agree_unwrap pt : hold_alike h1 h2 -> agree (try_unwrap C pt) (try_unwrap C pt).
Proof.
  intros HA. unfold try_unwrap. apply agree_bind; [apply agree_ret|]. intros [m|]; [|apply agree_ret]. destruct (try_parse_forward m); [|apply agree_ret].
  apply agree_bind; [now apply agree_has|]. intros; apply agree_ret.
Qed.
Lemma devices_loop u a1 a2 : (u = true -> hold_alike h1 h2) -> forall f1 f2 msg md r1 r2, run h1 (unpack_loop C f1 msg (mkUO a1 u) md) = Some (Ok r1) ->
  run h2 (unpack_loop C f2 msg (mkUO a2 u) md) = Some (Ok r2) -> r1 = r2.
Proof.
  intros HA f1. induction f1 as [|f1 IH]; intros [|f2] msg md r1 r2 E1 E2; cbn [unpack_loop run] in *; try discriminate. rewrite run_bind in E1, E2.
  assert (RE : forall m d, run h1 (bind (unpack_rest C m (mkUO a1 u) d) (fun x => Ret (Some x))) = Some (Ok r1) ->
    run h2 (bind (unpack_rest C m (mkUO a2 u) d) (fun x => Ret (Some x))) = Some (Ok r2) -> r1 = r2).
  { intros m d H1 H2. rewrite run_bind in H1, H2. cbn [run] in *. apply (agree_rest m a1 a2 u d); congruence. }
  destruct (run h1 (try_anoncrypt C msg (mkUO a1 u) md)) as [x1| |] eqn:R1; try discriminate E1. destruct (run h2 (try_anoncrypt C msg (mkUO a2 u) md)) as [x2| |] eqn:R2; try discriminate E2.
  pose proof (agree_anon _ _ _ _ _ _ _ R1 R2) as <-. destruct x1 as [[pt md']|]; [|exact (RE _ _ E1 E2)]. cbn [uo_unwrap] in E1, E2. destruct u; [|exact (RE _ _ E1 E2)].
  rewrite run_bind in E1, E2. destruct (run h1 (try_unwrap C pt)) as [y1| |] eqn:U1; try discriminate E1. destruct (run h2 (try_unwrap C pt)) as [y2| |] eqn:U2; try discriminate E2.
  pose proof (agree_unwrap _ (HA eq_refl) _ _ U1 U2) as <-. destruct y1 as [fwd|]; [exact (IH _ _ _ _ _ E1 E2)|exact (RE _ _ E1 E2)].
Qed.
End Two.

Section Stricter.
Context (C : crypto) (CO : committing C) (h : handler).
Definition stricter {A} (m1 m2 : prog (res A)) : Prop := forall x, run h m1 = Ok x -> run h m2 = Ok x.
Lemma stricter_refl {A} (m : prog (res A)) : stricter m m. Proof. intros x E. exact E. Qed.
Lemma stricter_bind {A B} (m1 m2 : prog (res A)) (f1 f2 : A -> prog (res B)) : stricter m1 m2 -> (forall x, stricter (f1 x) (f2 x)) -> stricter (pbind m1 f1) (pbind m2 f2).
Proof. intros M F x E. rewrite run_pbind in *. destruct (run h m1) as [a| |] eqn:R; try discriminate E. rewrite (M _ R). now apply F. Qed.
Lemma stricter_found {A B} (m1 m2 : prog (res A)) (g : A -> prog (res B)) (l : list bytes) : stricter m1 m2 ->
  stricter (match l with [] => Ret (Err SecretNotFound) | _ => pbind m1 g end) (match l with [] => Ret (Err SecretNotFound) | _ => pbind m2 g end).
Proof. intros M. destruct l; [apply stricter_refl|]. apply stricter_bind; auto using stricter_refl. Qed.
Lemma stricter_anon msg u md : stricter (try_anoncrypt C msg (mkUO true u) md) (try_anoncrypt C msg (mkUO false u) md).
Proof.
  unfold try_anoncrypt. apply stricter_bind; [apply stricter_refl|]. intros [j|]; [|apply stricter_refl]. apply stricter_bind; [apply stricter_refl|]. intros p. destruct (ph_alg _); try apply stricter_refl.
  apply stricter_bind; [apply stricter_refl|]. intros p'. cbv zeta. do 2 (apply stricter_bind; [apply stricter_refl|]; intros ?). apply stricter_found. intros y. apply loop_first, anon_opens, CO.
Qed.
Lemma stricter_auth msg u md : stricter (try_authcrypt C msg (mkUO true u) md) (try_authcrypt C msg (mkUO false u) md).
Proof.
  unfold try_authcrypt. apply stricter_bind; [apply stricter_refl|]. intros [j|]; [|apply stricter_refl]. apply stricter_bind; [apply stricter_refl|]. intros p. destruct (ph_alg _); try apply stricter_refl.
  apply stricter_bind; [apply stricter_refl|]. intros p'. apply stricter_bind; [apply stricter_refl|]. intros apu. destruct (negb _); [apply stricter_refl|]. destruct (did_or_url apu) as [fd fu].
  destruct (negb _); [apply stricter_refl|]. do 5 (apply stricter_bind; [apply stricter_refl|]; intros ?). cbv zeta. do 2 (apply stricter_bind; [apply stricter_refl|]; intros ?).
  apply stricter_found. intros y'. apply loop_first, auth_opens, CO.
Qed.
Lemma stricter_rest msg u md : stricter (unpack_rest C msg (mkUO true u) md) (unpack_rest C msg (mkUO false u) md).
Proof. unfold unpack_rest. apply stricter_bind; [apply stricter_auth|]. intros a. apply stricter_refl. Qed.
Lemma stricter_loop u : forall f msg md r, run h (unpack_loop C f msg (mkUO true u) md) = Some (Ok r) -> run h (unpack_loop C f msg (mkUO false u) md) = Some (Ok r).
Proof.
  intros f. induction f as [|f IH]; intros msg md r E; cbn [unpack_loop run] in *; [discriminate|]. rewrite run_bind in *.
  assert (RE : forall m d, run h (bind (unpack_rest C m (mkUO true u) d) (fun x => Ret (Some x))) = Some (Ok r) ->
    run h (bind (unpack_rest C m (mkUO false u) d) (fun x => Ret (Some x))) = Some (Ok r)).
  { intros m d H. rewrite run_bind in *. cbn [run] in *. rewrite (stricter_rest m u d r); congruence. }
  destruct (run h (try_anoncrypt C msg (mkUO true u) md)) as [x| |] eqn:R; try discriminate E. rewrite (stricter_anon _ _ _ _ R).
  destruct x as [[pt md']|]; [|now apply RE]. cbn [uo_unwrap] in *. destruct u; [|now apply RE]. rewrite run_bind in *. destruct (run h (try_unwrap C pt)) as [[fwd|]| |]; auto; discriminate E.
Qed.
End Stricter.
