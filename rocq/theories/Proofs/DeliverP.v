(** What unpacking reports about a message that came in forwards (C52). *)
From Verif.Model Require Import Prelude Utf8 Base64 Json DidDoc Crypto Keys Effects Serde Jws Jwe Message FromPrior Pack Routing Unpack.
From Verif.Spec Require Import Small Events Cond.
From Verif.Proofs Require Import Lib SmallP UnpackInv CondP.

(** ** Two programs that make the same calls *)
Definition alike {A B} (R : A -> B -> Prop) (p : prog A) (q : prog B) : Prop :=
  forall tr x, exec p tr x -> exists y, exec q tr y /\ R x y.
(** Results related by [R]; failures are the same. *)
Definition resR {A B} (R : A -> B -> Prop) (x : res A) (y : res B) : Prop :=
  match x, y with Ok a, Ok b => R a b | Err k, Err k' => k = k' | Panic, Panic => True | _, _ => False end.
Definition optR {A B} (R : A -> B -> Prop) (x : option A) (y : option B) : Prop :=
  match x, y with Some a, Some b => R a b | None, None => True | _, _ => False end.

Lemma alike_ret {A B} (R : A -> B -> Prop) a b : R a b -> alike R (Ret a) (Ret b).
Proof. intros H tr x [-> ->]. exists b. split; [split|]; auto. Qed.
Lemma alike_bind {A B A' B'} (S : A -> B -> Prop) (R : A' -> B' -> Prop) p q f g :
  alike S p q -> (forall a b, S a b -> alike R (f a) (g b)) -> alike R (bind p f) (bind q g).
Proof.
  intros P F tr x H. apply exec_bind in H as (t1 & t2 & a & -> & H1 & H2). destruct (P _ _ H1) as (b & Hb & Sab).
  destruct (F a b Sab _ _ H2) as (y & Hy & Ry). exists y. split; auto. apply exec_bind. eauto 6.
Qed.
Lemma alike_pbind {A B A' B'} (S : A -> B -> Prop) (R : A' -> B' -> Prop) p q f g :
  alike (resR S) p q -> (forall a b, S a b -> alike (resR R) (f a) (g b)) -> alike (resR R) (pbind p f) (pbind q g).
Proof.
  intros P F. apply (alike_bind (resR S)); auto. intros [a|k|] [b|k'|] H; cbn in H; try easy; [now apply F| |]; apply alike_ret; auto; exact I.
Qed.
Lemma alike_same {A A' B'} (R : A' -> B' -> Prop) (p : prog (res A)) f g :
  (forall a, alike (resR R) (f a) (g a)) -> alike (resR R) (pbind p f) (pbind p g).
Proof.
  intros F tr x H. unfold pbind in *. apply exec_bind in H as (t1 & t2 & a & -> & H1 & H2).
  destruct a as [a|k|].
  - destruct (F a _ _ H2) as (y & Hy & Ry). exists y. split; auto. apply exec_bind. exists t1, t2, (Ok a). auto.
  - destruct H2 as [-> ->]. exists (Err k). split; [|reflexivity]. apply exec_bind. exists t1, [], (Err k). repeat split; auto.
  - destruct H2 as [-> ->]. exists Panic. split; [|exact I]. apply exec_bind. exists t1, [], Panic. repeat split; auto.
Qed.

(** ** The stages treat the metadata alike *)
Section Stages.
Context (C : crypto).
Definition kept_md {A} (x y : A * unpack_metadata) : Prop := fst x = fst y /\ same_inside (snd x) (snd y).

Ltac same := repeat (apply alike_same; intros).
Ltac cases := lazymatch goal with |- alike _ (match ?x with _ => _ end) _ => destruct x end.
Ltac leaf := apply alike_ret; cbn; auto.
Lemma si_anon_set kids alg md md0 : same_inside md md0 -> same_inside (md_anon kids alg md) (md_anon kids alg md0).
Proof. intros []. split; cbn; auto. Qed.
Lemma si_rewrapped md md0 : same_inside md md0 -> same_inside (md_rewrapped md) (md_rewrapped md0).
Proof. intros []. split; cbn; auto. Qed.
Lemma si_auth_set kids from md md0 : same_inside md md0 -> same_inside (md_auth kids from md) (md_auth kids from md0).
Proof. intros [? ? ? ? ? ? ? ? ? AN]. split; cbn; auto. intros A. destruct (AN A) as (E1 & E2 & E3 & E4). rewrite E3. auto. Qed.
Lemma si_sign_set alg kid text md md0 : same_inside md md0 -> same_inside (md_sign alg kid text md) (md_sign alg kid text md0).
Proof. intros []. split; cbn; auto. Qed.
Lemma si_prior_set p kid md md0 : same_inside md md0 -> same_inside (md_prior p kid md) (md_prior p kid md0).
Proof. intros []. split; cbn; auto. Qed.

Lemma anon_alike msg o md md0 : same_inside md md0 ->
  alike (resR (optR kept_md)) (try_anoncrypt C msg o md) (try_anoncrypt C msg o md0).
Proof.
  intros S. unfold try_anoncrypt. same. destruct a as [j|]; [|leaf]. same. destruct (ph_alg _); try leaf.
  same. destruct a2; [leaf|]. apply alike_same; intros [pt alg]. destruct (utf8 pt); leaf. split; cbn; auto. now apply si_anon_set.
Qed.
Lemma auth_alike msg o md md0 : same_inside md md0 ->
  alike (resR (optR kept_md)) (try_authcrypt C msg o md) (try_authcrypt C msg o md0).
Proof.
  intros S. unfold try_authcrypt. same. destruct a as [j|]; [|leaf]. same. destruct (ph_alg _); try leaf.
  same. destruct (utf8 _); cbn [negb]; [|leaf]. destruct (did_or_url _) as [fd fu]. destruct (is_some fu); cbn [negb]; [|leaf].
  same. cases; [leaf|]. same. destruct (utf8 _); leaf. split; cbn; auto. now apply si_auth_set.
Qed.
Lemma sign_alike msg md md0 : same_inside md md0 ->
  alike (resR (optR kept_md)) (try_sign C msg md) (try_sign C msg md0).
Proof.
  intros S. unfold try_sign. same. destruct a as [j|]; [|leaf]. same. destruct (snd a) as [|h [|h' l]]; [leaf| |leaf].
  destruct (jws_signatures j) as [|sg sgs]; [leaf|]. cbv zeta. destruct (did_or_url _) as [d u]. destruct (is_some u); cbn [negb]; [|leaf].
  same. cases; [leaf|]. same. destruct (utf8 _); leaf. split; cbn; auto. now apply si_sign_set.
Qed.
Lemma plain_alike msg md md0 : same_inside md md0 ->
  alike (resR (optR kept_md)) (try_plaintext C msg md) (try_plaintext C msg md0).
Proof.
  intros S. unfold try_plaintext. same. destruct a as [m|]; [|leaf]. same. destruct (msg_from_prior a) as [jwt|].
  - same. destruct a0 as [p kid]. leaf. split; cbn; auto. now apply si_prior_set.
  - leaf. split; cbn; auto.
Qed.
Lemma rest_alike msg o md md0 : same_inside md md0 ->
  alike (resR kept_md) (unpack_rest C msg o md) (unpack_rest C msg o md0).
Proof.
  intros S. unfold unpack_rest. eapply alike_pbind; [now apply auth_alike|]. intros a b AB.
  assert (X : exists t d d0, match a with Some (m, d) => (m, d) | None => (msg, md) end = (t, d)
    /\ match b with Some (m, d) => (m, d) | None => (msg, md0) end = (t, d0) /\ same_inside d d0).
  { destruct a as [[t d]|], b as [[t' d']|]; cbn in AB; try easy; [destruct AB as [E1 E2]; cbn in *; subst|]; eauto 8. }
  destruct X as (t & d & d0 & -> & -> & Sd). clear a b AB.
  eapply alike_pbind; [now apply sign_alike|]. intros a b AB.
  assert (X : exists t' e e0, match a with Some (m, d) => (m, d) | None => (t, d) end = (t', e)
    /\ match b with Some (m, d) => (m, d) | None => (t, d0) end = (t', e0) /\ same_inside e e0).
  { destruct a as [[t' e]|], b as [[t'' e']|]; cbn in AB; try easy; [destruct AB as [E1 E2]; cbn in *; subst|]; eauto 8. }
  destruct X as (t' & e & e0 & -> & -> & Se). clear a b AB.
  eapply alike_pbind; [now apply plain_alike|]. intros a b AB. apply alike_ret. destruct a, b; cbn in AB |- *; auto; easy.
Qed.
Lemma loop_alike fuel : forall msg o md md0, same_inside md md0 ->
  alike (optR (resR kept_md)) (unpack_loop C fuel msg o md) (unpack_loop C fuel msg o md0).
Proof.
  induction fuel as [|f IH]; intros msg o md md0 S; cbn [unpack_loop]; [now apply alike_ret|].
  assert (R : forall msg md md0, same_inside md md0 ->
    alike (optR (resR kept_md)) (bind (unpack_rest C msg o md) (fun x => Ret (Some x))) (bind (unpack_rest C msg o md0) (fun x => Ret (Some x)))).
  { intros t d d0 Sd. eapply alike_bind; [now apply rest_alike|]. intros a b AB. now apply alike_ret. }
  eapply alike_bind; [now apply anon_alike|]. intros a b AB.
  destruct a as [[[pt d]|]|k|], b as [[[pt' d']|]|k'|]; cbn in AB; try easy; try (now apply alike_ret); [|now apply R].
  destruct AB as [E Sd]. cbn in E, Sd. subst pt'. destruct (uo_unwrap o); [|now apply R].
  intros tr x H. apply exec_bind in H as (t1 & t2 & u & -> & H1 & H2).
  assert (X : exists y, exec match u with
      | Ok (Some fwd) => unpack_loop C f fwd o (md_rewrapped d')
      | Ok None => bind (unpack_rest C pt o d') (fun x => Ret (Some x))
      | Err k => Ret (Some (Err k)) | Panic => Ret (Some Panic) end t2 y /\ optR (resR kept_md) x y).
  { destruct u as [[fwd|]|k|].
    - exact (IH _ _ _ _ (si_rewrapped _ _ Sd) _ _ H2).
    - exact (R _ _ _ Sd _ _ H2).
    - destruct H2 as [-> ->]. exists (Some (Err k)). repeat split.
    - destruct H2 as [-> ->]. exists (Some Panic). repeat split. }
  destruct X as (y & Hy & Rxy). exists y. split; auto. apply exec_bind. eauto 6.
Qed.

(** Anonymous envelopes seen before do not count. *)
Lemma si_start kids alg md : um_anonymous_sender md = false ->
  same_inside (md_rewrapped (md_anon kids alg md)) md.
Proof. intros A. split; cbn; auto. intros E. congruence. Qed.

Lemma rest_re_wrapped msg o md tr m md' : exec (unpack_rest C msg o md) tr (Ok (m, md')) -> um_re_wrapped md' = um_re_wrapped md.
Proof.
  intros H. unfold unpack_rest in H. apply exec_pbind_Ok in H as (ta & tb & a & -> & Ha & H).
  assert (X : exists t d, match a with Some (m, d) => (m, d) | None => (msg, md) end = (t, d) /\ um_re_wrapped d = um_re_wrapped md).
  { destruct a as [[pt d]|]; [|eauto]. apply try_authcrypt_Some in Ha as (j & from & _ & -> & _). eexists _, _. split; reflexivity. }
  destruct X as (t & d & E & <-). rewrite E in H. clear E Ha a. apply exec_pbind_Ok in H as (tc & td & a & -> & Ha & H).
  assert (X : exists t' d', match a with Some (m, d) => (m, d) | None => (t, d) end = (t', d') /\ um_re_wrapped d' = um_re_wrapped d).
  { destruct a as [[pt d']|]; [|eauto]. apply try_sign_Some in Ha as (kid & sa & _ & ->). eexists _, _. split; reflexivity. }
  destruct X as (t' & d' & E & <-). rewrite E in H. clear E Ha a. apply exec_pbind_Ok in H as (te & tf & p & -> & Hp & [-> H]).
  destruct p as [[m' md2]|]; [|discriminate]. apply (f_equal (fun r => match r with Ok x => Some x | _ => None end)) in H. cbn in H.
  injection H as -> ->. apply try_plaintext_Some in Hp as (_ & _ & [(_ & -> & _)|(jwt & p & kid & _ & _ & ->)]); reflexivity.
Qed.
End Stages.

Lemma same_inside_refl md : same_inside md md.
Proof. split; auto. Qed.
Lemma same_inside_trans a b c : same_inside a b -> same_inside b c -> same_inside a c.
Proof.
  intros [? ? ? ? ? ? ? ? ? AN] [? ? ? ? ? ? ? ? ? AN']. split; try congruence. intros A. destruct (AN' A) as (E1 & E2 & E3 & E4).
  destruct AN as (F1 & F2 & F3 & F4); [congruence|]. repeat split; congruence.
Qed.
Lemma delivered_incl C o tr tr' text t : incl tr tr' -> delivered C o tr text t -> delivered C o tr' text t.
Proof.
  intros I. induction 1 as [|text j alg pt next v kid found t A U F M D IH]; [constructor|].
  eapply delivered_in; eauto; [eapply anon_opened_incl; eauto|eapply asked_next_incl; eauto].
Qed.

(** ** Unpacking what a forward carried *)
Lemma direct C o fuel : forall text tr m md, exec (unpack C fuel text o) tr (Some (Ok (m, md))) ->
  exists t tr1 tr2 fuel' md0, tr = tr1 ++ tr2
    /\ delivered C o tr1 text t
    /\ (if um_re_wrapped md
        then exists j alg pt next v, anon_opened C tr1 (uo_all_keys o) text j alg pt /\ forward_to C pt next v /\ delivered C o tr1 (print v) t
        else t = text)
    /\ exec (unpack C fuel' t o) tr2 (Some (Ok (m, md0))) /\ um_re_wrapped md0 = false /\ same_inside md md0.
Proof.
  induction fuel as [|f IH]; intros text tr m md H; [destruct H; discriminate|].
  destruct (um_re_wrapped md) eqn:RW.
  2:{ exists text, [], tr, (S f), md. split; auto. split; [constructor|]. split; auto. split; auto. split; auto. apply same_inside_refl. }
  unfold unpack in H. cbn [unpack_loop] in H. apply exec_bind in H as (tr1 & tr2 & r & -> & H1 & H2).
  assert (R : forall t md1, um_re_wrapped md1 = false -> exec (bind (unpack_rest C t o md1) (fun x => Ret (Some x))) tr2 (Some (Ok (m, md))) -> False).
  { intros t md1 E X. apply exec_bind in X as (t1 & t2 & y & -> & X & [-> Y]). injection Y as <-. apply rest_re_wrapped in X. congruence. }
  destruct r as [[[pt md1]|]|k|]; try (destruct H2; discriminate); [|exfalso; eapply R; [|exact H2]; reflexivity].
  apply try_anoncrypt_Some in H1 as (j & alg & A & -> & _). destruct (uo_unwrap o) eqn:U; [|exfalso; eapply R; [|exact H2]; reflexivity].
  apply exec_bind in H2 as (tr3 & tr4 & u & -> & H2 & H3). destruct u as [[fwd|]|k|]; try (destruct H3; discriminate).
  2:{ exfalso. apply exec_bind in H3 as (t1 & t2 & y & -> & X & [-> Y]). injection Y as <-. apply rest_re_wrapped in X. rewrite RW in X. discriminate X. }
  apply try_unwrap_Ok in H2 as (next & v & kid & found & F & M & ->).
  destruct (loop_alike C f _ _ _ _ (si_start (recipient_kids j) alg um_init eq_refl) _ _ H3) as (y & Hy & Ry).
  destruct y as [[[m' md']|?|]|]; cbn in Ry; try easy. destruct Ry as [E Sd]. cbn in E, Sd. subst m'.
  destruct (IH _ _ _ _ Hy) as (t & t1 & t2 & f' & md0 & -> & D & _ & X & RW0 & S0).
  exists t, (tr1 ++ tr3 ++ t1), t2, f', md0. split; [now rewrite !app_assoc|]. 
  assert (A' : anon_opened C (tr1 ++ tr3 ++ t1) (uo_all_keys o) text j alg pt) by (eapply anon_opened_incl; [|exact A]; now apply incl_appl).
  assert (D' : delivered C o (tr1 ++ tr3 ++ t1) (print v) t) by (eapply delivered_incl; [|exact D]; apply incl_appr; now apply incl_appr).
  assert (M' : asked_next (tr1 ++ tr3 ++ t1) next (kid :: found)) by (eapply asked_next_incl; [|exact M]; apply incl_appr; now apply incl_appl).
  split; [exact (delivered_in _ _ _ _ _ _ _ _ _ _ _ _ A' U F M' D')|].
  split; [exists j, alg, pt, next, v; auto|]. split; [exact X|]. split; [exact RW0|]. eapply same_inside_trans; eauto.
Qed.

Lemma inner_envelope C fuel t o tr m md md0 : exec (unpack C fuel t o) tr (Some (Ok (m, md0))) -> um_re_wrapped md0 = false -> same_inside md md0 ->
  forall j h, envelope C t j h -> ph_alg h = EcdhEsA256kw ->
    um_encrypted md = true /\ um_anonymous_sender md = true /\ um_encrypted_to_kids md = Some (recipient_kids j)
    /\ exists ce alg, enc_of (ph_enc h) ce alg /\ um_enc_alg_anon md = Some alg.
Proof.
  intros X R S j h E Q. destruct (own_envelope _ _ _ _ _ _ _ X R) as (O1 & O2 & _ & O4).
  assert (A : um_anonymous_sender md0 = true) by (apply O1; eauto). destruct (si_anon _ _ S A) as (-> & -> & -> & ->).
  destruct (O2 _ _ E (or_introl Q)) as [-> ->]. split; auto. split; auto. split; auto. exact (O4 _ _ E Q).
Qed.

(** ** Unwrapping by hand *)
Lemma exec_run {A} (p : prog A) : forall h tr x, exec p tr x -> (forall o r, In (Ev o r) tr -> r = h o) -> x = run h p.
Proof.
  induction p as [a|o k IH]; intros h tr x H T; cbn in H |- *; [apply H|]. destruct H as (r & tr' & -> & H).
  rewrite <- (T o r (or_introl eq_refl)). apply (IH r h tr' x); auto. intros o' r' I. apply T. now right.
Qed.
Lemma trace_says {A} (h : handler) (p : prog A) : forall o r, In (Ev o r) (Lib.trace h p) -> r = h o.
Proof. induction p as [a|o k IH]; cbn; [tauto|]. intros o' r' [E|I]; [|eapply IH; eauto]. 
  now inversion E. Qed.
Lemma alike_run {A B} (R : A -> B -> Prop) p q h : alike R p q -> R (run h p) (run h q).
Proof.
  intros H. destruct (H _ _ (Lib.run_exec h p)) as (y & Hy & Ry). rewrite <- (exec_run q h _ y Hy); auto. apply trace_says.
Qed.
Lemma has_secret_says h next found : says_held h next found -> run h (has_secret next) = Ok (match found with [] => false | _ => true end).
Proof.
  intros (ids & F & [((did & U) & ->)|(N & doc & R & ->)]); unfold has_secret.
  - apply url_of_some in U. rewrite U. cbn. now rewrite F.
  - apply did_or_url_none in N. rewrite N. cbn. rewrite R. cbn. now rewrite F.
Qed.
Lemma rest_plain C msg o md tr m md' : exec (unpack_rest C msg o md) tr (Ok (m, md')) ->
  um_anonymous_sender md' = um_anonymous_sender md /\ (um_authenticated md' = false -> message_from_str (fparse C) msg = Ok m).
Proof.
  intros H. unfold unpack_rest in H. apply exec_pbind_Ok in H as (ta & tb & a & -> & Ha & H).
  assert (X : exists t d, match a with Some (m, d) => (m, d) | None => (msg, md) end = (t, d) /\ um_anonymous_sender d = um_anonymous_sender md
    /\ (um_authenticated d = true \/ t = msg)).
  { destruct a as [[pt d]|]; [|eauto 6]. apply try_authcrypt_Some in Ha as (j & from & _ & -> & _). eexists _, _. split; [reflexivity|]. auto. }
  destruct X as (t & d & E & <- & T). rewrite E in H. clear E Ha a. apply exec_pbind_Ok in H as (tc & td & a & -> & Ha & H).
  assert (X : exists t' d', match a with Some (m, d) => (m, d) | None => (t, d) end = (t', d') /\ um_anonymous_sender d' = um_anonymous_sender d
    /\ (um_authenticated d' = true \/ t' = msg)).
  { destruct a as [[pt d']|]; [|eauto 6]. apply try_sign_Some in Ha as (kid & sa & _ & ->). eexists _, _. split; [reflexivity|]. auto. }
  destruct X as (t' & d' & E & <- & T'). rewrite E in H. clear E Ha a. apply exec_pbind_Ok in H as (te & tf & p & -> & Hp & [-> H]).
  destruct p as [[m' md2]|]; [|discriminate]. apply (f_equal (fun r => match r with Ok x => Some x | _ => None end)) in H. cbn in H.
  injection H as -> ->. apply try_plaintext_Some in Hp as (HM & _ & HP).
  destruct HP as [(_ & -> & _)|(jwt & p & kid & _ & _ & ->)]; cbn; (split; [reflexivity|]); intros A; (destruct T' as [T'|T']; [congruence|]); now subst t'.
Qed.

Lemma by_hand C h fuel fuel' text all m md next v found :
  run h (unpack C fuel text (mkUO all false)) = Some (Ok (m, md)) ->
  um_anonymous_sender md = true -> um_authenticated md = false ->
  try_parse_forward m = Some (mkPF next v) -> says_held h next found ->
  match found with
  | [] => run h (unpack C (S fuel') text (mkUO all true)) = Some (Ok (m, md))
  | _ => same_end (run h (unpack C (S fuel') text (mkUO all true))) (run h (unpack C fuel' (print v) (mkUO all true)))
  end.
Proof.
  intros H AN AU PF SH. destruct fuel as [|fuel]; [discriminate|]. unfold unpack in *. cbn [unpack_loop uo_unwrap] in *.
  rewrite run_bind in *. change (try_anoncrypt C text (mkUO all true) um_init) with (try_anoncrypt C text (mkUO all false) um_init).
  pose proof (Lib.run_exec h (try_anoncrypt C text (mkUO all false) um_init)) as XA.
  destruct (run h (try_anoncrypt C text (mkUO all false) um_init)) as [[[pt md1]|]|k|]; try discriminate H.
  - apply try_anoncrypt_Some in XA as (j & alg & _ & -> & _). rewrite run_bind in H |- *. cbn [run] in H.
    set (q := unpack_rest C pt (mkUO all false) (md_anon (recipient_kids j) alg um_init)) in *. pose proof (Lib.run_exec h q) as XR.
    destruct (run h q) as [[m' md']|k|] eqn:RQ; try discriminate H. apply (f_equal (fun r => match r with Some (Ok x) => Some x | _ => None end)) in H. cbn in H.
    injection H as -> ->. destruct (rest_plain _ _ _ _ _ _ _ XR) as [_ MP]. specialize (MP AU).
    assert (U : run h (try_unwrap C pt) = Ok (match found with [] => None | _ => Some (print v) end)).
    { unfold try_unwrap. rewrite MP. cbn [soft pbind bind]. rewrite PF. rewrite run_pbind. cbn [pf_next pf_forwarded]. rewrite (has_secret_says _ _ _ SH). destruct found; reflexivity. }
    rewrite U. destruct found as [|f0 found].
    + rewrite run_bind. change (unpack_rest C pt (mkUO all true) (md_anon (recipient_kids j) alg um_init)) with q. rewrite RQ. reflexivity.
    + pose proof (alike_run _ _ _ h (loop_alike C fuel' (print v) (mkUO all true) _ _ (si_start (recipient_kids j) alg um_init eq_refl))) as L.
      cbv beta in L |- *. unfold same_end. destruct (run h (unpack_loop C fuel' (print v) _ _)) as [[[? ?]|?|]|], (run h (unpack_loop C fuel' (print v) _ um_init)) as [[[? ?]|?|]|]; cbn in L |- *; auto.
  - exfalso. rewrite run_bind in H. cbn [run] in H. pose proof (Lib.run_exec h (unpack_rest C text (mkUO all false) um_init)) as XR.
    destruct (run h (unpack_rest C text (mkUO all false) um_init)) as [[m' md']|k|]; try discriminate H.
    apply (f_equal (fun r => match r with Some (Ok x) => Some x | _ => None end)) in H. cbn in H. injection H as -> ->.
    destruct (rest_plain _ _ _ _ _ _ _ XR) as [E _]. rewrite AN in E. discriminate E.
Qed.
