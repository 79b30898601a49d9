(** Packing with encryption panics because of a short signing secret only: proofs for Props/Panics.v. *)
From Verif.Model Require Import Prelude Utf8 Base64 Json Serde Base58 DidDoc Crypto Keys Effects Jws Jwe Message FromPrior Pack Routing Unpack.
From Verif.Spec Require Import Small Events Panics Cond.
From Verif.Proofs Require Import Lib Errs UnpackInv NoPanic CondP PanicP.

Section PanicE.
Context (C : crypto).
Hint Resolve vm_key_np vm_as_np jwe_parse_np verify_didcomm_np check_recipients_np jws_parse_np anon_open_np auth_open_np
  parse_compact_np jws_verify_np compact_verify_np jws_sign_np jws_sign_compact_np sign_alg_of_np verify_alg_of_np sign_alg_md_np
  validate_pack_np validate_pp_np validate_pe_np msg_validate_np wrap_one_np vm_recipient_np to_value_np : np.

Ltac ins := repeat lazymatch goal with |- forall _, _ => intro end.
Ltac npt := ins; first
  [ apply np_ok_or | easy | solve [auto with np]
  | apply np_soft; eapply np_errs; first [apply jwe_str_errs|apply jws_str_errs|apply msg_str_errs]
  | apply np_kind; first [apply to_value_np|eapply np_errs, from_prior_errs]
  | apply np_rmap; ins; first [apply np_ok_or|solve [auto with np]] ].
Ltac go := repeat (ins; cbv beta zeta; lazymatch goal with
  | |- safe _ (pbind (Ret _) _) _ => apply safe_ret_bind; [try npt|]
  | |- safe _ (pbind (resolve _) _) _ => apply safe_pbind; [let r := fresh in let H := fresh in intros r H; exact H|]
  | |- safe _ (pbind (find_secrets _) _) _ => apply safe_pbind; [let r := fresh in let H := fresh in intros r H; exact H|]
  | |- safe _ (pbind (random _) _) _ => apply safe_pbind; [let r := fresh in let H := fresh in intros r H; easy|]
  | |- safe _ (pbind (pkind _ (resolve _)) _) _ => apply safe_pbind; [let r := fresh in let H := fresh in intros r H; apply np_kind; exact H|]
  | |- safe _ (pbind (get_secret _) _) _ => fail
  | |- safe _ (pbind _ _) _ => apply safe_pbind; auto
  | |- safe _ (Ret _) _ => cbn [safe]; try npt
  | |- safe _ (if ?c then _ else _) _ => destruct c
  | |- safe _ (match ?x with _ => _ end) _ => destruct x
  | |- safe _ _ _ => progress auto
  end).

Lemma jwe_encrypt_quiet ce d ka pt a e s rs : safe quiet (jwe_encrypt C ce d ka pt a e s rs) np.
Proof. unfold jwe_encrypt. go. Qed.
Lemma anon_encrypt_quiet ka a m rs : safe quiet (anon_encrypt C ka a m rs) np.
Proof. destruct a; apply jwe_encrypt_quiet. Qed.
Lemma anoncrypt_quiet to m a : safe quiet (anoncrypt C to m a) np.
Proof. pose proof anon_encrypt_quiet. unfold anoncrypt. destruct (did_or_url to). go; unfold find_vm; npt. Qed.
Lemma prior_quiet jwt : safe quiet (from_prior_unpack C jwt) np.
Proof. unfold from_prior_unpack. go. Qed.
Lemma pack_plaintext_quiet m : safe quiet (pack_plaintext C m) np.
Proof. pose proof prior_quiet. unfold pack_plaintext. go. Qed.
Lemma build_forward_quiet f n h : safe quiet (build_forward C f n h) np.
Proof. unfold build_forward. go. Qed.
Lemma wrap_loop_quiet hops : forall m h a, safe quiet (wrap_loop C m h hops a) np.
Proof.
  induction hops as [|[to next] hops IH]; intros m h a; cbn [wrap_loop]; [easy|].
  pose proof build_forward_quiet. pose proof anoncrypt_quiet. go.
Qed.
Lemma wrap_in_forward_quiet m h to keys a : keys <> [] -> safe quiet (wrap_in_forward C m h to keys a) np.
Proof. intros N. unfold wrap_in_forward. destruct keys; [easy|]. apply wrap_loop_quiet. Qed.
Lemma find_service_quiet did sid : safe quiet (find_service did sid) np.
Proof. unfold find_service. go. Qed.
Lemma chain_loop_quiet fuel : forall l cur, safe quiet (chain_loop fuel l cur) np.
Proof.
  pose proof find_service_quiet. induction fuel as [|f IH]; intros l cur; cbn [chain_loop]; destruct (is_did _); try easy; destruct (Nat.ltb _ _); try easy. go.
Qed.
Lemma services_chain_quiet to sid : safe quiet (services_chain to sid) np.
Proof. pose proof find_service_quiet. pose proof (chain_loop_quiet 2). unfold services_chain. destruct (did_or_url to). go; auto. Qed.
Lemma wrap_if_needed_quiet m to o : safe quiet (wrap_if_needed C m to o) np.
Proof.
  unfold wrap_if_needed. destruct (negb _); [easy|]. apply safe_pbind; [apply services_chain_quiet|]. intros [|s l]; [easy|].
  cbv zeta. destruct (_ ++ _) eqn:E; [easy|]. apply safe_pbind; [now apply wrap_in_forward_quiet|easy].
Qed.

Lemma other_long s : sec_key_alg s <> KEd25519 -> long_enough s.
Proof. unfold sec_key_alg, long_enough. destruct (sec_type s), (sec_material s); try exact (fun _ => I); intros N; destruct N; reflexivity. Qed.
Lemma sec_as_quiet a s : a <> KEd25519 -> np (sec_as C a s).
Proof.
  intros N. unfold sec_as. destruct (kalg_eqb (sec_key_alg s) a) eqn:E.
  - apply as_alg_np, sec_key_np, other_long. apply kalg_eqb_eq in E. congruence.
  - unfold as_alg. rewrite E. easy.
Qed.
Lemma auth_encrypt_quiet ka au an p m fk fs ts : ka <> KEd25519 -> safe quiet (auth_encrypt C ka au an p m fk fs ts) np.
Proof. intros N. pose proof anon_encrypt_quiet. pose proof jwe_encrypt_quiet. pose proof (sec_as_quiet ka fs N). unfold auth_encrypt. go; auto. Qed.
Lemma authcrypt_quiet to f m au an p : safe quiet (authcrypt C to f m au an p) np.
Proof.
  unfold authcrypt. destruct (did_or_url to), (did_or_url f). go; try (unfold find_vm; npt; fail).
  ins. cbv beta zeta. unfold get_secret. cbn [pbind bind safe]. intros r N. destruct r as [[s|]|e|]; cbn; try easy.
  apply safe_pbind; [|easy]. destruct (vm_key_alg _); try easy; now apply auth_encrypt_quiet.
Qed.

(** ** The secrets asked for while signing *)
Definition nosec (e : event) : Prop := match e with Ev (OGetSecret _) _ => False | _ => True end.
Definition free {X} (m : prog (res X)) : Prop := forall tr x, exec m tr x -> Forall nosec tr.
Definition first_secret (tr : list event) (kid : bytes) (r : res (option secret)) : Prop :=
  exists a b, tr = a ++ Ev (OGetSecret kid) r :: b /\ Forall nosec a.
Definition once {X} (m : prog (res X)) : Prop := forall tr x, exec m tr x ->
  (Forall nosec tr /\ forall a, x <> Ok a) \/ exists kid r, first_secret tr kid r.
Lemma free_ret {X} (r : res X) : free (Ret r). Proof. intros tr x [-> _]. constructor. Qed.
Lemma free_pbind {X Y} (m : prog (res X)) (f : X -> prog (res Y)) : free m -> (forall a, free (f a)) -> free (pbind m f).
Proof.
  intros M F tr x H. apply exec_pbind in H as [(t1 & t2 & a & -> & H1 & H2)|[(e & H & ->)|[H ->]]]; eauto.
  apply Forall_app. split; [eauto|eapply F; eauto].
Qed.
Lemma free_resolve d : free (resolve d). Proof. intros tr x (r & t & -> & -> & ->). repeat constructor. Qed.
Lemma free_find d : free (find_secrets d). Proof. intros tr x (r & t & -> & -> & ->). repeat constructor. Qed.
Lemma once_pbind {X Y} (m : prog (res X)) (f : X -> prog (res Y)) : free m -> (forall a, once (f a)) -> once (pbind m f).
Proof.
  intros M F tr x H. apply exec_pbind in H as [(t1 & t2 & a & -> & H1 & H2)|[(e & H & ->)|[H ->]]].
  - apply M in H1. apply F in H2 as [[N NO]|(kid & r & u & v & -> & N)]; [left; split; auto; now apply Forall_app|right].
    exists kid, r, (t1 ++ u), v. rewrite <- app_assoc. split; auto. now apply Forall_app.
  - left. split; [eapply M; eauto|discriminate].
  - left. split; [eapply M; eauto|discriminate].
Qed.
Lemma once_err {X} k : once (Ret (@Err X k)). Proof. intros tr x [-> ->]. left. split; [constructor|discriminate]. Qed.
Lemma once_get {X} kid (f : option secret -> prog (res X)) : once (pbind (get_secret kid) f).
Proof. intros tr x H. unfold get_secret in H. apply exec_Do_bind in H as (r & t & -> & _). right. exists kid, r, [], t. split; [reflexivity|constructor]. Qed.
Lemma signed_once m s : once (pack_signed C m s).
Proof.
  unfold pack_signed. destruct (negb _); [apply once_err|]. destruct (did_or_url s) as [did key].
  repeat first [apply once_get|apply once_pbind; [first [apply free_ret|apply free_resolve|apply free_find]|intros ?]].
Qed.

(** Signing asks for one secret only. *)
Definition single {X} (m : prog (res X)) : Prop := forall tr x, exec m tr x ->
  Forall nosec tr \/ exists kid r a b, tr = a ++ Ev (OGetSecret kid) r :: b /\ Forall nosec a /\ Forall nosec b.
Lemma single_pbind {X Y} (m : prog (res X)) (f : X -> prog (res Y)) : free m -> (forall a, single (f a)) -> single (pbind m f).
Proof.
  intros M F tr x H. apply exec_pbind in H as [(t1 & t2 & a & -> & H1 & H2)|[(e & H & ->)|[H ->]]]; [|left; eapply M; eauto..].
  apply M in H1. apply F in H2 as [N|(kid & r & u & v & -> & N & N')]; [left; now apply Forall_app|right].
  exists kid, r, (t1 ++ u), v. rewrite <- app_assoc. repeat split; auto. now apply Forall_app.
Qed.
Lemma single_get {X} kid (f : option secret -> prog (res X)) : (forall r, free (f r)) -> single (pbind (get_secret kid) f).
Proof.
  intros F tr x H. unfold get_secret in H. apply exec_Do_bind in H as (r & t & -> & H). right. exists kid, r, [], t. repeat split; [constructor|].
  apply exec_Ret_Err in H. destruct r; [eapply F; eauto|destruct H as [-> _]; constructor..].
Qed.
Lemma single_err {X} k : single (Ret (@Err X k)). Proof. intros tr x [-> ->]. left. constructor. Qed.
Ltac fr := repeat (intros; cbv beta zeta; lazymatch goal with
  | |- free (pbind _ _) => apply free_pbind
  | |- free (Ret _) => apply free_ret
  | |- free (resolve _) => apply free_resolve
  | |- free (if ?c then _ else _) => destruct c
  | |- free (match ?x with _ => _ end) => destruct x
  end).
Lemma free_prior jwt : free (from_prior_unpack C jwt). Proof. unfold from_prior_unpack. fr. Qed.
Lemma free_plaintext m : free (pack_plaintext C m). Proof. unfold pack_plaintext. fr; auto using free_prior. Qed.
Lemma signed_once' m s : single (pack_signed C m s).
Proof.
  unfold pack_signed. destruct (negb _); [apply single_err|]. destruct (did_or_url s) as [did key].
  repeat first [apply single_get; intros|apply single_pbind; [first [apply free_ret|apply free_resolve|apply free_find]|intros ?]].
  apply free_pbind; [apply free_ret|intros]. apply free_pbind; [apply free_ret|intros [ka kk]]. apply free_pbind; [apply free_plaintext|]. fr.
Qed.

Lemma first_held tr kid s : first_secret tr kid (Ok (Some s)) -> held tr kid s.
Proof. intros (a & b & -> & _). apply in_app_iff. right. now left. Qed.
Lemma first_unique a : forall u e e' b v, Forall nosec a -> Forall nosec u -> ~ nosec e -> ~ nosec e' -> a ++ e :: b = u ++ e' :: v -> a = u /\ e = e' /\ b = v.
Proof.
  induction a as [|x a IH]; intros [|y u] e e' b v Na Nu Ne Ne' E; cbn in E; injection E as E1 E2.
  - auto.
  - exfalso. inversion Nu; subst. auto.
  - exfalso. inversion Na; subst. auto.
  - inversion Na; subst. inversion Nu; subst. destruct (IH u e e' b v) as (-> & -> & ->); auto.
Qed.
Lemma get_sec kid r : ~ nosec (Ev (OGetSecret kid) r). Proof. exact (fun f => f). Qed.

Lemma encrypted_panics m to from sign_by o tr x : exec (pack_encrypted C m to from sign_by o) tr x -> Forall quiet tr ->
  (x = Panic <-> sign_by <> None /\ exists kid s, first_secret tr kid (Ok (Some s)) /\ ~ long_enough s).
Proof.
  intros H Q. unfold pack_encrypted in H.
  assert (V := NoPanic.validate_pe_np m to from sign_by).
  destruct (validate_pack_encrypted m to from sign_by) as [[]|k|]; apply exec_Ret_Err in H; [| |now destruct V].
  2:{ destruct H as [-> ->]. split; [discriminate|]. intros (_ & kid & s & ([|] & b & E & _) & _); discriminate E. }
  destruct sign_by as [s|].
  2:{ split; [|intros [N _]; now destruct N]. intros ->. exfalso.
      pose proof pack_plaintext_quiet. pose proof authcrypt_quiet. pose proof anoncrypt_quiet. pose proof wrap_if_needed_quiet.
      refine (safe_exec quiet _ np _ _ _ H Q eq_refl). clear H. go. }
  apply exec_pbind in H as [(t1 & t2 & [msg sk] & -> & H1 & H2)|H].
  - apply exec_pbind in H1 as [(t3 & t4 & [msg' kid'] & -> & H3 & H4)|[(e & _ & D)|[_ D]]]; try discriminate D.
    destruct H4 as [-> _]. rewrite app_nil_r in *. apply Forall_app in Q as [Q3 Q2].
    assert (X : x <> Panic).
    { pose proof authcrypt_quiet. pose proof anoncrypt_quiet. pose proof wrap_if_needed_quiet.
      refine (safe_exec quiet _ np _ _ _ H2 Q2). go. }
    split; [intros; contradiction|]. intros (_ & kid & sec & (a & b & E & N) & L). exfalso.
    destruct (signed_once m s _ _ H3) as [[_ NO]|(kid1 & r1 & u & v & -> & N1)]; [exact (NO _ eq_refl)|].
    rewrite <- app_assoc in E. cbn [app] in E.
    destruct (first_unique _ _ _ _ _ _ N1 N (get_sec _ _) (get_sec _ _) E) as (-> & E2 & _).
    rewrite E2 in H3. assert (Sp : spoilt (a ++ Ev (OGetSecret kid) (Ok (Some sec)) :: v)) by (exists kid, sec; split; auto; unfold held; apply in_elt).
    discriminate (signed_touchy C m s _ _ H3 Sp).
  - assert (S1 : exists r, exec (pack_signed C m s) tr r /\ (x = Panic <-> r = Panic) /\ forall a, r <> Ok a).
    { destruct H as [(e & H & ->)|[H ->]]; apply exec_pbind in H as [(t3 & t4 & [msg' kid'] & -> & H3 & H4)|[(e' & H & D)|[H D]]]; try discriminate D.
      - destruct H4 as [_ D]. discriminate D.
      - exists (Err e'). split; [exact H|]. split; [split; discriminate|discriminate].
      - destruct H4 as [_ D]. discriminate D.
      - exists Panic. split; [exact H|]. split; [tauto|discriminate]. }
    destruct S1 as (r & H1 & E & NO). rewrite E.
    rewrite (panics_iff _ _ _ (signed_touchy C m s) (pack_signed_safe C m s) H1 Q). split.
    + intros (kid & sec & I & L). split; [discriminate|].
      destruct (signed_once' m s _ _ H1) as [N|(kid1 & r1 & u & v & -> & N1 & N2)].
      * rewrite Forall_forall in N. destruct (N _ I).
      * unfold held in I. apply in_app_iff in I as [I|[I|I]].
        -- rewrite Forall_forall in N1. destruct (N1 _ I).
        -- exists kid, sec. rewrite I. split; auto. exists u, v. auto.
        -- rewrite Forall_forall in N2. destruct (N2 _ I).
    + intros (_ & kid & sec & F & L). exists kid, sec. split; auto. now apply first_held.
Qed.
End PanicE.
