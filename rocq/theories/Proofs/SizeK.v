(** How long packed texts are: equally long messages, and forward messages. *)
From Verif.Model Require Import Prelude Utf8 Base64 Json Serde DidDoc Crypto Keys Effects Jws Jwe Message FromPrior Pack Routing Unpack.
From Verif.Spec Require Import Small Codec Events World Text Packing Mediator Size.
From Verif.Proofs Require Import Lib Base64P JsonP SerdeP CodecP SmallP TreeP Wp Errs NoPanic UnpackInv SealP TextP RoundP PackP RouteP HideP ForwardP SigningP MediatorP SizeP.

(** ** An envelope as a value *)
Lemma size_obj l : l <> [] -> size (print (VObj l)) = 1 + list_sum (map (fun kv => quoted (fst kv) + size (print (snd kv)) + 2) l).
Proof.
  intros N. rewrite print_obj. unfold obj_text. rewrite !size_app. assert (N' : map mtext l <> []) by (destruct l; [congruence|discriminate]).
  pose proof (size_commas _ N') as S. rewrite map_map in S. change (size (B "{")) with 1. change (size (B "}")) with 1.
  replace (map (fun kv => quoted (fst kv) + size (print (snd kv)) + 2) l) with (map (fun x => size (mtext x) + 1) l); [lia|].
  apply map_ext. intros [k v]. unfold mtext. cbn [fst snd]. rewrite !size_app. unfold quoted. cbn [print]. change (size (B ":")) with 1. lia.
Qed.
Lemma size_list {A} (f g : A -> bytes) l : (forall x, size (f x) = size (g x)) -> size (list_text f l) = size (list_text g l).
Proof.
  intros H. unfold list_text. rewrite !size_app. destruct l as [|a l]; [reflexivity|].
  pose proof (size_commas (map f (a :: l)) ltac:(discriminate)) as S1. pose proof (size_commas (map g (a :: l)) ltac:(discriminate)) as S2.
  rewrite map_map in S1, S2. rewrite (map_ext _ (fun x => size (g x) + 1)) in S1 by (intros; now rewrite H). lia.
Qed.
Lemma size_rc r : size (print (rc_value r)) = size (print (recipient_tree r)).
Proof. unfold rc_value, recipient_tree. rewrite !size_obj by discriminate. cbn [map fst snd list_sum fold_right]. lia. Qed.
Lemma size_jwe j : size (print (jwe_value j)) = size (print (jwe_tree j)).
Proof.
  unfold jwe_value, jwe_tree. rewrite !size_obj by discriminate. cbn [map fst snd]. unfold list_sum. cbn [fold_right].
  rewrite !print_arr. rewrite (size_list (fun x => print (rc_value x)) (fun x => print (recipient_tree x))) by apply size_rc. lia.
Qed.
(** [t] is an envelope for the keys [kids]. *)
Definition enveloped (kids : list bytes) (t : bytes) : Prop :=
  exists j, t = print (jwe_tree j) /\ map rc_kid (jwe_recipients j) = kids
    /\ utf8 (jwe_protected j) = true /\ utf8 (jwe_iv j) = true /\ utf8 (jwe_ciphertext j) = true /\ utf8 (jwe_tag j) = true
    /\ Forall (fun r => utf8 (rc_key r) = true) (jwe_recipients j).
Lemma enveloped_size fp kids t v : enveloped kids t -> Forall (fun k => utf8 k = true) kids -> from_json (to_value fp max_depth) t = Ok v -> size (print v) = size t.
Proof.
  intros (j & -> & <- & P1 & P2 & P3 & P4 & P5) U E. rewrite jwe_to_value in E.
  - apply Ok_inj in E. subst v. apply size_jwe.
  - apply printable_obj. apply Forall_map in U. repeat apply Forall_cons; try apply Forall_nil; (split; [reflexivity|]); cbn [snd]; try assumption.
    apply printable_arr. apply Forall_map. rewrite Forall_forall in *. intros r I. apply printable_obj. repeat apply Forall_cons; try apply Forall_nil; (split; [reflexivity|]); cbn [snd].
    + apply printable_obj. repeat apply Forall_cons; try apply Forall_nil. split; [reflexivity|]. exact (U r I).
    + exact (P5 r I).
Qed.
Lemma seals_enveloped C ce d ka alg enc sender rs e1 e2 e3 pt ct tag text : seals C ce d ka alg enc sender rs e1 e2 e3 pt ct tag text ->
  enveloped (map fst rs) text.
Proof.
  intros S. apply seals_tree in S as (cek & epk & jwk & apv & h & p & rcs & _ & _ & _ & _ & _ & -> & _ & F & ->).
  eexists. split; [reflexivity|]. cbn [jwe_recipients jwe_protected jwe_iv jwe_ciphertext jwe_tag]. repeat split; auto using b64_utf8.
  - induction F as [|r rc rs rcs [E _] F IH]; [reflexivity|]. cbn. now rewrite IH, E.
  - induction F as [|r rc rs rcs [_ (w & E)] F IH]; constructor; auto. rewrite E. apply b64_utf8.
Qed.
Lemma forward_sized id next headers v : size (forward_text id next headers v) = forward_size id next headers (size (print v)).
Proof.
  unfold forward_text, forward_size, obj_text. rewrite !size_app.
  set (l := _ ++ _). assert (N : l <> []) by discriminate. pose proof (size_commas l N) as S. unfold l in S. rewrite map_app, list_sum_app, map_app, list_sum_app, map_map in S.
  replace (map (fun x : bytes * value => size (str_text (fst x) ++ B ":" ++ print (snd x)) + 1) headers)
    with (map (fun kv => 2 + quoted (fst kv) + size (print (snd kv))) headers) in S
    by (apply map_ext; intros [k x]; cbn [fst snd]; rewrite !size_app; unfold quoted, str_text; change (size (B ":")) with 1; lia).
  fold l in S. unfold list_sum at 1 3 in S. cbn [map fold_right] in S. unfold entry in S. unfold obj_text in S. cbn [commas] in S. rewrite !size_app in S. fold (str_text id) in *.
  change (size (str_text id)) with (quoted id) in *. change (size (str_text next)) with (quoted next) in *.
  repeat match type of S with context [size (B ?s)] => let n := eval vm_compute in (size (B s)) in change (size (B s)) with n in S end.
  change (size (B "{")) with 1. change (size (B "}")) with 1. unfold list_sum in *. lia.
Qed.

(** ** Two runs *)
Definition both {X X'} (P : event -> Prop) (R : X -> X' -> Prop) (p : prog (res X)) (p' : prog (res X')) : Prop :=
  forall t t' s s' x x', Forall P t -> exec p t (Ok x) -> exec p' t' (Ok x') -> t ++ s = t' ++ s' -> t = t' /\ R x x'.
Lemma both_bind {X X' Y Y'} P (R : X -> X' -> Prop) (Q : Y -> Y' -> Prop) p p' f f' :
  both P R p p' -> (forall a a', R a a' -> both P Q (f a) (f' a')) -> both P Q (pbind p f) (pbind p' f').
Proof.
  intros Hp Hf t t' s s' x x' F H H' E. apply exec_pbind_Ok in H as (t1 & t2 & a & -> & A & H). apply exec_pbind_Ok in H' as (t1' & t2' & a' & -> & A' & H').
  rewrite <- !app_assoc in E. apply Forall_app in F as [F1 F2]. destruct (Hp _ _ _ _ _ _ F1 A A' E) as [-> R1]. apply app_inv_head in E.
  destruct (Hf _ _ R1 _ _ _ _ _ _ F2 H H' E) as [-> Q1]. auto.
Qed.
Lemma both_mono {X X'} P (R Q : X -> X' -> Prop) p p' : (forall x x', R x x' -> Q x x') -> both P R p p' -> both P Q p p'.
Proof. intros I H t t' s s' x x' F A B E. destruct (H _ _ _ _ _ _ F A B E). auto. Qed.
Lemma Ev_same o r r' : Ev o r = Ev o r' -> r = r'.
Proof.
  destruct o; intros E.
  - apply (f_equal (fun e => match e return option (res (option diddoc)) with Ev (OResolve _) x => Some x | _ => None end)) in E. now injection E.
  - apply (f_equal (fun e => match e return option (res (list bytes)) with Ev (OFindSecrets _) x => Some x | _ => None end)) in E. now injection E.
  - apply (f_equal (fun e => match e return option (res (option secret)) with Ev (OGetSecret _) x => Some x | _ => None end)) in E. now injection E.
  - apply (f_equal (fun e => match e return option (bytes) with Ev (ORandom _) x => Some x | _ => None end)) in E. now injection E.
Qed.
Lemma both_refl {X} P (p : prog (res X)) : both P eq p p.
Proof.
  intros t t' s s' x x' F. clear F. revert t t'. induction p as [r|o k IH]; cbn [exec]; intros t t'.
  - intros [-> E1] [-> E] _. split; [reflexivity|congruence].
  - intros (r & t1 & -> & H) (r' & t1' & -> & H') E. cbn [app] in E. pose proof (f_equal (@tl event) E) as E2. apply (f_equal (hd (Ev o r))) in E. cbn [hd tl] in E, E2.
    apply Ev_same in E. subst r'. destruct (IH r _ _ H H' E2) as [-> ->]. auto.
Qed.
Lemma both_ret {X X'} P (R : X -> X' -> Prop) r r' : (forall x x', r = Ok x -> r' = Ok x' -> R x x') -> both P R (Ret r) (Ret r').
Proof. intros H t t' s s' x x' _ [-> E] [-> E'] _. split; auto. Qed.
Lemma both_err {X X'} P (R : X -> X' -> Prop) k p' : both P R (Ret (Err k)) p'.
Proof. intros t t' s s' x x' _ [_ E]. discriminate. Qed.
Lemma both_same {X} P (R : X -> X -> Prop) p : (forall x, R x x) -> both P R p p.
Proof. intros H. eapply both_mono; [|apply both_refl]. intros x x' ->. apply H. Qed.

Section Two.
Context (C : crypto) (epk : kalg -> nat) (SZ : sized C epk).
Notation two := (both text_docs).
Lemma two_resolve did : two (fun x x' => x = x' /\ forall doc, x = Some doc -> Forall (fun k => utf8 k = true) (doc_key_agreement doc)) (resolve did) (resolve did).
Proof.
  intros t t' s s' x x' F H H' E. destruct (both_refl text_docs _ _ _ _ _ _ _ F H H' E) as [-> ->]. split; [reflexivity|]. split; [reflexivity|].
  intros doc ->. cbn in H. destruct H as (r & t1 & -> & -> & <-). inversion F; subst. assumption.
Qed.
Definition alike_env (kids : list bytes) (t t' : bytes) : Prop := size t = size t' /\ enveloped kids t /\ enveloped kids t'.
Lemma two_jwe ce d ka pt pt' alg enc sender rs : size pt = size pt' -> (exists x, enc_of enc ce x) ->
  alg = match sender with None => EcdhEsA256kw | Some _ => Ecdh1puA256kw end ->
  two (alike_env (map fst rs)) (jwe_encrypt C ce d ka pt alg enc sender rs) (jwe_encrypt C ce d ka pt' alg enc sender rs).
Proof.
  intros L X A t t' s s' x x' _ H H' E. apply jwe_encrypt_seals in H as (e1 & e2 & e3 & ct & tag & -> & S). apply jwe_encrypt_seals in H' as (f1 & f2 & f3 & ct' & tag' & -> & S').
  unfold three in *. cbn [app] in E.
  assert (e1 = f1 /\ e2 = f2 /\ e3 = f3) as (-> & -> & ->).
  { pose proof (f_equal (hd (Ev (ORandom RUuid) [])) E) as E1. apply (f_equal (@tl event)) in E. pose proof (f_equal (hd (Ev (ORandom RUuid) [])) E) as E2. apply (f_equal (@tl event)) in E.
    apply (f_equal (hd (Ev (ORandom RUuid) []))) in E. cbn [hd tl] in E1, E2, E. apply Ev_same in E1, E2, E. auto. }
  split; [reflexivity|]. split; [|eauto using seals_enveloped].
  rewrite (seals_size_any C epk SZ _ _ _ _ _ _ _ _ _ _ _ _ _ _ S X A), (seals_size_any C epk SZ _ _ _ _ _ _ _ _ _ _ _ _ _ _ S' X A). now rewrite L.
Qed.
Lemma two_anon_encrypt ka alg pt pt' rs : size pt = size pt' -> two (alike_env (map fst rs)) (anon_encrypt C ka alg pt rs) (anon_encrypt C ka alg pt' rs).
Proof.
  intros L. destruct alg; apply two_jwe; auto; [exists AnonA256cbcHs512|exists AnonXc20p|exists AnonA256gcm]; unfold enc_of; auto.
Qed.
Lemma recipients_ids ka vms rs : rmap (vm_recipient C ka) vms = Ok rs -> map fst rs = map vm_id vms.
Proof.
  revert rs. induction vms as [|v vms IH]; cbn [rmap]; intros rs H; [apply Ok_inj in H; now subst|].
  apply rbind_Ok in H as (r & R & H). apply rbind_Ok in H as (rs' & RS & H). apply Ok_inj in H. subst rs. unfold vm_recipient in R. apply rbind_Ok in R as (k & _ & R). apply Ok_inj in R. subst r.
  cbn. now rewrite (IH _ RS).
Qed.
Lemma found_ids e doc kids keys : rmap (find_vm e doc) kids = Ok keys -> map vm_id keys = kids.
Proof.
  intros H. apply entries in H. induction H as [|k v kids keys V F IH]; [reflexivity|]. cbn. rewrite IH. f_equal. apply V.
Qed.
Definition utf8s (l : list bytes) : Prop := Forall (fun k => utf8 k = true) l.
Lemma found_utf8 e doc kid keys f : utf8s (doc_key_agreement doc) -> rmap (find_vm e doc) (select_kids kid (doc_key_agreement doc)) = Ok keys -> utf8s (map vm_id (filter f keys)).
Proof.
  intros U H. apply found_ids in H. unfold utf8s in *. rewrite Forall_forall in *. intros x I. apply U.
  apply in_map_iff in I as (v & <- & I). apply filter_In in I as [I _]. apply (in_map vm_id) in I. rewrite H in I. unfold select_kids in I. now apply filter_In in I as [I _].
Qed.
Definition env_result (r r' : bytes * list bytes) : Prop := snd r = snd r' /\ utf8s (snd r) /\ alike_env (snd r) (fst r) (fst r').
Lemma two_anoncrypt to pt pt' alg : size pt = size pt' -> two env_result (anoncrypt C to pt alg) (anoncrypt C to pt' alg).
Proof.
  intros L. unfold anoncrypt. destruct (did_or_url to) as [did u]. eapply both_bind; [apply two_resolve|]. intros x x' [<- U].
  eapply both_bind; [apply (both_ret _ (fun d d' => d = d' /\ x = Some d))|].
  { intros d d' E E'. apply ok_or_Ok in E, E'. split; congruence. }
  intros doc doc' [<- ->]. specialize (U doc eq_refl). cbv zeta. destruct (select_kids u (doc_key_agreement doc)) as [|k0 ks] eqn:SK; [apply both_err|]. rewrite <- SK.
  eapply both_bind; [apply (both_ret _ (fun d d' => d = d' /\ rmap (find_vm Unsupported doc) (select_kids u (doc_key_agreement doc)) = Ok d))|].
  { intros d d' E E'. split; congruence. }
  intros keys keys' [<- RM]. eapply both_bind; [apply both_refl|]. intros ka ka' <-.
  set (vms := filter _ keys). pose proof (found_utf8 _ _ _ _ (fun vm => kalg_eqb (vm_key_alg vm) ka) U RM) as UK. fold vms in UK.
  eapply both_bind with (R := alike_env (map vm_id vms)).
  - destruct ka; try apply both_err;
      (eapply both_bind; [apply (both_ret _ (fun d d' => d = d' /\ map fst d = map vm_id vms)); intros d d' E E'; rewrite E in E'; apply Ok_inj in E'; split; [exact E'|eapply recipients_ids; exact E]|];
       intros rs rs' [<- EI]; rewrite <- EI; now apply two_anon_encrypt).
  - intros t t' A. apply both_ret. intros r r' E E'. apply Ok_inj in E, E'. subst r r'. split; [reflexivity|]. split; [exact UK|exact A].
Qed.
Definition auth_result (r r' : bytes * bytes * list bytes) : Prop := snd (fst r) = snd (fst r') /\ env_result (fst (fst r), snd r) (fst (fst r'), snd r').
Lemma two_auth_encrypt ka au an pr pt pt' v sec vms : size pt = size pt' ->
  two (alike_env (map vm_id vms)) (auth_encrypt C ka au an pr pt v sec vms) (auth_encrypt C ka au an pr pt' v sec vms).
Proof.
  intros L. unfold auth_encrypt.
  eapply both_bind; [apply (both_ret _ (fun d d' => d = d' /\ map fst d = map vm_id vms)); intros d d' E E'; rewrite E in E'; apply Ok_inj in E'; split; [exact E'|eapply recipients_ids; exact E]|].
  intros rs rs' [<- EI]. rewrite <- EI. eapply both_bind; [apply both_refl|]. intros sk sk' <-.
  eapply both_bind with (R := alike_env (map fst rs)).
  - destruct au. apply two_jwe; auto. exists AnonA256cbcHs512. now left.
  - intros t t' A. destruct pr; [apply two_anon_encrypt; apply A|]. apply both_ret. intros r r' E E'. apply Ok_inj in E, E'. now subst.
Qed.
Lemma two_authcrypt to from pt pt' au an pr : size pt = size pt' -> two auth_result (authcrypt C to from pt au an pr) (authcrypt C to from pt' au an pr).
Proof.
  intros L. unfold authcrypt. destruct (did_or_url to) as [did u]. eapply both_bind; [apply two_resolve|]. intros x x' [<- U].
  eapply both_bind; [apply (both_ret _ (fun d d' => d = d' /\ x = Some d))|].
  { intros d d' E E'. apply ok_or_Ok in E, E'. split; congruence. }
  intros doc doc' [<- ->]. specialize (U doc eq_refl). destruct (did_or_url from) as [fdid fu]. do 2 (eapply both_bind; [apply both_refl|]; intros ? ? <-).
  destruct (select_kids fu _) as [|k0 ks]; [apply both_err|]. eapply both_bind; [apply both_refl|]. intros found ? <-. destruct found as [|f0 fs]; [apply both_err|].
  eapply both_bind; [apply both_refl|]. intros fkeys ? <-. destruct (select_kids u (doc_key_agreement doc)) as [|k1 ks1] eqn:SK; [apply both_err|]. rewrite <- SK.
  eapply both_bind; [apply (both_ret _ (fun d d' => d = d' /\ rmap (find_vm Malformed doc) (select_kids u (doc_key_agreement doc)) = Ok d))|].
  { intros d d' E E'. split; congruence. }
  intros keys keys' [<- RM]. eapply both_bind; [apply both_refl|]. intros fk ? <-. do 2 (eapply both_bind; [apply both_refl|]; intros ? ? <-). cbv zeta.
  set (vms := filter _ keys). pose proof (found_utf8 _ _ _ _ (fun vm => kalg_eqb (vm_key_alg vm) (vm_key_alg fk)) U RM) as UK. fold vms in UK.
  eapply both_bind with (R := alike_env (map vm_id vms)).
  - destruct (vm_key_alg fk); try apply both_err; now apply two_auth_encrypt.
  - intros t t' A. apply both_ret. intros r r' E E'. apply Ok_inj in E, E'. subst r r'. split; [reflexivity|]. split; [reflexivity|]. split; [exact UK|exact A].
Qed.
Lemma forward_alike kids t t' next h : utf8s kids -> alike_env kids t t' ->
  two (fun x x' => size x = size x') (build_forward C t next h) (build_forward C t' next h).
Proof.
  intros U (L & V & V'). unfold build_forward. apply (both_bind _ (fun v v' => size (print v) = size (print v'))).
  - apply both_ret. intros v v' E E'. 
    assert (K : forall r, kind Malformed r = Ok v -> r = Ok v) by (intros [| |] X; cbn in X; congruence).
    assert (K' : forall r, kind Malformed r = Ok v' -> r = Ok v') by (intros [| |] X; cbn in X; congruence).
    rewrite (enveloped_size _ _ _ _ V U (K _ E)), (enveloped_size _ _ _ _ V' U (K' _ E')). exact L.
  - intros v v' E. eapply both_bind; [apply both_refl|]. intros id ? <-. apply both_ret. intros x x' X X'. apply Ok_inj in X, X'. subst x x'.
    rewrite !forward_kept, !forward_sized. unfold forward_size. now rewrite E.
Qed.
Lemma two_wrap_loop h alg hops : forall kids t t', utf8s kids -> alike_env kids t t' -> two (fun x x' => size x = size x') (wrap_loop C t h hops alg) (wrap_loop C t' h hops alg).
Proof.
  induction hops as [|[r next] hops IH]; intros kids t t' U A; cbn [wrap_loop].
  - apply both_ret. intros x x' E E'. apply Ok_inj in E, E'. subst. apply A.
  - eapply both_bind; [eapply forward_alike; eauto|]. intros m m' L. eapply both_bind; [now apply two_anoncrypt|].
    intros [x k] [x' k'] (E & U' & A'). cbn [fst snd] in *. eapply IH; eauto.
Qed.
Lemma two_wrap kids t t' to o : utf8s kids -> alike_env kids t t' ->
  two (fun w w' => match w, w' with Some (x, sm), Some (x', sm') => size x = size x' /\ sm = sm' | None, None => True | _, _ => False end)
    (wrap_if_needed C t to o) (wrap_if_needed C t' to o).
Proof.
  intros U A. assert (N : both text_docs (fun w w' : option (bytes * service_metadata) => match w, w' with Some (x, sm), Some (x', sm') => size x = size x' /\ sm = sm' | None, None => True | _, _ => False end) (Ret (Ok None)) (Ret (Ok None))).
  { apply both_ret. intros x x' E E'. apply Ok_inj in E, E'. now subst. }
  unfold wrap_if_needed. destruct (negb _); [exact N|]. eapply both_bind; [apply both_refl|]. intros chain ? <-.
  destruct chain as [|s rest]; [exact N|]. cbv zeta. destruct (_ ++ _) as [|k ks] eqn:RK; [exact N|].
  eapply both_bind; [eapply two_wrap_loop; eauto|]. intros x x' E. apply both_ret. intros y y' Y Y'. apply Ok_inj in Y, Y'. subst. auto.
Qed.
Lemma two_plaintext m m' : msg_from_prior m = msg_from_prior m' -> size (plain_text m) = size (plain_text m') ->
  two (fun x x' => size x = size x') (pack_plaintext C m) (pack_plaintext C m').
Proof.
  intros P L. unfold pack_plaintext. rewrite P. eapply both_bind; [apply both_refl|]. intros fp ? <-.
  apply (both_bind _ (fun _ _ => True)); [apply both_ret; auto|]. intros _ _ _. apply both_ret. intros x x' E E'. apply Ok_inj in E, E'. subst. now rewrite !message_written.
Qed.
Lemma two_signed m m' s : msg_from_prior m = msg_from_prior m' -> size (plain_text m) = size (plain_text m') ->
  two (fun x x' => size (fst x) = size (fst x') /\ snd x = snd x') (pack_signed C m s) (pack_signed C m' s).
Proof.
  intros P L. unfold pack_signed. destruct (negb _); [apply both_err|]. destruct (did_or_url s) as [did u].
  do 7 (eapply both_bind; [apply both_refl|]; intros ? ? <-). eapply both_bind; [apply both_refl|]. intros [ka k] ? <-.
  eapply both_bind; [apply two_plaintext; eassumption|]. intros t t' LT.
  eapply both_bind; [apply (both_ret _ (fun g g' => g = g' /\ sign_alg_of ka = Ok g)); intros g g' E E'; split; congruence|]. intros alg ? [<- SA].
  apply (both_bind _ (fun x x' => size x = size x')).
  - apply both_ret. intros x x' E E'. rewrite (sign_size C epk SZ _ _ _ _ _ _ SA E), (sign_size C epk SZ _ _ _ _ _ _ SA E'). now rewrite LT.
  - intros x x' E. apply both_ret. intros y y' Y Y'. apply Ok_inj in Y, Y'. subst. auto.
Qed.
Lemma two_packed m m' to from sign_by o : msg_from_prior m = msg_from_prior m' -> size (plain_text m) = size (plain_text m') ->
  two (fun x x' => size (fst x) = size (fst x') /\ snd x = snd x') (pack_encrypted C m to from sign_by o) (pack_encrypted C m' to from sign_by o).
Proof.
  intros P L. unfold pack_encrypted. apply (both_bind _ (fun _ _ => True)); [apply both_ret; auto|]. intros _ _ _.
  apply (both_bind _ (fun x x' => size (fst x) = size (fst x') /\ snd x = snd x')).
  { destruct sign_by as [s|].
    - eapply both_bind; [apply two_signed; eassumption|]. intros [t k] [t' k'] [E E2]. cbn [fst snd] in *. apply both_ret. intros y y' Y Y'. apply Ok_inj in Y, Y'. subst. auto.
    - eapply both_bind; [apply two_plaintext; eassumption|]. intros t t' E. apply both_ret. intros y y' Y Y'. apply Ok_inj in Y, Y'. subst. auto. }
  intros [t sk] [t' sk'] [E E0]. cbn [fst snd] in E, E0. subst sk'.
  apply (both_bind _ (fun x x' => snd (fst x) = snd (fst x') /\ env_result (fst (fst x), snd x) (fst (fst x'), snd x'))).
  { destruct from as [f|].
    - eapply both_bind; [apply two_authcrypt; eassumption|]. intros [[x k] l] [[x' k'] l'] [E1 E2]. cbn [fst snd] in *. apply both_ret. intros y y' Y Y'. apply Ok_inj in Y, Y'. subst. auto.
    - eapply both_bind; [apply two_anoncrypt; eassumption|]. intros [x l] [x' l'] E1. apply both_ret. intros y y' Y Y'. apply Ok_inj in Y, Y'. subst. auto. }
  intros [[x k] l] [[x' k'] l'] [EK (EL & U & A)]. cbn [fst snd] in *. subst l' k'. eapply both_bind; [eapply two_wrap; eauto|].
  intros [[w sm]|] [[w' sm']|] W; try contradiction; apply both_ret; intros y y' Y Y'; apply Ok_inj in Y, Y'; subst; cbn [fst snd].
  - destruct W as [W <-]. auto.
  - split; [apply A|reflexivity].
Qed.
Lemma same_size m m' to from sign_by o tr x x' : msg_from_prior m = msg_from_prior m' -> size (plain_text m) = size (plain_text m') -> Forall text_docs tr ->
  exec (pack_encrypted C m to from sign_by o) tr (Ok x) -> exec (pack_encrypted C m' to from sign_by o) tr (Ok x') -> size (fst x) = size (fst x') /\ snd x = snd x'.
Proof. intros P L F H H'. exact (proj2 (two_packed m m' to from sign_by o P L tr tr [] [] x x' F H H' eq_refl)). Qed.
End Two.
