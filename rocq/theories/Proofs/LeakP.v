(** Private keys are only given to the primitives. *)
From Verif.Model Require Import Prelude Utf8 Base64 Json Serde DidDoc Crypto Keys Effects Jws Jwe Message FromPrior Pack Routing Unpack.
From Verif.Spec Require Import Leak.
From Verif.Proofs Require Import Lib.

Lemma calls_bind h {A B} (m : prog A) (f : A -> prog B) : calls h (bind m f) = calls h m ++ calls h (f (run h m)).
Proof. induction m as [a|o k IH]; cbn; auto. now rewrite IH. Qed.

Section Tied.
Context (C : crypto) (h1 h2 : handler) (AS : any_secrets h1 h2).

Definition tied {A} (p q : prog A) : Prop := run h1 p = run h2 q /\ calls h1 p = calls h2 q.

Lemma tied_ret {A} (a : A) : tied (Ret a) (Ret a). Proof. split; reflexivity. Qed.
Lemma tied_bind {A B} (p q : prog A) (f g : A -> prog B) : tied p q -> (forall a, tied (f a) (g a)) -> tied (bind p f) (bind q g).
Proof. intros [R K] F. destruct (F (run h1 p)) as [R' K']. split; [now rewrite !run_bind, <- R|now rewrite !calls_bind, <- R, <- K, K']. Qed.
Lemma tied_pbind {A B} (p q : prog (res A)) (f g : A -> prog (res B)) : tied p q -> (forall a, tied (f a) (g a)) -> tied (pbind p f) (pbind q g).
Proof. intros P F. apply tied_bind; auto. intros [a|k|]; [apply F|apply tied_ret|apply tied_ret]. Qed.
Lemma tied_then {A B} (r : res A) (f g : A -> prog (res B)) : (forall a, r = Ok a -> tied (f a) (g a)) -> tied (pbind (Ret r) f) (pbind (Ret r) g).
Proof. intros F. destruct r as [a|k|]; cbn; [now apply F|apply tied_ret|apply tied_ret]. Qed.
Lemma tied_resolve d : tied (resolve d) (resolve d).
Proof. split; cbn; [|reflexivity]. apply (as_resolve _ _ AS). Qed.
Lemma tied_random u : tied (random u) (random u).
Proof. split; cbn; [|reflexivity]. now rewrite (as_random _ _ AS). Qed.
(** One program in both surroundings. *)
Ltac gow t := repeat first
  [ solve [t] | apply tied_ret | apply tied_resolve | apply tied_random
  | apply tied_pbind; [|intros ?] | apply tied_bind; [|intros ?]
  | match goal with |- tied (match ?x with _ => _ end) _ => destruct x end
  | assumption ].
Ltac go := gow fail.

Lemma tied_jwe ce d ka pt alg enc sender rs : tied (jwe_encrypt C ce d ka pt alg enc sender rs) (jwe_encrypt C ce d ka pt alg enc sender rs).
Proof. unfold jwe_encrypt. cbv zeta. go. Qed.
Lemma tied_anon_encrypt ka alg msg rs : tied (anon_encrypt C ka alg msg rs) (anon_encrypt C ka alg msg rs).
Proof. unfold anon_encrypt. destruct alg; apply tied_jwe. Qed.
Lemma tied_anoncrypt to msg alg : tied (anoncrypt C to msg alg) (anoncrypt C to msg alg).
Proof. unfold anoncrypt. cbv zeta. gow ltac:(apply tied_anon_encrypt). Qed.
Lemma tied_prior_unpack jwt : tied (from_prior_unpack C jwt) (from_prior_unpack C jwt).
Proof. unfold from_prior_unpack. cbv zeta. go. Qed.
Lemma tied_plaintext m : tied (pack_plaintext C m) (pack_plaintext C m).
Proof. unfold pack_plaintext. gow ltac:(apply tied_prior_unpack). Qed.
Lemma tied_service did sid : tied (find_service did sid) (find_service did sid).
Proof. unfold find_service. go. Qed.
Lemma tied_chain fuel : forall l c, tied (chain_loop fuel l c) (chain_loop fuel l c).
Proof. induction fuel as [|f IH]; intros l c; cbn [chain_loop]; gow ltac:(apply tied_service || apply IH). Qed.
Lemma tied_services to sid : tied (services_chain to sid) (services_chain to sid).
Proof. unfold services_chain. gow ltac:(apply tied_service || apply tied_chain). Qed.
Lemma tied_wrap_loop hdrs alg hops : forall msg, tied (wrap_loop C msg hdrs hops alg) (wrap_loop C msg hdrs hops alg).
Proof. induction hops as [|[to next] hops IH]; intros msg; cbn [wrap_loop]; [go|]. unfold build_forward. gow ltac:(apply tied_anoncrypt || apply IH). Qed.
Lemma tied_wrap msg hdrs to keys alg : tied (wrap_in_forward C msg hdrs to keys alg) (wrap_in_forward C msg hdrs to keys alg).
Proof. unfold wrap_in_forward. destruct keys; [go|]. apply tied_wrap_loop. Qed.
Lemma tied_wrap_needed msg to o : tied (wrap_if_needed C msg to o) (wrap_if_needed C msg to o).
Proof. unfold wrap_if_needed. cbv zeta. gow ltac:(apply tied_services || apply tied_wrap). Qed.

Lemma tied_pack_anonymous m to o : tied (pack_encrypted C m to None None o) (pack_encrypted C m to None None o).
Proof. unfold pack_encrypted. gow ltac:(apply tied_plaintext || apply tied_anoncrypt || apply tied_wrap_needed). Qed.

Section Secrets.
Context (alike : kalg -> key C -> key C -> Prop) (OS : other_secrets C alike h1 h2).
Lemma tied_find l : tied (find_secrets l) (find_secrets l).
Proof. split; cbn; [|reflexivity]. apply (os_find _ _ _ _ OS). Qed.
Lemma tied_secret {B} id e (f g : secret -> prog (res B)) : (forall s1 s2, secret_alike C alike s1 s2 -> tied (f s1) (g s2)) ->
  tied (pbind (get_secret id) (fun sec => pbind (Ret (ok_or e sec)) f)) (pbind (get_secret id) (fun sec => pbind (Ret (ok_or e sec)) g)).
Proof.
  intros F. pose proof (os_get _ _ _ _ OS id) as G. unfold tied. rewrite !run_pbind. cbn [get_secret run calls pbind bind]. revert G.
  generalize (h1 (OGetSecret id)) (h2 (OGetSecret id)). cbn [resp]. intros r1 r2 G.
  destruct r1 as [[s1|]|k1|], r2 as [[s2|]|k2|]; cbn in G; try easy; cbn [ok_or run calls bind]; try (split; congruence).
  destruct (F s1 s2 G) as [R K]. split; [exact R|]. f_equal. exact K.
Qed.
Lemma tied_keys {B} s1 s2 (f g : kalg * key C -> prog (res B)) : secret_alike C alike s1 s2 ->
  (forall a k1 k2, alike a k1 k2 -> tied (f (a, k1)) (g (a, k2))) ->
  tied (pbind (Ret (sec_key_pair C s1)) f) (pbind (Ret (sec_key_pair C s2)) g).
Proof.
  intros [_ S] F. destruct (sec_key_pair C s1) as [[a1 k1]|e1|], (sec_key_pair C s2) as [[a2 k2]|e2|]; cbn in S; try easy; cbn; try (split; cbn; congruence).
  destruct S as [<- S]. now apply F.
Qed.
Lemma tied_as {B} ka s1 s2 (f g : key C -> prog (res B)) : secret_alike C alike s1 s2 ->
  (forall k1 k2, alike ka k1 k2 -> tied (f k1) (g k2)) ->
  tied (pbind (Ret (sec_as C ka s1)) f) (pbind (Ret (sec_as C ka s2)) g).
Proof.
  intros [A S] F. unfold sec_as, as_alg. rewrite A. destruct (kalg_eqb (sec_key_alg s2) ka); [|apply tied_ret].
  destruct (sec_key_pair C s1) as [[a1 k1]|e1|], (sec_key_pair C s2) as [[a2 k2]|e2|]; cbn in S; try easy; cbn; try (split; cbn; congruence).
  destruct S as [<- S]. destruct (kalg_eqb a1 ka) eqn:E; [|apply tied_ret]. cbn. apply F. now destruct a1, ka.
Qed.

Ltac gos := gow ltac:(apply tied_find).
(** *** Signing *)
Section Sign.
Context (SIGN : forall a k1 k2, alike a k1 k2 -> sign_alike C a k1 k2).
Lemma sign_same a k1 k2 payload kid alg : alike a k1 k2 -> jws_sign C payload kid a k1 alg = jws_sign C payload kid a k2 alg.
Proof. intros S. unfold jws_sign. cbv zeta. destruct (sig_type alg); cbn [rbind]; auto. now rewrite (SIGN _ _ _ S). Qed.
Lemma compact_same a k1 k2 payload kid typ alg : alike a k1 k2 -> jws_sign_compact C payload kid a k1 typ alg = jws_sign_compact C payload kid a k2 typ alg.
Proof. intros S. unfold jws_sign_compact. cbv zeta. destruct (sig_type alg); cbn [rbind]; auto. now rewrite (SIGN _ _ _ S). Qed.

Lemma tied_signed m by_ : tied (pack_signed C m by_) (pack_signed C m by_).
Proof.
  unfold pack_signed. destruct (negb (is_did by_)); [go|]. destruct (did_or_url by_) as [did kid].
  apply tied_pbind; [gos|intros ?]. apply tied_pbind; [gos|intros ?]. apply tied_pbind; [gos|intros ?]. apply tied_pbind; [gos|intros ?].
  apply tied_pbind; [gos|intros ?]. apply tied_secret. intros s1 s2 S. apply tied_keys; auto. intros a4 k1 k2 K.
  apply tied_pbind; [apply tied_plaintext|intros ?]. apply tied_pbind; [gos|intros ?]. rewrite (sign_same _ _ _ _ _ _ K). go.
Qed.
Lemma tied_prior_pack p ik : tied (from_prior_pack C p ik) (from_prior_pack C p ik).
Proof.
  unfold from_prior_pack. cbv zeta.
  apply tied_pbind; [gos|intros ?]. apply tied_pbind; [gos|intros ?]. apply tied_pbind; [gos|intros ?]. apply tied_pbind; [gos|intros ?].
  apply tied_pbind; [gos|intros ?]. apply tied_pbind; [gos|intros ?]. apply tied_secret. intros s1 s2 S. apply tied_keys; auto. intros a5 k1 k2 K.
  apply tied_pbind; [gos|intros ?]. rewrite (compact_same _ _ _ _ _ _ _ K). go.
Qed.
End Sign.

(** *** Sending *)
Section Send.
Context (SEND : forall a k1 k2, alike a k1 k2 -> send_alike C a k1 k2).
Lemma rmap_ext {X Y} (f g : X -> res Y) l : (forall x, f x = g x) -> rmap f l = rmap g l.
Proof. intros E. induction l as [|x l IH]; cbn; auto. now rewrite E, IH. Qed.
Lemma tied_jwe_sender ce ka pt alg enc fk k1 k2 rs : alike ka k1 k2 ->
  tied (jwe_encrypt C ce Kdf1pu ka pt alg enc (Some (fk, k1)) rs) (jwe_encrypt C ce Kdf1pu ka pt alg enc (Some (fk, k2)) rs).
Proof.
  intros K. unfold jwe_encrypt. cbv zeta. cbn [option_map fst snd].
  apply tied_pbind; [gos|intros ?]. apply tied_pbind; [gos|intros ?]. apply tied_pbind; [gos|intros ?]. apply tied_pbind; [gos|intros ?].
  apply tied_pbind; [gos|intros ?]. apply tied_pbind; [gos|intros ?]. apply tied_pbind; [go|intros [ct tag]].
  rewrite (rmap_ext _ (wrap_one C Kdf1pu ka a2 (Some k2) (jwe_alg_str alg) (opt_default (Some fk)) (apv_of C (map fst rs)) tag a0)); [go|].
  intros r. unfold wrap_one. cbn [derive_key]. now rewrite (SEND _ _ _ K).
Qed.
Lemma tied_authcrypt to from msg au an protect : tied (authcrypt C to from msg au an protect) (authcrypt C to from msg au an protect).
Proof.
  unfold authcrypt. cbv zeta. destruct (did_or_url to) as [td tk], (did_or_url from) as [fd fk].
  apply tied_pbind; [gos|intros ?]. apply tied_pbind; [gos|intros ?]. apply tied_pbind; [gos|intros ?]. apply tied_pbind; [gos|intros ?].
  destruct (select_kids fk (doc_key_agreement a2)) as [|k0 ks]; [go|]. apply tied_pbind; [gos|intros ?]. destruct a3 as [|f0 fs]; [go|].
  apply tied_pbind; [gos|intros ?]. destruct (select_kids tk (doc_key_agreement a0)) as [|k1 ks1]; [go|]. apply tied_pbind; [gos|intros ?]. apply tied_pbind; [go|intros fkey].
  apply tied_secret. intros s1 s2 S. apply tied_pbind; [|intros; go].
  assert (E : forall ka rs, tied (auth_encrypt C ka au an protect msg fkey s1 rs) (auth_encrypt C ka au an protect msg fkey s2 rs)).
  { intros ka rs. unfold auth_encrypt. apply tied_pbind; [gos|intros ?]. apply tied_as; auto. intros k2 k3 K. destruct au.
    apply tied_pbind; [now apply tied_jwe_sender|intros ?]. destruct protect; [apply tied_anon_encrypt|go]. }
  destruct (vm_key_alg fkey); try apply tied_ret; apply E.
Qed.
End Send.

Lemma tied_pack (SIGN : forall a k1 k2, alike a k1 k2 -> sign_alike C a k1 k2) (SEND : forall a k1 k2, alike a k1 k2 -> send_alike C a k1 k2)
  m to from sign_by o : tied (pack_encrypted C m to from sign_by o) (pack_encrypted C m to from sign_by o).
Proof.
  unfold pack_encrypted. apply tied_pbind; [gos|intros ?]. apply tied_pbind; [|intros [msg skid]].
  - destruct sign_by; (apply tied_pbind; [|intros; go]); [now apply tied_signed|apply tied_plaintext].
  - apply tied_pbind; [|intros [[msg' fk] tk]].
    + destruct from; (apply tied_pbind; [|intros; go]); [now apply tied_authcrypt|apply tied_anoncrypt].
    + apply tied_pbind; [apply tied_wrap_needed|intros ?]. go.
Qed.

(** *** Receiving *)
Section Receive.
Context (RECV : forall a k1 k2, alike a k1 k2 -> receive_alike C a k1 k2).
Lemma decrypt_same ce d ka p sender kid k1 k2 : alike ka k1 k2 -> jwe_decrypt C ce d ka p sender kid k1 = jwe_decrypt C ce d ka p sender kid k2.
Proof.
  intros K. destruct (RECV _ _ _ K) as [E1 E2]. unfold jwe_decrypt. cbv zeta. destruct (negb _); auto.
  assert (E : forall epk sk alg apu apv tag, derive_key C d ka epk sk k1 alg apu apv tag true = derive_key C d ka epk sk k2 alg apu apv tag true).
  { intros. destruct d; cbn [derive_key]; [now rewrite E1|]. destruct sk; [now rewrite E2|reflexivity]. }
  destruct (ok_or InvalidState _); cbn [rbind]; auto. destruct (ok_or Malformed (b64dec (rc_key a))); cbn [rbind]; auto.
  destruct (ok_or Malformed (from_jwk _ _ _)); cbn [rbind]; auto. destruct (ok_or Malformed (b64dec (jwe_tag _))); cbn [rbind]; auto. now rewrite E.
Qed.
Lemma tied_loop {X} all (open : bytes -> kalg -> key C -> res X) : (forall kid a k1 k2, alike a k1 k2 -> open kid a k1 = open kid a k2) ->
  forall found last, tied (open_loop C all open found last) (open_loop C all open found last).
Proof.
  intros E. induction found as [|kid found IH]; intros last; cbn [open_loop]; [go|]. apply tied_secret. intros s1 s2 S. apply tied_keys; auto.
  intros a k1 k2 K. rewrite (E _ _ _ _ K). apply tied_pbind; [gos|intros ?]. destruct all; [apply IH|go].
Qed.
Lemma anon_open_same p kid a k1 k2 : alike a k1 k2 -> anon_open C p kid a k1 = anon_open C p kid a k2.
Proof.
  intros K. unfold anon_open. destruct a; auto;
    (destruct (anon_cenc _) as [[ce al]|e|]; cbn [rbind]; auto; now rewrite (decrypt_same _ _ _ _ _ _ _ _ K)).
Qed.
Lemma auth_open_same p sender sk kid a k1 k2 : alike a k1 k2 -> auth_open C p sender sk kid a k1 = auth_open C p sender sk kid a k2.
Proof.
  intros K. unfold auth_open. destruct (fst _), a; auto; destruct (ph_enc _); auto; now apply decrypt_same.
Qed.
Lemma tied_anon msg o md : tied (try_anoncrypt C msg o md) (try_anoncrypt C msg o md).
Proof. unfold try_anoncrypt. cbv zeta. gow ltac:(apply tied_find || (apply tied_loop; intros; now apply anon_open_same)). Qed.
Lemma tied_auth msg o md : tied (try_authcrypt C msg o md) (try_authcrypt C msg o md).
Proof. unfold try_authcrypt. cbv zeta. unfold pkind. gow ltac:(apply tied_find || (apply tied_loop; intros; now apply auth_open_same)). Qed.
Lemma tied_sign msg md : tied (try_sign C msg md) (try_sign C msg md).
Proof. unfold try_sign. cbv zeta. go. Qed.
Lemma tied_plain msg md : tied (try_plaintext C msg md) (try_plaintext C msg md).
Proof. unfold try_plaintext. gow ltac:(apply tied_prior_unpack). Qed.
Lemma tied_rest msg o md : tied (unpack_rest C msg o md) (unpack_rest C msg o md).
Proof. unfold unpack_rest. gow ltac:(apply tied_auth || apply tied_sign || apply tied_plain). Qed.
Lemma tied_unwrap msg : tied (try_unwrap C msg) (try_unwrap C msg).
Proof. unfold try_unwrap, has_secret. gow ltac:(apply tied_find). Qed.
Lemma tied_unpack fuel : forall msg o md, tied (unpack_loop C fuel msg o md) (unpack_loop C fuel msg o md).
Proof.
  induction fuel as [|f IH]; intros msg o md; cbn [unpack_loop]; [go|]. apply tied_bind; [apply tied_anon|].
  assert (R : forall msg md, tied (bind (unpack_rest C msg o md) (fun x => Ret (Some x))) (bind (unpack_rest C msg o md) (fun x => Ret (Some x)))).
  { intros. apply tied_bind; [apply tied_rest|intros; go]. }
  intros [[[pt md']|]|k|]; [|apply R|go|go]. destruct (uo_unwrap o); [|apply R]. apply tied_bind; [apply tied_unwrap|].
  intros [[fwd|]|k|]; [apply IH|apply R|go|go].
Qed.
End Receive.
End Secrets.
End Tied.

Lemma any_of_other C alike h1 h2 : other_secrets C alike h1 h2 -> any_secrets h1 h2.
Proof. intros [R _ _ N]. now constructor. Qed.
