(** How many questions an operation puts to the resolvers. *)
From Verif.Model Require Import Prelude Utf8 Base64 Json Serde DidDoc Crypto Keys Effects Jws Jwe Message FromPrior Pack Routing Unpack.
From Verif.Spec Require Import Small Codec Events Bounds Cost.
From Verif.Proofs Require Import Lib Base64P JsonP JsonDec CodecP SmallP Wp UnpackInv TermP.

Definition op_asks (o : op) : nat := match o with ORandom _ => 0 | _ => 1 end.
Definition asks (e : event) : nat := match e with Ev o _ => op_asks o end.
Definition asked (tr : list event) : nat := fold_right (fun e n => asks e + n) 0 tr.
Lemma asked_app a b : asked (a ++ b) = asked a + asked b.
Proof. unfold asked. induction a as [|e a IH]; cbn; auto. rewrite IH. lia. Qed.
Lemma questions_asked tr n : questions tr n -> n = asked tr.
Proof.
  induction 1 as [|e tr n Q _ ->|e tr n Q _ ->]; auto; destruct e as [[]]; cbn in Q |- *; auto; tauto.
Qed.
Lemma asked_questions tr : questions tr (asked tr).
Proof. induction tr as [|[[] r] tr IH]; cbn; constructor; cbn; auto. Qed.

(** [most A m n]: with answers satisfying [A], [m] puts at most [n] questions. *)
Fixpoint most {X} (A : event -> Prop) (m : prog X) (n : nat) : Prop :=
  match m with
  | Ret _ => True
  | Do o k => exists n', op_asks o + n' <= n /\ forall r, A (Ev o r) -> most A (k r) n'
  end.
Lemma most_exec {X} (A : event -> Prop) (m : prog X) : forall n tr x, most A m n -> exec m tr x -> Forall A tr -> asked tr <= n.
Proof.
  induction m as [y|o k IH]; intros n tr x M E F; cbn in *.
  - destruct E as [-> _]. cbn. lia.
  - destruct M as (n' & L & M), E as (r & tr' & -> & E). inversion F; subst. specialize (IH r n' tr' x (M r H1) E H2).
    change (asked (Ev o r :: tr')) with (op_asks o + asked tr'). lia.
Qed.
Lemma most_le {X} (A : event -> Prop) (m : prog X) : forall n n', most A m n -> n <= n' -> most A m n'.
Proof. destruct m; cbn; auto. intros n n' (k' & L & M) H. exists k'. split; auto. lia. Qed.
Lemma most_bind {X Y} (A : event -> Prop) (m : prog X) (f : X -> prog Y) : forall a b, most A m a -> (forall x, most A (f x) b) -> most A (bind m f) (a + b).
Proof.
  induction m as [y|o k IH]; intros a b M F; cbn in *.
  - eapply most_le; [apply F|]. lia.
  - destruct M as (n' & L & M). exists (n' + b). split; [lia|]. intros r Ar. apply IH; auto.
Qed.
Lemma most_pbind {X Y} (A : event -> Prop) (m : prog (res X)) (f : X -> prog (res Y)) a b :
  most A m a -> (forall x, most A (f x) b) -> most A (pbind m f) (a + b).
Proof. intros M F. apply most_bind; auto. intros [x| |]; cbn; auto. Qed.
Lemma most_pure {X Y} (A : event -> Prop) (r : res X) (f : X -> prog (res Y)) n :
  (forall x, r = Ok x -> most A (f x) n) -> most A (pbind (Ret r) f) n.
Proof. intros F. cbn [pbind bind]. destruct r; cbn; auto. Qed.
Lemma most_kind {X} (A : event -> Prop) k (m : prog (res X)) n : most A m n -> most A (pkind k m) n.
Proof. intros M. replace n with (n + 0) by lia. apply most_bind; cbn; auto. Qed.
Lemma most_resolve {Y} (A : event -> Prop) did (f : option diddoc -> prog (res Y)) n :
  (forall d, A (Ev (OResolve did) (Ok d)) -> most A (f d) n) -> most A (pbind (resolve did) f) (S n).
Proof. intros F. cbn. exists n. split; auto. intros [d| |] Ar; cbn; auto. Qed.
Lemma most_kresolve {Y} (A : event -> Prop) k did (f : option diddoc -> prog (res Y)) n :
  (forall d, most A (f d) n) -> most A (pbind (pkind k (resolve did)) f) (S n).
Proof. intros F. cbn. exists n. split; auto. intros [d| |] Ar; cbn; auto. Qed.
Lemma most_find {Y} (A : event -> Prop) ids (f : list bytes -> prog (res Y)) n :
  (forall d, A (Ev (OFindSecrets ids) (Ok d)) -> most A (f d) n) -> most A (pbind (find_secrets ids) f) (S n).
Proof. intros F. cbn. exists n. split; auto. intros [d| |] Ar; cbn; auto. Qed.
Lemma most_get {Y} (A : event -> Prop) id (f : option secret -> prog (res Y)) n :
  (forall d, most A (f d) n) -> most A (pbind (get_secret id) f) (S n).
Proof. intros F. cbn. exists n. split; auto. intros [d| |] Ar; cbn; auto. Qed.
Lemma most_random {Y} (A : event -> Prop) u (f : bytes -> prog (res Y)) n : (forall d, most A (f d) n) -> most A (pbind (random u) f) n.
Proof. intros F. cbn. exists n. split; auto. Qed.
Ltac go1 :=
  first [ apply most_pure; intros | apply most_resolve; intros | apply most_kresolve; intros | apply most_find; intros
        | apply most_get; intros | apply most_random; intros | (cbn; exact I) ].
Ltac go := repeat (first [ go1 | match goal with
  | |- most _ (match ?x with _ => _ end) _ => destruct x
  | |- most _ (let (_, _) := ?x in _) _ => destruct x end ]).

Section Cost.
Variable C : crypto.
Notation A := finds_asked.

Lemma open_most {X} all (open : bytes -> kalg -> key C -> res X) found : forall last, most A (open_loop C all open found last) (List.length found).
Proof.
  induction found as [|kid found IH]; intros last; cbn [open_loop List.length]; [cbn; auto|].
  go1. go1. go1. destruct x0 as [ka k]. go1. destruct all; [apply IH|cbn; auto].
Qed.

(** ** Unpacking *)
Lemma anon_most msg o md tr x : exec (try_anoncrypt C msg o md) tr x -> Forall A tr ->
  tr = [] \/ exists j, jwe_from_str msg = Ok j /\ asked tr + 2 <= 2 + 2 * List.length (jwe_recipients j).
Proof.
  unfold try_anoncrypt. intros H F. apply exec_Ret_Err in H. destruct (soft (jwe_from_str msg)) as [[j|]| |] eqn:E; try (left; now destruct H).
  apply soft_Some in E. apply exec_Ret_Err in H. destruct (jwe_parse C j) as [p| |]; try (left; now destruct H).
  destruct (ph_alg (pj_protected p)); try (left; now destruct H).
  apply exec_Ret_Err in H. destruct (verify_didcomm C p) as [p'| |]; try (left; now destruct H).
  apply exec_Ret_Err in H. destruct (check_recipients (map rc_kid (jwe_recipients j))) as [u| |] eqn:K; try (left; now destruct H).
  right. exists j. split; auto. apply (most_exec A _ (S (List.length (jwe_recipients j)))) in H; auto.
  - assert (1 <= List.length (jwe_recipients j)) by (destruct (jwe_recipients j); [discriminate|cbn; lia]). lia.
  - apply most_find. intros found L. cbn in L. rewrite map_length in L. destruct found as [|k l]; [cbn; auto|].
    apply most_le with (List.length (k :: l) + 0); [|cbn [List.length] in *; lia]. apply most_pbind; [apply open_most|]. intros [pt alg]. go.
Qed.
Lemma auth_most msg o md tr x : exec (try_authcrypt C msg o md) tr x -> Forall A tr ->
  tr = [] \/ exists j, jwe_from_str msg = Ok j /\ asked tr <= 2 + 2 * List.length (jwe_recipients j).
Proof.
  unfold try_authcrypt. intros H F. apply exec_Ret_Err in H. destruct (soft (jwe_from_str msg)) as [[j|]| |] eqn:E; try (left; now destruct H).
  apply soft_Some in E. right. exists j. split; auto.
  apply (most_exec A _ (S (S (List.length (jwe_recipients j))))) in H; auto; [lia|].
  go1. destruct (ph_alg (pj_protected x0)); try (cbn; exact I). go1. go1. destruct (negb (utf8 x2)); [cbn; auto|].
  destruct (did_or_url x2) as [fd fu]. destruct (negb (is_some fu)); [cbn; auto|]. go1. go1. go1. go1. go1. go1. 
  apply most_find. intros found L. cbn in L. rewrite map_length in L. destruct found as [|k l]; [cbn; auto|].
  apply most_le with (List.length (k :: l) + 0); [|cbn [List.length] in *; lia]. apply most_pbind; [apply open_most|]. intros pt. go.
Qed.
Lemma sign_most msg md tr x : exec (try_sign C msg md) tr x -> Forall A tr ->
  tr = [] \/ exists j, jws_from_str msg = Ok j /\ asked tr <= 1.
Proof.
  unfold try_sign. intros H F. apply exec_Ret_Err in H. destruct (soft (jws_from_str msg)) as [[j|]| |] eqn:E; try (left; now destruct H).
  apply soft_Some in E. right. exists j. split; auto. apply (most_exec A _ 1) in H; auto. go.
Qed.
Lemma prior_unpack_most jwt : most A (from_prior_unpack C jwt) 1.
Proof. unfold from_prior_unpack. go. Qed.
Lemma plaintext_most msg md tr x : exec (try_plaintext C msg md) tr x -> Forall A tr ->
  tr = [] \/ exists m, message_from_str (fparse C) msg = Ok m /\ asked tr <= 1.
Proof.
  unfold try_plaintext. intros H F. apply exec_Ret_Err in H. destruct (soft (message_from_str (fparse C) msg)) as [[m|]| |] eqn:E; try (left; now destruct H).
  apply soft_Some in E. right. exists m. split; auto. apply (most_exec A _ 1) in H; auto. go1. destruct (msg_from_prior _); [|cbn; auto].
  change 1 with (1 + 0). apply most_pbind; [apply prior_unpack_most|]. intros [p kid]. cbn. auto.
Qed.
Lemma has_most next : most A (has_secret next) 2.
Proof.
  unfold has_secret. change 2 with (1 + 1). apply most_pbind; [destruct (did_or_url next) as [d [k|]]; go|]. intros kids. go.
Qed.
Lemma unwrap_most msg : most A (try_unwrap C msg) 2.
Proof.
  unfold try_unwrap. go1. destruct x as [m|]; [|cbn; auto]. destruct (try_parse_forward m); [|cbn; auto].
  change 2 with (2 + 0). apply most_pbind; [apply has_most|]. intros. cbn. auto.
Qed.

Hypothesis Sh : aead_shrinks C.
Hypothesis Fl : floats_stable (fparse C).
Lemma weight_len s : msg_weight s <= List.length s.
Proof. apply parse_weight. Qed.
Lemma jwe_room text j : jwe_from_str text = Ok j ->
  2 + 2 * List.length (jwe_recipients j) + List.length (jwe_ciphertext j) + List.length (jwe_tag j) <= msg_weight text.
Proof.
  intros E. unfold jwe_from_str, from_json in E. unfold msg_weight. destruct (parse text) as [r e].
  apply rbind_Ok in E as (j' & E & E'). destruct e; [discriminate|]. injection E' as ->. now apply jwe_weight in E.
Qed.
Lemma jws_room text j : jws_from_str text = Ok j -> 1 + List.length (jws_payload j) <= msg_weight text.
Proof.
  intros E. unfold jws_from_str, from_json in E. unfold msg_weight. destruct (parse text) as [r e].
  apply rbind_Ok in E as (j' & E & E'). destruct e; [discriminate|]. injection E' as ->. now apply jws_weight in E.
Qed.
Lemma message_room text m : message_from_str (fparse C) text = Ok m -> 1 <= msg_weight text.
Proof.
  intros E. unfold message_from_str, from_json in E. unfold msg_weight. destruct (parse text) as [r e].
  apply rbind_Ok in E as (j' & E & E'). destruct e; [discriminate|]. apply message_weight in E. cbn. lia.
Qed.
Lemma opened_len j h ce ka sender kid k pt : opened C ce ka j h sender kid k pt -> List.length pt <= List.length (jwe_ciphertext j) + List.length (jwe_tag j).
Proof.
  intros (cek & iv & ct & tag & _ & _ & B1 & B2 & O). apply Sh in O. rewrite app_length in O. apply b64dec_length in B1, B2. lia.
Qed.
Lemma anon_step msg o md tr pt md' : exec (try_anoncrypt C msg o md) tr (Ok (Some (pt, md'))) -> Forall A tr ->
  asked tr + 2 + List.length pt <= msg_weight msg.
Proof.
  intros H F. pose proof (anon_most _ _ _ _ _ H F) as M. apply try_anoncrypt_Some in H as (j & alg & (h & apv & found & ce & [En _] & _ & _ & _ & _ & _ & _ & _ & _ & T) & _).
  assert (O : exists ka kid k, opened C ce ka j h None kid k pt).
  { unfold tried in T. destruct (uo_all_keys o).
    - destruct T as (l & kid & _ & (sec & ka & k & _ & _ & _ & O) & _). eauto.
    - destruct T as (kid & l & _ & sec & ka & k & _ & _ & _ & O). eauto. }
  destruct O as (ka & kid & k & O). apply opened_len in O. pose proof (jwe_room _ _ En) as R.
  destruct M as [->|(j' & E & M)]; [cbn; lia|]. rewrite E in En. injection En as ->. lia.
Qed.
Lemma anon_total msg o md tr x : exec (try_anoncrypt C msg o md) tr x -> Forall A tr -> asked tr <= msg_weight msg.
Proof. intros H F. apply anon_most in H as [->|(j & E & M)]; auto; [cbn; lia|]. apply jwe_room in E. lia. Qed.
Lemma auth_step msg o md tr pt md' : exec (try_authcrypt C msg o md) tr (Ok (Some (pt, md'))) -> Forall A tr ->
  asked tr + List.length pt <= msg_weight msg.
Proof.
  intros H F. pose proof (auth_most _ _ _ _ _ H F) as M. apply try_authcrypt_Some in H as (j & from & AO & _).
  assert (O : jwe_from_str msg = Ok j /\ exists h ce ka s kid k, opened C ce ka j h s kid k pt).
  { destruct AO as (h & apv & found & did & doc & ka & fk & [En _] & _ & _ & _ & _ & _ & _ & _ & _ & _ & _ & _ & _ & _ & T). split; auto.
    unfold tried in T. destruct (uo_all_keys o).
    - destruct T as (l & kid & _ & (sec & ka' & k & _ & _ & _ & O) & _). eauto 8.
    - destruct T as (kid & l & _ & sec & ka' & k & _ & _ & _ & O). eauto 8. }
  destruct O as (En & h & ce & ka & s & kid & k & O). apply opened_len in O. pose proof (jwe_room _ _ En) as R.
  destruct M as [->|(j' & E & M)]; [cbn; lia|]. rewrite E in En. injection En as ->. lia.
Qed.
Lemma auth_total msg o md tr x : exec (try_authcrypt C msg o md) tr x -> Forall A tr -> asked tr <= msg_weight msg.
Proof. intros H F. apply auth_most in H as [->|(j & E & M)]; auto; [cbn; lia|]. apply jwe_room in E. lia. Qed.
Lemma sign_step msg md tr pt md' : exec (try_sign C msg md) tr (Ok (Some (pt, md'))) -> Forall A tr ->
  asked tr + List.length pt <= msg_weight msg.
Proof.
  intros H F. pose proof (sign_most _ _ _ _ H F) as M. apply try_sign_Some in H as (kid & sa & S & _).
  destruct S as (j & sg & hb & h & did & doc & ka & k & st & s & En & S).
  assert (P : b64dec (jws_payload j) = Some pt) by tauto. apply b64dec_length in P. pose proof (jws_room _ _ En) as R.
  destruct M as [->|(j' & E & M)]; [cbn; lia|]. lia.
Qed.
Lemma sign_total msg md tr x : exec (try_sign C msg md) tr x -> Forall A tr -> asked tr <= msg_weight msg.
Proof. intros H F. apply sign_most in H as [->|(j & E & M)]; auto; [cbn; lia|]. apply jws_room in E. lia. Qed.
Lemma plaintext_total msg md tr x : exec (try_plaintext C msg md) tr x -> Forall A tr -> asked tr <= msg_weight msg.
Proof. intros H F. apply plaintext_most in H as [->|(j & E & M)]; auto; [cbn; lia|]. apply message_room in E. lia. Qed.

Lemma rest_most text o md tr x : exec (unpack_rest C text o md) tr x -> Forall A tr -> asked tr <= msg_weight text.
Proof.
  unfold unpack_rest. intros H F.
  assert (P : forall text md tr x, exec (let! p := try_plaintext C text md in Ret (ok_or Malformed p)) tr x -> Forall A tr -> asked tr <= msg_weight text).
  { clear. intros text md tr x H F. apply exec_pbind in H as [(t1 & t2 & p & -> & H & [-> _])|[(e & H & _)|[H _]]].
    1: rewrite app_nil_r in *. all: eapply plaintext_total; eauto. }
  assert (S : forall text md tr x, exec (let! s := try_sign C text md in
      let (text, md) := match s with Some (m, d) => (m, d) | None => (text, md) end in
      let! p := try_plaintext C text md in Ret (ok_or Malformed p)) tr x -> Forall A tr -> asked tr <= msg_weight text).
  { clear -P Sh Fl. intros text md tr x H F. apply exec_pbind in H as [(t1 & t2 & p & -> & H & H2)|[(e & H & _)|[H _]]].
    2,3: eapply sign_total; eauto. apply Forall_app in F as [F1 F2]. rewrite asked_app. destruct p as [[pt md']|].
    - apply sign_step in H; auto. apply P in H2; auto. pose proof (weight_len pt). lia.
    - apply try_sign_None in H as [-> _]. apply P in H2; auto. }
  clear P. apply exec_pbind in H as [(t1 & t2 & p & -> & H & H2)|[(e & H & _)|[H _]]].
  2,3: eapply auth_total; eauto. apply Forall_app in F as [F1 F2]. rewrite asked_app. destruct p as [[pt md']|].
  - apply auth_step in H; auto. apply S in H2; auto. pose proof (weight_len pt). lia.
  - apply try_authcrypt_None in H as [-> _]. apply S in H2; auto.
Qed.
Lemma loop_most fuel : forall text o md tr x, exec (unpack_loop C fuel text o md) tr x -> Forall A tr -> asked tr <= msg_weight text.
Proof.
  induction fuel as [|f IH]; intros text o md tr x H F; [destruct H as [-> _]; cbn; lia|]. cbn [unpack_loop] in H.
  apply exec_bind in H as (tr1 & tr2 & r & -> & H1 & H2). apply Forall_app in F as [F1 F2]. rewrite asked_app.
  destruct r as [[[pt md']|]| |]; try (destruct H2 as [-> _]; rewrite Nat.add_0_r; eapply anon_total; eauto).
  - apply anon_step in H1; auto. pose proof (weight_len pt) as W. destruct (uo_unwrap o).
    + apply exec_bind in H2 as (tr3 & tr4 & u & -> & H2 & H3). apply Forall_app in F2 as [F2 F3]. rewrite asked_app.
      pose proof (most_exec A _ 2 _ _ (unwrap_most pt) H2 F2) as U.
      destruct u as [[fwd|]| |]; try (destruct H3 as [-> _]; cbn; lia).
      * apply try_unwrap_Ok in H2 as (next & v & kid & found & Fw & _ & ->). apply forward_weight in Fw; auto. apply IH in H3; auto. lia.
      * apply exec_bind in H3 as (t5 & t6 & ? & -> & H3 & [-> _]). rewrite app_nil_r in *. apply rest_most in H3; auto. lia.
    + apply exec_bind in H2 as (t5 & t6 & ? & -> & H3 & [-> _]). rewrite app_nil_r in *. apply rest_most in H3; auto. lia.
  - apply try_anoncrypt_None in H1 as [-> _]. apply exec_bind in H2 as (t5 & t6 & ? & -> & H3 & [-> _]). rewrite app_nil_r in *. apply rest_most in H3; auto.
Qed.
Lemma unpack_questions fuel text o tr x n : exec (unpack C fuel text o) tr x -> Forall A tr -> questions tr n -> n <= List.length text.
Proof. intros H F Q. apply questions_asked in Q as ->. apply loop_most in H; auto. pose proof (weight_len text). lia. Qed.
End Cost.

(** ** Packing *)
Section Pack.
Variable C : crypto.
Lemma prior_most A jwt : most A (from_prior_unpack C jwt) 1.
Proof. unfold from_prior_unpack. go. Qed.
Lemma plain_most A m : most A (pack_plaintext C m) 1.
Proof.
  unfold pack_plaintext. change 1 with (1 + 0). apply most_pbind; [|intros; go]. destruct (msg_from_prior m); [|cbn; auto].
  change 1 with (1 + 0). apply most_pbind; [apply prior_most|]. intros. cbn. auto.
Qed.
Lemma signed_most A m by_ : most A (pack_signed C m by_) 4.
Proof.
  unfold pack_signed. destruct (negb (is_did by_)); [cbn; auto|]. destruct (did_or_url by_) as [did kid].
  go1. go1. go1. go1. go1. go1. go1. go1. destruct x3 as [a k]. change 1 with (1 + 0). apply most_pbind; [apply plain_most|]. intros. go.
Qed.
Lemma encrypt_most A ce d ka pt alg enc s rs : most A (jwe_encrypt C ce d ka pt alg enc s rs) 0.
Proof. unfold jwe_encrypt. go. Qed.
Lemma anon_encrypt_most A ka alg msg rs : most A (anon_encrypt C ka alg msg rs) 0.
Proof. unfold anon_encrypt. destruct alg; apply encrypt_most. Qed.
Lemma anoncrypt_most A to msg alg : most A (anoncrypt C to msg alg) 1.
Proof.
  unfold anoncrypt. destruct (did_or_url to) as [did kid]. go1. go1. destruct (select_kids _ _); [cbn; auto|]. go1. go1.
  change 0 with (0 + 0). apply most_pbind; [|intros; cbn; auto].
  destruct x1; try (cbn; exact I); go1; apply anon_encrypt_most.
Qed.
Lemma authcrypt_most A to from msg au an pr : most A (authcrypt C to from msg au an pr) 4.
Proof.
  unfold authcrypt. destruct (did_or_url to) as [did kid]. go1. go1. destruct (did_or_url from) as [fd fk]. go1. go1.
  destruct (select_kids fk _); [cbn; auto|]. go1. destruct d1; [cbn; auto|]. go1. destruct (select_kids kid _); [cbn; auto|].
  go1. go1. go1. go1. change 0 with (0 + 0). apply most_pbind; [|intros; cbn; auto].
  assert (E : forall ka t, most A (auth_encrypt C ka au an pr msg x3 x4 t) 0).
  { intros ka t. unfold auth_encrypt. go1. go1. change 0 with (0 + 0). apply most_pbind; [destruct au; apply encrypt_most|].
    intros. destruct pr; [apply anon_encrypt_most|cbn; auto]. }
  destruct (vm_key_alg x3); try (cbn; exact I); apply E.
Qed.
Lemma wrap_loop_most A headers alg hops : forall msg, most A (wrap_loop C msg headers hops alg) (List.length hops).
Proof.
  induction hops as [|[to next] hops IH]; intros msg; cbn [wrap_loop List.length]; [cbn; auto|].
  change (S (List.length hops)) with (0 + S (List.length hops)). apply most_pbind; [unfold build_forward; go|]. intros m.
  change (S (List.length hops)) with (1 + List.length hops). apply most_pbind; [apply anoncrypt_most|]. intros [x y]. apply IH.
Qed.
Lemma wrap_most A msg headers to keys alg : most A (wrap_in_forward C msg headers to keys alg) (List.length keys).
Proof.
  unfold wrap_in_forward. destruct keys as [|k keys]; [cbn; auto|]. eapply most_le; [apply wrap_loop_most|].
  rewrite combine_length, rev_length. lia.
Qed.
Lemma prior_pack_most A p ik : most A (from_prior_pack C p ik) 3.
Proof. unfold from_prior_pack. go. Qed.

(** The services of a chain come from documents told. *)
Definition within (n : nat) (s : bytes * messaging_service) : Prop := List.length (ms_routing_keys (snd s)) <= n.
Lemma first_within n l s : (forall s ms, In s l -> svc_kind s = DIDCommMessaging ms -> List.length (ms_routing_keys ms) <= n) ->
  first_service l = Some s -> within n s.
Proof.
  induction l as [|x l IH]; intros K; [discriminate|]. cbn. destruct (svc_kind x) as [ms|] eqn:E.
  - destruct (accepts_v2 ms). + injection 1 as <-. eapply K; eauto. now left. + apply IH. intros; eapply K; eauto. now right.
  - apply IH. intros; eapply K; eauto. now right.
Qed.
Lemma routes_app n a b : routes_within n (a ++ b) -> routes_within n a /\ routes_within n b.
Proof. intros H. split; intros did doc s ms R; apply (H did); unfold resolved in *; apply in_or_app; auto. Qed.
Lemma service_within n did sid tr r : exec (find_service did sid) tr r -> routes_within n tr ->
  asked tr <= 1 /\ forall s, r = Ok (Some s) -> within n s.
Proof.
  intros H K. split.
  - apply (most_exec (fun _ => True) _ 1) in H; auto; [|now apply Forall_forall]. unfold find_service. go.
  - intros s ->. unfold find_service in H. step H. step H. apply ok_or_Ok in E. subst a.
    assert (D : forall s ms, In s (doc_service a0) -> svc_kind s = DIDCommMessaging ms -> List.length (ms_routing_keys ms) <= n).
    { intros. eapply K; eauto. now left. }
    destruct sid as [sid|].
    + step H. apply ok_or_Ok, find_first_first in E. destruct (svc_kind a) as [ms|] eqn:Q; [|destruct H; discriminate].
      destruct (accepts_v2 ms); destruct H as [_ H]; [|discriminate]. injection H as ->. unfold within. cbn. eapply D; [|exact Q].
      destruct E as (l1 & l2 & -> & _). apply in_or_app. right. now left.
    + destruct H as [_ H]. injection H as H. symmetry in H. eapply first_within; eauto.
Qed.
Lemma chain_most n fuel : forall services cur tr r, exec (chain_loop fuel services cur) tr r -> routes_within n tr ->
  1 <= List.length services <= 2 -> Forall (within n) services ->
  asked tr + List.length services <= 2 /\ forall l, r = Ok l -> List.length l <= 2 /\ Forall (within n) l.
Proof.
  induction fuel as [|f IH]; intros services cur tr r H K L W; cbn [chain_loop] in H.
  - destruct (is_did (ms_uri cur)); [destruct (Nat.ltb 1 _)|]; destruct H as [-> ->]; (split; [cbn; lia|]); intros l E; try discriminate. injection E as <-. split; auto. lia.
  - destruct (is_did (ms_uri cur)). 2:{ destruct H as [-> ->]. split; [cbn; lia|]. intros l E. injection E as <-. split; auto. lia. }
    destruct (Nat.ltb_spec 1 (List.length services)) as [G|G]. { destruct H as [-> ->]. split; [cbn; lia|]. discriminate. }
    apply exec_pbind in H as [(t1 & t2 & s & -> & H & H2)|[(e & H & ->)|[H ->]]].
    2,3: apply (service_within n) in H as [H _]; auto; split; [lia|discriminate].
    apply routes_app in K as [K1 K2]. apply (service_within n) in H as [H Q]; auto. rewrite asked_app.
    apply exec_Ret_Err in H2. destruct s as [s|]; [|destruct H2 as [-> ->]; cbn; split; [lia|discriminate]]. cbn in H2.
    apply IH in H2 as [H2 H3]; auto; [cbn in H2; split; [lia|auto]|cbn; lia].
Qed.
Lemma services_most n to sid tr r : exec (services_chain to sid) tr r -> routes_within n tr ->
  asked tr <= 2 /\ forall l, r = Ok l -> List.length l <= 2 /\ Forall (within n) l.
Proof.
  unfold services_chain. destruct (did_or_url to) as [did u]. intros H K.
  apply exec_pbind in H as [(t1 & t2 & s & -> & H & H2)|[(e & H & ->)|[H ->]]].
  2,3: apply (service_within n) in H as [H _]; auto; split; [lia|discriminate].
  apply routes_app in K as [K1 K2]. apply (service_within n) in H as [H Q]; auto. rewrite asked_app.
  destruct s as [s|].
  - apply (chain_most n) in H2 as [H2 H3]; auto. cbn in H2. split; [lia|auto].
  - destruct H2 as [-> ->]. split; [cbn; lia|]. intros l E. injection E as <-. cbn. auto.
Qed.
Lemma needed_most n msg to o tr r : exec (wrap_if_needed C msg to o) tr r -> routes_within n tr -> asked tr <= 3 + n.
Proof.
  unfold wrap_if_needed. destruct (negb (po_forward o)). { intros [-> _]. cbn. lia. } intros H K.
  apply exec_pbind in H as [(t1 & t2 & l & -> & H & H2)|[(e & H & ->)|[H ->]]].
  2,3: apply (services_most n) in H as [H _]; auto; lia.
  apply routes_app in K as [K1 K2]. apply (services_most n) in H as [H Q]; auto. specialize (Q _ eq_refl) as [L W]. rewrite asked_app.
  destruct l as [|s rest]; [destruct H2 as [-> _]; cbn; lia|].
  set (keys := map (fun s => ms_uri (snd s)) rest ++ ms_routing_keys (snd (last (s :: rest) s))) in *.
  assert (N : List.length keys <= 1 + n).
  { subst keys. rewrite app_length, map_length. cbn [List.length] in L.
    enough (within n (last (s :: rest) s)) by (unfold within in *; lia).
    rewrite Forall_forall in W. apply W. destruct rest as [|s2 [|]]; cbn in *; auto. lia. }
  cbn zeta in H2. fold keys in H2. clearbody keys. destruct keys as [|k keys]; [destruct H2 as [-> _]; cbn; lia|].
  apply exec_pbind in H2 as [(t3 & t4 & f & -> & H2 & [-> _])|[(e & H2 & _)|[H2 _]]];
    apply (most_exec (fun _ => True) _ _ _ _ (wrap_most _ _ _ _ _ _)) in H2; try (now apply Forall_forall); rewrite ?app_nil_r; lia.
Qed.
Lemma pack_most n m to from by_ o tr r : exec (pack_encrypted C m to from by_ o) tr r -> routes_within n tr -> asked tr <= 11 + n.
Proof.
  unfold pack_encrypted. intros H K. apply exec_Ret_Err in H. destruct (validate_pack_encrypted m to from by_) as [u| |]; try (destruct H as [-> _]; cbn; lia).
  pose proof (Forall_forall (fun _ : event => True)) as T.
  assert (P1 : forall tr r, exec (match by_ with
    | Some s => let! (msg, kid) := pack_signed C m s in Ret (Ok (msg, Some kid))
    | None => let! msg := pack_plaintext C m in Ret (Ok (msg, None)) end) tr r -> asked tr <= 4).
  { intros tr1 r1 H1. eapply (most_exec (fun _ => True)); [|exact H1|apply T; auto]. destruct by_.
    - change 4 with (4 + 0). apply most_pbind; [apply signed_most|]. intros [x y]. cbn. auto.
    - change 4 with (1 + 3). apply most_pbind; [apply plain_most|]. intros x. cbn. auto. }
  apply exec_pbind in H as [(t1 & t2 & [msg kid] & -> & H & H2)|[(e & H & ->)|[H ->]]]; apply P1 in H; try lia. clear P1.
  apply routes_app in K as [_ K]. rewrite asked_app.
  assert (P2 : forall tr r, exec (match from with
    | Some f => let! (msg, fk, tk) := authcrypt C to f msg (po_enc_alg_auth o) (po_enc_alg_anon o) (po_protect_sender o) in Ret (Ok (msg, Some fk, tk))
    | None => let! (msg, tk) := anoncrypt C to msg (po_enc_alg_anon o) in Ret (Ok (msg, None, tk)) end) tr r -> asked tr <= 4).
  { intros tr1 r1 H1. eapply (most_exec (fun _ => True)); [|exact H1|apply T; auto]. destruct from.
    - change 4 with (4 + 0). apply most_pbind; [apply authcrypt_most|]. intros [[x y] z]. cbn. auto.
    - change 4 with (1 + 3). apply most_pbind; [apply anoncrypt_most|]. intros [x y]. cbn. auto. }
  apply exec_pbind in H2 as [(t3 & t4 & [[msg' fk] tk] & -> & H2 & H3)|[(e & H2 & ->)|[H2 ->]]]; apply P2 in H2; try lia. clear P2.
  apply routes_app in K as [_ K]. rewrite asked_app.
  apply exec_pbind in H3 as [(t5 & t6 & w & -> & H3 & H4)|[(e & H3 & ->)|[H3 ->]]].
  2,3: apply (needed_most n) in H3; auto; lia.
  apply routes_app in K as [K _]. apply (needed_most n) in H3; auto. rewrite asked_app. destruct w as [[f sm]|]; destruct H4 as [-> _]; cbn; lia.
Qed.
Lemma most_questions {X} (m : prog X) k tr x n : most (fun _ => True) m k -> exec m tr x -> questions tr n -> n <= k.
Proof. intros M H Q. apply questions_asked in Q as ->. eapply most_exec; eauto. now apply Forall_forall. Qed.
End Pack.
