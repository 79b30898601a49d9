(** A short secret makes the operation panic: proofs for Props/Panics.v. *)
From Verif.Model Require Import Prelude Utf8 Base64 Json Serde Base58 DidDoc Crypto Keys Effects Jws Jwe Message FromPrior Pack Routing Unpack.
From Verif.Spec Require Import Small Events Panics Cond.
From Verif.Proofs Require Import Lib NoPanic CondP.

Section Panic.
Context (C : crypto).

Lemma short_panics s : ~ long_enough s -> sec_key_pair C s = Panic.
Proof.
  unfold long_enough, sec_key_pair. destruct (sec_type s), (sec_material s) as [v|t|t]; intros H; try (destruct H; exact I).
  - destruct (b58dec t) as [d|] eqn:D; [|destruct H; discriminate]. cbn [ok_or rbind].
    destruct (le_dec 32 (List.length d)) as [L|L]; [destruct H; intros d' E; now injection E as <-|].
    unfold ed25519_secret_key, split_at. apply Nat.leb_nle in L. rewrite L. reflexivity.
  - destruct t as [|c u]; [destruct H; discriminate|]. unfold multibase_key. destruct (Ascii.eqb_spec c "z") as [->|Nz]; [|destruct H; intros u' d' E; injection E; congruence].
    destruct (b58dec u) as [d|] eqn:D; [|destruct H; intros u' d' E E'; injection E as <-; congruence]. cbn [ok_or rbind].
    destruct (le_dec 34 (List.length d)) as [L|L]; [destruct H; intros u' d' E E' _; injection E as <-; rewrite D in E'; now injection E' as <-|].
    destruct (read_varint d) as [n|] eqn:V; [|destruct H; intros u' d' E E' W; injection E as <-; rewrite D in E'; injection E' as <-; apply varint_starts in W; unfold read_varint in V; congruence].
    destruct (N.eq_dec n 0x1300) as [->|Nn]; [|destruct H; intros u' d' E E' W; injection E as <-; rewrite D in E'; injection E' as <-; apply varint_starts in W; unfold read_varint in V; congruence].
    unfold from_multicodec. rewrite V. cbn [ok_or rbind]. change (codec_by_prefix 0x1300) with (Ok CEd25519Priv). cbn [rbind].
    change (List.length (write_varint 0x1300)) with 2. unfold split_at at 1. apply varint_starts in V.
    destruct d as [|a [|b d]]; [inversion V| |].
    { exfalso. inversion V; subst; match goal with R : starts_with_varint _ [] _ |- _ => inversion R | _ => lia end. }
    cbn [List.length Nat.leb rbind codec_eqb skipn]. unfold ed25519_secret_key, split_at. 
    destruct (Nat.leb_spec 32 (List.length d)) as [L'|L']; [|reflexivity]. cbn in L. lia.
Qed.

Definition spoilt (tr : list event) : Prop := exists kid s, held tr kid s /\ ~ long_enough s.
Definition touchy {X} (m : prog (res X)) : Prop := forall tr x, exec m tr x -> spoilt tr -> x = Panic.
Lemma spoilt_app t1 t2 : spoilt (t1 ++ t2) -> spoilt t1 \/ spoilt t2.
Proof. intros (kid & s & H & L). unfold held in H. apply in_app_iff in H as [H|H]; [left|right]; exists kid, s; auto. Qed.
Lemma touchy_ret {X} (r : res X) : touchy (Ret r).
Proof. intros tr x [-> ->] (kid & s & [] & _). Qed.
Lemma touchy_pbind {X Y} (m : prog (res X)) (f : X -> prog (res Y)) : touchy m -> (forall a, touchy (f a)) -> touchy (pbind m f).
Proof.
  intros M F tr x H S. apply exec_pbind in H as [(t1 & t2 & a & -> & H1 & H2)|[(e & H & ->)|[_ ->]]]; auto.
  - apply spoilt_app in S as [S|S]; [discriminate (M _ _ H1 S)|eapply F; eauto].
  - discriminate (M _ _ H S).
Qed.
Lemma touchy_resolve d : touchy (resolve d).
Proof. intros tr x (r & t & -> & -> & ->) (kid & s & [E|[]] & _). discriminate E. Qed.
Lemma touchy_find d : touchy (find_secrets d).
Proof. intros tr x (r & t & -> & -> & ->) (kid & s & [E|[]] & _). discriminate E. Qed.
Lemma touchy_random d : touchy (random d).
Proof. intros tr x (r & t & -> & -> & ->) (kid & s & [E|[]] & _). discriminate E. Qed.
Lemma touchy_kind {X} k (m : prog (res X)) : touchy m -> touchy (pkind k m).
Proof.
  intros M tr x H S. unfold pkind in H. apply exec_bind in H as (t1 & t2 & r & -> & H1 & [-> ->]).
  rewrite app_nil_r in S. rewrite (M _ _ H1 S). reflexivity.
Qed.
Definition got (e : event) : option secret := match e with Ev (OGetSecret _) (Ok (Some z)) => Some z | _ => None end.
Lemma touchy_secret {X} k id (f : secret -> prog (res X)) : (forall s, touchy (f s)) -> (forall s tr x, ~ long_enough s -> exec (f s) tr x -> x = Panic) ->
  touchy (pbind (get_secret id) (fun sec => pbind (Ret (ok_or k sec)) f)).
Proof.
  intros F P tr x H (kid & s & I & L). unfold get_secret in H. apply exec_Do_bind in H as (r & t & -> & H). apply exec_Ret_Err in H.
  destruct r as [[s'|]|e|]; [| | |].
  - apply exec_Ret_Err in H. cbn [ok_or] in H. destruct I as [E|I].
    + assert (E' : s' = s). { apply (f_equal got) in E. cbn in E. congruence. }
      subst s'. eapply P; eauto.
    + eapply F; [exact H|]. exists kid, s. auto.
  - apply exec_Ret_Err in H. cbn [ok_or] in H. destruct H as [-> ->]. destruct I as [E|[]]. discriminate (f_equal got E).
  - destruct H as [-> ->]. destruct I as [E|[]]. discriminate (f_equal got E).
  - destruct H as [-> ->]. reflexivity.
Qed.
Lemma key_first {X} s (f : kalg * key C -> prog (res X)) tr x : ~ long_enough s -> exec (pbind (Ret (sec_key_pair C s)) f) tr x -> x = Panic.
Proof. intros L H. rewrite (short_panics s L) in H. apply exec_Ret_Err in H. tauto. Qed.

Hint Resolve touchy_ret touchy_resolve touchy_find touchy_random touchy_kind : touchy.
Ltac ins := repeat lazymatch goal with |- forall _, _ => intro end.
Ltac go := repeat (ins; cbv beta zeta; lazymatch goal with
  | |- touchy (pbind (get_secret _) _) => fail
  | |- touchy (pbind _ _) => apply touchy_pbind
  | |- touchy (Ret _) => apply touchy_ret
  | |- touchy (if ?c then _ else _) => destruct c
  | |- touchy (match ?x with _ => _ end) => destruct x
  | |- touchy _ => solve [auto with touchy]
  end).
Ltac sec := ins; cbv beta zeta; apply touchy_secret; [|let L := fresh in let H := fresh in intros ? ? ? L H; revert H; apply key_first; exact L].

Lemma open_touchy {X} all (open : bytes -> kalg -> key C -> res X) found : forall last, touchy (open_loop C all open found last).
Proof.
  induction found as [|kid found IH]; intros last; cbn [open_loop]; [go|]. sec. intros s. go.
Qed.
Hint Resolve open_touchy : touchy.
Lemma prior_touchy jwt : touchy (from_prior_unpack C jwt).
Proof. unfold from_prior_unpack. go. Qed.
Hint Resolve prior_touchy : touchy.
Lemma anon_touchy t o md : touchy (try_anoncrypt C t o md).
Proof. unfold try_anoncrypt. go. Qed.
Lemma auth_touchy t o md : touchy (try_authcrypt C t o md).
Proof. unfold try_authcrypt. go. Qed.
Lemma sign_touchy t md : touchy (try_sign C t md).
Proof. unfold try_sign. go. Qed.
Lemma plain_touchy t md : touchy (try_plaintext C t md).
Proof. unfold try_plaintext. go. Qed.
Lemma unwrap_touchy t : touchy (try_unwrap C t).
Proof. unfold try_unwrap, has_secret. go. Qed.
Hint Resolve anon_touchy auth_touchy sign_touchy plain_touchy unwrap_touchy : touchy.
Lemma rest_touchy t o md : touchy (unpack_rest C t o md).
Proof. unfold unpack_rest. go. Qed.
Lemma loop_touchy fuel : forall t o md tr x, exec (unpack_loop C fuel t o md) tr x -> spoilt tr -> x = None \/ x = Some Panic.
Proof.
  assert (G : forall t o md tr x, exec (bind (unpack_rest C t o md) (fun x => Ret (Some x))) tr x -> spoilt tr -> x = Some Panic).
  { intros t o md tr x H S. apply exec_bind in H as (t1 & t2 & r & -> & H1 & [-> ->]). rewrite app_nil_r in S. now rewrite (rest_touchy _ _ _ _ _ H1 S). }
  induction fuel as [|f IH]; intros t o md tr x H S; cbn [unpack_loop] in H; [destruct H as [-> ->]; auto|].
  apply exec_bind in H as (t1 & t2 & r & -> & H1 & H2). apply spoilt_app in S as [S|S].
  { rewrite (anon_touchy _ _ _ _ _ H1 S) in H2. destruct H2 as [_ ->]. auto. }
  destruct r as [[[pt md']|]|k|]; [| |destruct H2 as [-> ->]; destruct S as (? & ? & [] & _)|destruct H2 as [-> ->]; auto]; [|right; eapply G; eauto].
  destruct (uo_unwrap o); [|right; eapply G; eauto].
  apply exec_bind in H2 as (t3 & t4 & r & -> & H3 & H4). apply spoilt_app in S as [S|S].
  { rewrite (unwrap_touchy _ _ _ H3 S) in H4. destruct H4 as [_ ->]. auto. }
  destruct r as [[t'|]|k|]; [eapply IH; eauto|right; eapply G; eauto|destruct H4 as [-> ->]; destruct S as (? & ? & [] & _)|destruct H4 as [-> ->]; auto].
Qed.
Lemma plaintext_touchy m : touchy (pack_plaintext C m).
Proof. unfold pack_plaintext. go. Qed.
Hint Resolve plaintext_touchy : touchy.
Lemma signed_touchy m s : touchy (pack_signed C m s).
Proof. unfold pack_signed. destruct (did_or_url s) as [did key]. go. sec. go. Qed.
Lemma prior_pack_touchy p k : touchy (from_prior_pack C p k).
Proof. unfold from_prior_pack. go. sec. go. Qed.

Lemma panics_iff {X} (m : prog (res X)) tr x : touchy m -> safe calm m (fun r => r <> Panic) -> exec m tr x -> Forall quiet tr ->
  (x = Panic <-> exists kid s, held tr kid s /\ ~ long_enough s).
Proof.
  intros T S H Q. split.
  - intros ->. apply not_calm; auto. intros F. exact (safe_exec _ _ _ _ _ S H F eq_refl).
  - intros Sp. exact (T _ _ H Sp).
Qed.
Lemma unpack_iff fuel text o tr r : exec (unpack C fuel text o) tr (Some r) -> Forall quiet tr ->
  (r = Panic <-> exists kid s, held tr kid s /\ ~ long_enough s).
Proof.
  intros H Q. split.
  - intros ->. apply not_calm; auto. intros F. exact (safe_exec _ _ _ _ _ (loop_safe C fuel text o um_init) H F eq_refl).
  - intros S. destruct (loop_touchy _ _ _ _ _ _ H S) as [E|E]; congruence.
Qed.
End Panic.
