(** Proofs for the conditional forms of refuted claims. *)
From Verif.Model Require Import Prelude Base64 Base58 DidDoc Crypto Keys Effects Serde Jws Jwe Message FromPrior Pack Routing Unpack.
From Verif.Spec Require Import Small Events Panics World Packing Cond.
From Verif.Proofs Require Import Lib SmallP UnpackInv ApvP NoPanic RejectP UnpackFacts PackP RouteP.
From Coq Require Import Permutation.

(** ** Key ids in apv *)
Lemma starts_join k l : separable k -> exists r, join (B ".") (k :: l) = B "did:" ++ r.
Proof.
  intros ((r & ->) & _). destruct l as [|x l]; [exists r; reflexivity|]. rewrite join_cons by discriminate.
  rewrite <- app_assoc. eexists. reflexivity.
Qed.
(** Two ways to cut a text at a dot after which it goes on with [did:]. *)
Lemma cut_one a b r s : a ++ "."%char :: B "did:" ++ r = b ++ "."%char :: B "did:" ++ s -> separable a -> separable b -> a = b /\ r = s.
Proof.
  revert b. enough (H : forall a b, a ++ "."%char :: B "did:" ++ r = b ++ "."%char :: B "did:" ++ s ->
    (forall x y, a <> x ++ B ".did:" ++ y) -> (forall x y, b <> x ++ B ".did:" ++ y) -> a = b /\ r = s)
    by (intros b E [_ A] [_ Bs]; now apply H).
  clear a. induction a as [|c a IH]; intros [|d b] E A Bb; cbn [app] in E.
  - change (("."%char :: B "did:") ++ r = ("."%char :: B "did:") ++ s) in E. apply app_inv_head in E. auto.
  - exfalso. injection E as <- E. change (B "did:" ++ r = b ++ "."%char :: B "did:" ++ s) in E.
    repeat (destruct b as [|? b]; [discriminate E|]; cbn [app] in E; injection E as <- E).
    apply (Bb [] b). reflexivity.
  - exfalso. injection E as -> E. change (a ++ "."%char :: B "did:" ++ r = B "did:" ++ s) in E.
    repeat (destruct a as [|? a]; [discriminate E|]; cbn [app] in E; injection E as -> E).
    apply (A [] a). reflexivity.
  - injection E as -> E. destruct (IH b E) as [-> ->]; auto.
    + intros x y ->. apply (A (d :: x) y). reflexivity.
    + intros x y ->. apply (Bb (d :: x) y). reflexivity.
Qed.
Lemma join_sep l : forall l', Forall separable l -> Forall separable l' -> l <> [] -> l' <> [] ->
  join (B ".") l = join (B ".") l' -> l = l'.
Proof.
  assert (X : forall k k' x m, separable k -> separable k' -> separable x -> join (B ".") [k] = join (B ".") (k' :: x :: m) -> False).
  { intros k k' x m (_ & K) _ Sx E. rewrite join_one, (join_cons k' (x :: m)) in E by discriminate.
    destruct (starts_join x m Sx) as (r & R). rewrite R in E. apply (K k' r). exact E. }
  induction l as [|k l IH]; intros l' F F' N N' E; [congruence|]. destruct l' as [|k' l']; [congruence|].
  inversion F as [|? ? Hk Fl]; subst. inversion F' as [|? ? Hk' Fl']; subst.
  destruct l as [|x l], l' as [|x' l'].
  - cbn in E. now subst.
  - inversion Fl'; subst. now apply X in E.
  - inversion Fl; subst. symmetry in E. now apply X in E.
  - rewrite (join_cons k), (join_cons k') in E by discriminate. inversion Fl; subst. inversion Fl'; subst.
    destruct (starts_join x l) as (r & R); auto. destruct (starts_join x' l') as (r' & R'); auto. rewrite R, R' in E.
    apply cut_one in E as [-> ->]; auto. f_equal. apply IH; auto; try discriminate. congruence.
Qed.
Lemma apv_separable C k1 k2 apv : k1 <> [] -> k2 <> [] -> Forall separable k1 -> Forall separable k2 ->
  apv_for C k1 apv -> apv_for C k2 apv -> Permutation k1 k2 \/ exists x y, x <> y /\ sha256 C x = sha256 C y.
Proof.
  intros N1 N2 F1 F2 (l1 & P1 & S1 & E1) (l2 & P2 & S2 & E2).
  destruct (list_eq_dec ascii_dec (join (B ".") l1) (join (B ".") l2)) as [J|J].
  - left. assert (l1 = l2).
    { apply join_sep; auto.
      - eapply Permutation_Forall; [symmetry; exact P1|auto].
      - eapply Permutation_Forall; [symmetry; exact P2|auto].
      - intros ->. apply Permutation_nil in P1. auto.
      - intros ->. apply Permutation_nil in P2. auto. }
    subst. now rewrite <- P1, P2.
  - right. exists (join (B ".") l1), (join (B ".") l2). split; auto. congruence.
Qed.

(** ** A rotation token has one reading *)
Lemma dot_cut a b x y : ~ In "."%char a -> ~ In "."%char b -> a ++ "."%char :: x = b ++ "."%char :: y -> a = b /\ x = y.
Proof.
  revert b; induction a as [|c a IH]; intros [|d b] Ha Hb E; cbn in *.
  - injection E as ->. auto.
  - injection E as <- _. exfalso; auto.
  - injection E as -> _. exfalso; auto.
  - injection E as -> E. apply IH in E as [-> ->]; auto.
Qed.
Lemma rotation_one C tr tr' jwt p kid p' kid' : rotation_by C tr jwt p kid -> rotation_by C tr' jwt p' kid' -> p = p' /\ kid = kid'.
Proof.
  intros (hd & pl & sg & hb & h & did & doc & ka & k & st & sa & s & payload & -> & D1 & D2 & D3 & H1 & H2 & _ & K & _ & _ & _ & _ & _ & _ & P1 & _ & P2)
    (hd' & pl' & sg' & hb' & h' & did' & doc' & ka' & k' & st' & sa' & s' & payload' & E & D1' & D2' & D3' & H1' & H2' & _ & K' & _ & _ & _ & _ & _ & _ & P1' & _ & P2').
  apply dot_cut in E as [-> E]; auto. apply dot_cut in E as [-> ->]; auto.
  rewrite H1 in H1'. injection H1' as <-. rewrite H2 in H2'. injection H2' as <-. rewrite P1 in P1'. injection P1' as <-.
  rewrite P2 in P2'. injection P2' as <-. subst. auto.
Qed.
Lemma packed_rotation C fuel text o tr m md p kid tr' : exec (unpack C fuel text o) tr (Some (Ok (m, md))) ->
  um_from_prior md = Some p -> um_from_prior_issuer_kid md = Some kid -> rotation_ok C tr' m ->
  url_of (fp_iss p) kid /\ fp_iss p <> fp_sub p /\ forall f, msg_from m = Some f -> f = fp_sub p.
Proof.
  intros H P K R. apply unpack_inv in H as (rew & anon & auth & sign & prior & t1 & t2 & t3 & O & _ & _ & _ & _ & Pr & ->). cbn in P, K.
  destruct prior as [[p0 k0]|]; cbn in P, K; [|discriminate]. injection P as ->. injection K as ->.
  destruct Pr as (jwt & J & Pr). destruct (R jwt J) as (p1 & k1 & R1 & _ & _ & _ & _ & N & U & F).
  destruct (rotation_one _ _ _ _ _ _ _ _ Pr R1) as [-> ->]. auto.
Qed.

(** ** Not re-wrapped *)
Lemma own_envelope C fuel text o tr m md : exec (unpack C fuel text o) tr (Some (Ok (m, md))) -> um_re_wrapped md = false ->
  (um_anonymous_sender md = true <-> exists j h, envelope C text j h /\ ph_alg h = EcdhEsA256kw)
  /\ (forall j h, envelope C text j h -> ph_alg h = EcdhEsA256kw \/ ph_alg h = Ecdh1puA256kw -> um_encrypted md = true /\ um_encrypted_to_kids md = Some (recipient_kids j))
  /\ (um_encrypted md = true -> exists j h, envelope C text j h)
  /\ (forall j h, envelope C text j h -> ph_alg h = EcdhEsA256kw -> exists ce alg, enc_of (ph_enc h) ce alg /\ um_enc_alg_anon md = Some alg).
Proof.
  intros H R. apply unpack_inv in H as (rew & anon & auth & sign & prior & t1 & t2 & t3 & O & A & _ & _ & _ & _ & ->). cbn in R |- *. subst rew.
  remember false as rew eqn:Er in O. destruct O as [text N|text j alg pt An _|? ? ? ? ? ? ? ? ? ? ? ? ? ? ? ?]; [| |discriminate].
  - cbn [is_some option_map orb].
    assert (NE : forall j h, envelope C text j h -> ph_alg h <> EcdhEsA256kw).
    { intros j h (E & hb & Hb & Hh). destruct N as [N|(j' & h' & E' & N)]; [congruence|].
      destruct (envelope_fun C _ _ _ _ _ (conj E (ex_intro _ hb (conj Hb Hh))) E') as [-> ->]. exact N. }
    split; [split; [discriminate|intros (j & h & E & Q); destruct (NE j h E Q)]|].
    split; [|split].
    + intros j h E Q. destruct auth as [[kids from]|].
      * destruct A as (j' & (h' & ? & ? & ? & ? & ? & ? & E' & _) & ->). destruct (envelope_fun C _ _ _ _ _ E E') as [-> ->]. auto.
      * exfalso. destruct A as [_ [A|(j' & h' & E' & A)]]; [destruct E; congruence|].
        destruct (envelope_fun C _ _ _ _ _ E E') as [-> ->]. destruct Q as [Q|Q]; [exact (NE _ _ E Q)|exact (A Q)].
    + intros Q. destruct auth as [[kids from]|]; [|discriminate]. destruct A as (j' & (h' & ? & ? & ? & ? & ? & ? & E' & _) & ->). eauto.
    + intros j h E Q. destruct (NE j h E Q).
  - destruct An as (h & apv & found & ce & E & Q & Ec & _). cbn [is_some option_map orb fst snd].
    split; [split; eauto|]. split; [|split].
    + intros j' h' E' _. destruct (envelope_fun C _ _ _ _ _ E E') as [-> ->]. auto.
    + eauto.
    + intros j' h' E' _. destruct (envelope_fun C _ _ _ _ _ E E') as [-> ->]. eauto.
Qed.

(** ** Secrets that are too short *)
Lemma long_dec s : long_enough s \/ ~ long_enough s.
Proof.
  unfold long_enough. destruct (sec_type s), (sec_material s) as [v|t|t]; auto.
  - destruct (b58dec t) as [d|] eqn:D; [|left; discriminate]. destruct (le_dec 32 (List.length d)) as [L|L].
    + left. intros d' E. now injection E as <-.
    + right. intros H. apply L, H. reflexivity.
  - destruct t as [|c u]; [left; discriminate|]. destruct (ascii_dec c "z") as [->|Nz]; [|left; intros u' d' E; injection E; intros; congruence].
    destruct (b58dec u) as [d|] eqn:D; [|left; intros u' d' E E'; injection E as <-; congruence].
    destruct (le_dec 34 (List.length d)) as [L|L]; [left; intros u' d' E E' _; injection E as <-; rewrite D in E'; now injection E' as <-|].
    destruct (varint_dec 5 d) as [n|] eqn:V.
    + destruct (N.eq_dec n 0x1300) as [->|Nn].
      * right. intros H. apply L, (H u d); auto. now apply varint_starts.
      * left. intros u' d' E E' W. injection E as <-. rewrite D in E'. injection E' as <-. apply varint_starts in W. congruence.
    + left. intros u' d' E E' W. injection E as <-. rewrite D in E'. injection E' as <-. apply varint_starts in W. congruence.
Qed.
Lemma not_calm tr : Forall quiet tr -> ~ Forall calm tr -> exists kid s, held tr kid s /\ ~ long_enough s.
Proof.
  induction tr as [|e tr IH]; intros Q N; [destruct N; constructor|]. inversion Q as [|? ? Qe Qt]; subst.
  assert (D : calm e \/ exists kid s, e = Ev (OGetSecret kid) (Ok (Some s)) /\ ~ long_enough s).
  { destruct e as [[d|ids|i|u] r]; cbn in Qe |- *; auto. destruct r as [[s|]|k|]; try (left; split; [auto|discriminate]).
    destruct (long_dec s) as [L|L]; [left; split; auto; intros s' E; injection E as <-; auto|right; eauto]. }
  destruct D as [D|(kid & s & -> & L)].
  - destruct IH as (kid & s & H & L); auto. exists kid, s. split; auto. right; exact H.
  - exists kid, s. split; auto. left; reflexivity.
Qed.

(** ** The sender key of a packed message *)
Lemma picked_In {A} (P : A -> Prop) l l' x : picked P l l' -> In x l' -> In x l.
Proof. induction 1; cbn; auto. intros [->|I]; auto. Qed.
Lemma sender_did C dir own m to from sign_by po tr text pm did fkid : directory dir ->
  exec (pack_encrypted C m to (Some from) sign_by po) tr (Ok (text, pm)) -> Forall (answers dir own) tr ->
  msg_from m = Some did -> pm_from_kid pm = Some fkid -> url_of did fkid.
Proof.
  intros D H A Fr K.
  assert (NR : ~ refused m to (Some from) sign_by) by (intros R; apply pack_refuses in H as [H _]; destruct (H R); discriminate).
  apply auth_chooses in H as (tdid & doc & fdid & fdoc & asked & found & fk & sec & sk & ka & rs & _ & _ & _ & _ & _ & _ & _ & _ & _ & _ & Df & _ & Rf & Fs & W & K' & Ks & _).
  rewrite K in K'. injection K' as <-. rewrite Forall_forall in A. apply A in Rf. apply A in Fs. cbn in Rf, Fs.
  injection Rf as Rf. symmetry in Rf. destruct Fs as (found' & Ef & Hf). injection Ef as <-.
  destruct Ks as (all & _ & (l1 & l2 & -> & _) & _). assert (I : In fkid asked) by (apply Hf; apply in_or_app; right; now left).
  assert (I' : In fkid (doc_key_agreement fdoc)) by (destruct W as [[_ W]|[_ ->]]; [eapply picked_In; eauto|auto]).
  assert (E : did = fdid).
  { destruct (bytes_eq_dec did fdid) as [E|E]; [exact E|]. exfalso. apply NR. do 4 right. exists from, fdid, did. auto. }
  subst fdid. apply (D did fdoc Rf). apply in_or_app. now left.
Qed.
