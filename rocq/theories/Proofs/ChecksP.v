(** Checks that unpack leaves to its caller. *)
From Verif.Model Require Import Prelude Utf8 Base64 Json Serde DidDoc Crypto Keys Effects Jws Jwe Message FromPrior Pack Routing Unpack.
From Verif.Spec Require Import Small Codec Events World Text Packing.
From Verif.Proofs Require Import Lib CodecP SmallP Wp NoPanic UnpackInv UnpackFacts WorldP SealP RoundP PackP RouteP CondP RejectP.

Lemma wanted_In to l kids k : wanted to l kids -> In k kids -> In k l.
Proof. intros [[_ W]|[_ ->]] I; auto. eapply picked_In; eauto. Qed.
Lemma addressed C dir own m to from sign_by po tr text pm l kid : directory dir ->
  exec (pack_encrypted C m to from sign_by po) tr (Ok (text, pm)) -> Forall (answers dir own) tr ->
  msg_to m = Some l -> In kid (pm_to_kids pm) -> exists did, In did l /\ url_of did kid.
Proof.
  intros D H A To I.
  assert (NR : ~ refused m to from sign_by) by (intros R; apply pack_refuses in H as [H _]; destruct (H R); discriminate).
  assert (Q : exists did doc, did_part to did /\ In (Ev (OResolve did) (Ok (Some doc))) tr /\ In kid (doc_key_agreement doc)).
  { destruct from as [f|].
    - apply auth_chooses in H as (did & doc & fdid & fdoc & asked & found & fk & sec & sk & ka & rs & _ & _ & _ & _ & _ & _ & _ & _ & _ & DP & _ & R & _ & _ & _ & _ & K & _).
      destruct K as (all & W & _ & _ & _ & PK & _). exists did, doc. split; [auto|]. split; [auto|]. eapply wanted_In; eauto. eapply picked_In; eauto.
    - apply anon_chooses in H as (did & doc & ka & rs & ce & enc & e1 & e2 & e3 & pt & ct & tag & text1 & ds & DP & R & K & _).
      destruct K as (all & k0 & W & _ & _ & _ & PK & _). exists did, doc. split; [auto|]. split; [auto|]. eapply wanted_In; eauto. eapply picked_In; eauto. }
  destruct Q as (did & doc & DP & R & K). rewrite Forall_forall in A. apply A in R. cbn in R. injection R as R. symmetry in R.
  exists did. split.
  - destruct (in_dec bytes_eq_dec did l) as [J|J]; [exact J|]. exfalso. apply NR. do 3 right. left. exists did, l. auto.
  - apply (D did doc R). apply in_or_app. now left.
Qed.
Lemma url_of_one did did' url : url_of did url -> url_of did' url -> did = did'.
Proof.
  intros (f & -> & N) (f' & E & N'). revert did' E N'. induction did as [|x d IH]; intros [|y d'] E N'; cbn in E; auto.
  - injection E as <- _. exfalso. apply N'. now left.
  - injection E as -> _. exfalso. apply N. now left.
  - injection E as -> E. f_equal. apply (IH (fun I => N (or_intror I)) d' E). intros I. apply N'. now right.
Qed.

Section Epk.
Context (C : crypto).
Hypothesis Checks : forall a v k, from_jwk C a v = Some k -> jwk_alg v = a.
Notation epk_held tr j h := (exists kid sec k, In kid (recipient_kids j) /\ held tr kid sec /\ sec_key_pair C sec = Ok (jwk_alg (ph_epk h), k)).
Lemma opened_epk ce ka j h sender kid k t : opened C ce ka j h sender kid k t -> In kid (recipient_kids j) /\ jwk_alg (ph_epk h) = ka.
Proof.
  intros (cek & iv & ct & tag & (rc & ek & epk & apv & tg & kw & c & F & _ & E & _) & _). split; [|eapply Checks; eauto].
  destruct F as (l1 & l2 & E1 & <- & _). unfold recipient_kids. rewrite E1, map_app. apply in_or_app. right. now left.
Qed.
Lemma anon_epk tr all text j alg pt j' h : anon_opened C tr all text j alg pt -> envelope C text j' h -> ph_alg h = EcdhEsA256kw /\ epk_held tr j' h.
Proof.
  intros (h' & apv & found & ce & E & A & _ & _ & _ & _ & _ & _ & _ & T) E'. destruct (envelope_fun C _ _ _ _ _ E E') as [-> ->]. split; [exact A|].
  unfold tried in T. destruct all; [destruct T as (l & kid & _ & (sec & ka & k & H & K & _ & O) & _)|destruct T as (kid & l & _ & (sec & ka & k & H & K & _ & O))];
    apply opened_epk in O as [I <-]; exists kid, sec, k; auto.
Qed.
Lemma epk_checked fuel text o tr m md j h : exec (unpack C fuel text o) tr (Some (Ok (m, md))) -> envelope C text j h ->
  ph_alg h = EcdhEsA256kw \/ ph_alg h = Ecdh1puA256kw -> epk_held tr j h.
Proof.
  intros H E A. apply unpack_inv in H as (rew & anon & auth & sign & prior & t1 & t2 & t3 & O & Au & _).
  destruct O as [text N|text j' alg pt An _|text j' alg pt next v kid found rew last text' An _ _ _ _].
  - destruct N as [N|(j' & h' & E' & N)]; [destruct E as [E _]; congruence|]. destruct (envelope_fun C _ _ _ _ _ E E') as [<- <-].
    destruct A as [A|A]; [contradiction|]. destruct auth as [[kids from]|].
    + destruct Au as (j' & (h' & apv & fo & did & doc & ka & fk & E2 & _ & _ & _ & _ & _ & _ & _ & _ & _ & _ & _ & _ & _ & T) & _).
      destruct (envelope_fun C _ _ _ _ _ E E2) as [<- <-]. unfold tried in T.
      destruct (uo_all_keys o); [destruct T as (l & kid & _ & (sec & ka' & k & H & K & -> & O) & _)|destruct T as (kid & l & _ & (sec & ka' & k & H & K & -> & O))];
        apply opened_epk in O as [I <-]; exists kid, sec, k; auto.
    + destruct Au as [_ [N2|(j' & h' & E2 & N2)]]; [destruct E as [E _]; congruence|]. destruct (envelope_fun C _ _ _ _ _ E E2) as [<- <-]. contradiction.
  - exact (proj2 (anon_epk _ _ _ _ _ _ _ _ An E)).
  - exact (proj2 (anon_epk _ _ _ _ _ _ _ _ An E)).
Qed.
End Epk.
