(** Envelopes that unpack refuses without asking anybody, or without touching secrets. *)
From Verif.Model Require Import Prelude Utf8 Base64 Json Serde DidDoc Crypto Keys Effects Jws Jwe Message FromPrior Pack Routing Unpack.
From Verif.Spec Require Import Small Events.
From Verif.Proofs Require Import Lib SmallP Wp UnpackInv UnpackP.
From Coq Require Import Permutation.

Section Reject.
Context (C : crypto).

Lemma parse_of text j h : envelope C text j h ->
  jwe_parse C j = Err Malformed
  \/ exists apv apu, b64dec (ph_apv h) = Some apv /\ announces h apu /\ jwe_parse C j = Ok (mkPJ j h apu apv).
Proof.
  intros (_ & hb & Hb & Hh). unfold jwe_parse. rewrite Hb. cbn [ok_or rbind]. rewrite Hh. cbn [rbind].
  destruct (b64dec (ph_apv h)) as [apv|] eqn:Ev; cbn [ok_or rbind]; [|auto].
  destruct (ph_apu h) as [t|] eqn:Eu; cbn [rbind].
  - destruct (b64dec t) as [a|] eqn:Ea; cbn [ok_or rbind]; [|auto]. right. exists apv, (Some a). unfold announces. rewrite Eu. auto.
  - right. exists apv, None. unfold announces. rewrite Eu. auto.
Qed.
Lemma announces_fun h a b : announces h a -> announces h b -> a = b.
Proof. unfold announces. destruct (ph_apu h), a, b; intros; try easy; congruence. Qed.
Lemma envelope_fun text j h j' h' : envelope C text j h -> envelope C text j' h' -> j = j' /\ h = h'.
Proof.
  intros (E & hb & Hb & Hh) (E' & hb' & Hb' & Hh'). rewrite E in E'. injection E' as <-. rewrite Hb in Hb'. injection Hb' as <-.
  rewrite Hh in Hh'. injection Hh' as <-. auto.
Qed.
Lemma verify_spec p : verify_didcomm C p =
  if beq (pj_apv p) (apv_of C (recipient_kids (pj_jwe p)))
     && match pj_apu p, ph_skid (pj_protected p) with
        | Some apu, Some skid => utf8 apu && beq apu skid
        | Some apu, None => utf8 apu
        | None, Some _ => false
        | None, None => true
        end
  then Ok p else Err Malformed.
Proof.
  unfold verify_didcomm, recipient_kids. destruct (beq _ _); cbn [negb andb]; auto.
  destruct (pj_apu p) as [a|], (ph_skid _) as [s|]; auto; destruct (utf8 a); cbn; auto. destruct (beq a s); auto.
Qed.

(** What an ECDH-ES envelope must satisfy before secrets are asked for. *)
Definition es_fine (j : jwe) (h : jwe_header) : Prop :=
  (exists apv, b64dec (ph_apv h) = Some apv /\ apv_for C (recipient_kids j) apv)
  /\ (exists apu, announces h apu /\ match apu, ph_skid h with
                                     | Some a, Some s => utf8 a = true /\ a = s
                                     | Some a, None => utf8 a = true
                                     | None, Some _ => False
                                     | None, None => True end)
  /\ one_did (recipient_kids j).
Lemma es_reject text j h o md : envelope C text j h -> ph_alg h = EcdhEsA256kw -> ~ es_fine j h ->
  try_anoncrypt C text o md = Ret (Err Malformed).
Proof.
  intros E A N. destruct (parse_of _ _ _ E) as [P|(apv & apu & Ev & Eu & P)]; unfold try_anoncrypt; destruct E as (E & _); rewrite E; cbn [soft pbind bind]; rewrite P; cbn [pbind bind]; auto.
  cbn [pj_protected]. rewrite A. rewrite verify_spec. cbn [pj_apv pj_apu pj_jwe pj_protected].
  destruct (_ && _) eqn:V; [|reflexivity]. cbn [pbind bind]. apply andb_true_iff in V as [V1 V2].
  rewrite check_recipients_bad; [reflexivity|]. intros O. apply N. split; [|split; auto].
  - exists apv. split; auto. apply apv_for_spec. now apply beq_eq in V1.
  - exists apu. split; auto. destruct apu as [a|], (ph_skid h) as [s|]; auto; try easy. apply andb_true_iff in V2 as [U V2]. apply beq_eq in V2. auto.
Qed.
Lemma es_unpack text j h o fuel tr x : envelope C text j h -> ph_alg h = EcdhEsA256kw -> ~ es_fine j h ->
  exec (unpack C (S fuel) text o) tr x -> tr = [] /\ x = Some (Err Malformed).
Proof. intros E A N H. unfold unpack in H. cbn [unpack_loop] in H. rewrite (es_reject _ _ _ _ _ E A N) in H. exact H. Qed.

(** What an ECDH-1PU envelope must satisfy before anybody is asked. *)
Definition pu_fine (j : jwe) (h : jwe_header) : Prop :=
  (exists apv, b64dec (ph_apv h) = Some apv /\ apv_for C (recipient_kids j) apv)
  /\ exists apu did, announces h (Some apu) /\ utf8 apu = true /\ (ph_skid h = None \/ ph_skid h = Some apu) /\ url_of did apu.
Lemma pu_anon text j h o md : envelope C text j h -> ph_alg h = Ecdh1puA256kw ->
  try_anoncrypt C text o md = Ret (Err Malformed) /\ jwe_parse C j = Err Malformed
  \/ try_anoncrypt C text o md = Ret (Ok None) /\ exists apv apu, b64dec (ph_apv h) = Some apv /\ announces h apu /\ jwe_parse C j = Ok (mkPJ j h apu apv).
Proof.
  intros E A. destruct (parse_of _ _ _ E) as [P|(apv & apu & Ev & Eu & P)]; unfold try_anoncrypt; destruct E as (E & _); rewrite E; cbn [soft pbind bind]; rewrite P; cbn [pbind bind]; auto.
  right. cbn [pj_protected]. rewrite A. eauto 8.
Qed.
Lemma pu_reject text j h o md apv apu : envelope C text j h -> ph_alg h = Ecdh1puA256kw -> ~ pu_fine j h ->
  b64dec (ph_apv h) = Some apv -> announces h apu -> jwe_parse C j = Ok (mkPJ j h apu apv) ->
  try_authcrypt C text o md = Ret (Err Malformed).
Proof.
  intros (E & _) A N Ev Eu P. unfold try_authcrypt. rewrite E. cbn [soft pbind bind]. rewrite P. cbn [pbind bind pj_protected]. rewrite A.
  rewrite verify_spec. cbn [pj_apv pj_apu pj_jwe pj_protected].
  destruct (_ && _) eqn:V; [|reflexivity]. cbn [pbind bind pj_apu]. apply andb_true_iff in V as [V1 V2].
  destruct apu as [a|]; [|reflexivity]. cbn [ok_or bind]. assert (U : utf8 a = true) by (destruct (ph_skid h); [now apply andb_true_iff in V2|auto]).
  rewrite U. cbn [negb]. destruct (did_or_url_cases a) as [(d & D)|D]; rewrite D; cbn [is_some negb]; [|reflexivity].
  exfalso. apply N. split.
  - exists apv. split; auto. apply apv_for_spec. now apply beq_eq in V1.
  - exists a, d. split; auto. split; auto. split; [|now apply url_of_some]. destruct (ph_skid h) as [s|]; auto. right. apply andb_true_iff in V2 as [_ V2]. apply beq_eq in V2. now subst.
Qed.
Lemma pu_unpack text j h o fuel tr x : envelope C text j h -> ph_alg h = Ecdh1puA256kw -> ~ pu_fine j h ->
  exec (unpack C (S fuel) text o) tr x -> tr = [] /\ x = Some (Err Malformed).
Proof.
  intros E A N H. unfold unpack in H. cbn [unpack_loop] in H. destruct (pu_anon _ _ _ o um_init E A) as [(T & _)|(T & apv & apu & Ev & Eu & P)]; rewrite T in H; [exact H|].
  cbn [bind] in H. unfold unpack_rest in H. rewrite (pu_reject _ _ _ _ _ _ _ E A N Ev Eu P) in H. exact H.
Qed.

(** An authcrypt envelope for no single DID: no secret is asked for. *)
Lemma pu_dids text j h o fuel tr x : envelope C text j h -> ph_alg h = Ecdh1puA256kw -> ~ one_did (recipient_kids j) ->
  exec (unpack C (S fuel) text o) tr x -> Forall (fun e => ~ secret_call e) tr /\ forall m md, x <> Some (Ok (m, md)).
Proof.
  intros E A N H. unfold unpack in H. cbn [unpack_loop] in H. destruct (pu_anon _ _ _ o um_init E A) as [(T & _)|(T & apv & apu & Ev & Eu & P)]; rewrite T in H.
  - destruct H as [-> ->]. split; [constructor|discriminate].
  - cbn [bind] in H.
    assert (W : wp (fun _ => True) (fun _ o => match o with OFindSecrets _ | OGetSecret _ => False | _ => True end) [] (try_authcrypt C text o um_init) (fun _ r => match r with Ok _ => False | _ => True end)).
    { clear H T. destruct E as (E & E2). unfold try_authcrypt. rewrite E. cbn [soft pbind bind]. rewrite P. cbn [pbind bind pj_protected]. rewrite A.
      wstep; try exact I. wstep; try exact I. wstep; try exact I. destruct (did_or_url a0) as [did url]. wstep; try exact I. wstep; try exact I. do 4 (wstep; try exact I).
      rewrite check_recipients_bad by auto. exact I. }
    unfold unpack_rest in H. apply (wp_exec (fun _ => True) (fun _ o => match o with OFindSecrets _ | OGetSecret _ => False | _ => True end) []) with (Q := fun _ r => forall m md, r <> Some (Ok (m, md))) in H.
    + destruct H as [H1 H2]. split; auto. apply Forall_forall. intros e I. apply in_split in I as (t1 & t2 & ->). destruct e as [op r]. specialize (H2 t1 op r t2 eq_refl). destruct op; cbn; auto.
    + rewrite wp_bind. rewrite wp_pbind. eapply wp_mono; [|exact W]. intros h' [a|e|]; cbn; try easy; discriminate.
    + now apply Forall_forall.
Qed.
End Reject.
