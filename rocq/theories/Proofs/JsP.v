(** Proofs about whole exchanges between JavaScript programs (C83) and about JSON values
    in uniffi (C84). *)
From Verif.Model Require Import Prelude Utf8 Base64 Json Serde DidDoc Crypto Keys Effects Jws Jwe Message FromPrior Pack Routing Unpack Bindings DocJson.
From Verif.Spec Require Import Codec Small Events World Text Sane Wire Doc Js.
From Verif.Proofs Require Import Lib SealP JsonP JsonDec CodecP SaneP RoundP WireP ReadP DocP DocE.

(** Resolvers in JavaScript are resolvers. *)
Lemma says_answers fp docs secs dir own e : describes fp doc_read docs dir -> describes fp secret_read secs own ->
  js_says fp docs secs e -> answers dir own e.
Proof.
  intros D S H. destruct e as [[did|ids|i|u] r]; cbn [js_says answers] in H |- *; auto.
  - destruct (D did) as [T E]. subst r. destruct (resolve_answer fp _ T) as [[N ->]|[(d & R & ->)|(N & R & _)]].
    + destruct (dir did) as [d|]; auto. rewrite N in E. exfalso. destruct E as [E _]. apply req_other in E as [[l X]|(vs & X & _)]; discriminate X.
    + destruct (dir did) as [d'|]; [|rewrite E in R; exfalso; destruct R as [R _]; apply req_other in R as [[l X]|(vs & X & _)]; discriminate X].
      now rewrite (doc_read_fun fp _ _ _ T R E).
    + exfalso. destruct (dir did) as [d|]; [exact (R d E)|exact (N E)].
  - destruct H as (l & -> & H). cbn [js_find_secrets]. eexists. split; [reflexivity|]. intros i. rewrite filter_In.
    assert (Q : secs i <> VNull <-> exists s, own i = Some s).
    { destruct (S i) as [_ E]. destruct (own i) as [s|]; [|split; [congruence|intros (s & X); discriminate]].
      split; [eauto|]. intros _ X. rewrite X in E. destruct E as [[o E] _]. discriminate E. }
    rewrite <- Q. split; intros [I F]; (split; [exact I|]).
    + apply H; auto. apply existsb_exists in F as (x & F & E). apply beq_eq in E. subst x. apply in_flat_map in F as ([x|] & F & X); cbn in X; [|tauto].
      destruct X as [<-|[]]. exact F.
    + apply existsb_exists. exists i. split; [|apply beq_refl]. apply in_flat_map. exists (Some i). split; [now apply H|now left].
  - destruct (S i) as [T E]. subst r. destruct (secret_answer fp _ T) as [[N ->]|[(d & R & ->)|(N & R & _)]].
    + destruct (own i) as [d|]; auto. rewrite N in E. exfalso. destruct E as [[l X] _]. discriminate X.
    + destruct (own i) as [d'|]; [|rewrite E in R; exfalso; destruct R as [[l X] _]; discriminate X].
      now rewrite (secret_read_fun fp _ _ _ T R E).
    + exfalso. destruct (own i) as [d|]; [exact (R d E)|exact (N E)].
Qed.
Lemma says_all fp docs secs dir own tr : describes fp doc_read docs dir -> describes fp secret_read secs own ->
  Forall (js_says fp docs secs) tr -> Forall (answers dir own) tr.
Proof. intros D S. apply Forall_impl. intros e. now apply says_answers. Qed.

Lemma js_read_fits C s m : floats_stable (fparse C) -> js_message_new (fparse C) s = Ok m ->
  msg_typ m = B "application/didcomm-plain+json" -> no_imitation m -> message_fits C m.
Proof.
  intros F H T N. unfold js_message_new, kind in H. destruct (message_from_str (fparse C) s) as [m'|k|] eqn:E; try discriminate.
  apply Ok_inj in H. subst m'. apply sane_fits; auto. eapply read_sane; eauto.
Qed.

Section Js.
Context (C : crypto) (pair : kalg -> key C -> key C -> Prop) (LAW : lawful C pair) (FS : floats_stable (fparse C)).
Context (docs : bytes -> value) (dir : bytes -> option diddoc) (DE : describes (fparse C) doc_read docs dir) (DIR : directory dir).
Context (secs secs' : bytes -> value) (own own' : bytes -> option secret).
Context (DS : describes (fparse C) secret_read secs own) (DS' : describes (fparse C) secret_read secs' own').
Context (SM : secrets_match C pair dir own) (SM' : secrets_match C pair dir own').

Lemma js_round s m to from sign_by popts tr text shown uopts o fuel tr' x :
  js_message_new (fparse C) s = Ok m -> msg_typ m = B "application/didcomm-plain+json" -> no_imitation m ->
  exec (js_pack_encrypted C m to from sign_by popts) tr (Ok (text, shown)) -> Forall (js_says (fparse C) docs secs) tr ->
  (forall w pm, shown = print w -> packing_shown w pm -> pm_service pm = None /\ holds_one own' (pm_to_kids pm)) ->
  js_unpack_options uopts = Ok o -> (from = None -> sign_by = None -> kept dir own' o m) ->
  exec (js_unpack C (S fuel) text uopts) tr' x -> Forall (js_says (fparse C) docs secs') tr' ->
  exists w pm w' md, shown = print w /\ packing_shown w pm /\ x = Some (Ok (m, print w')) /\ metadata_shown w' md
    /\ um_encrypted md = true /\ um_encrypted_to_kids md = Some (pm_to_kids pm) /\ um_re_wrapped md = false
    /\ um_encrypted_from_kid md = pm_from_kid pm /\ um_sign_from md = pm_sign_by_kid pm
    /\ (from = None <-> pm_from_kid pm = None) /\ (sign_by = None <-> pm_sign_by_kid pm = None).
Proof.
  intros R T N P F HO UO KE X F'. pose proof (js_read_fits C s m FS R T N) as MF.
  apply (says_all _ _ _ _ _ _ DE DS) in F. apply (says_all _ _ _ _ _ _ DE DS') in F'.
  apply js_pack_exec in P. destruct (js_pack_options (fparse C) popts) as [po|k|]; [|destruct P; discriminate..].
  destruct P as ([[t pm]|k|] & P & E); try discriminate. apply Ok_inj, pair_equal_spec in E as [<- ->].
  destruct (HO _ pm eq_refl (packing_written pm)) as [NS HL].
  apply js_unpack_exec in X. rewrite UO in X. destruct X as (y & X & EX).
  exists (pack_metadata_tree pm), pm.
  assert (SG : forall tr sign, signature_of C dir tr m sign_by sign -> (sign_by = None <-> option_map (fun s => fst (fst s)) sign = None)).
  { intros tr0 sign Q. unfold signature_of in Q. destruct sign_by, sign as [[[? ?] ?]|]; cbn; try tauto; split; discriminate. }
  destruct from as [from|].
  - destruct (auth_round C pair LAW dir DIR own own' m to from sign_by po tr text pm fuel o tr' y SM SM' MF P F NS HL X F')
      as (prior & sign & fkid & _ & SI & K1 & K2 & ->).
    eexists (unpack_metadata_tree _), _. split; [reflexivity|]. split; [apply packing_written|]. split; [exact EX|]. split; [apply metadata_written|].
    rewrite K1, K2. cbn. split; [destruct (po_protect_sender po); reflexivity|]. split; [destruct (po_protect_sender po); reflexivity|].
    split; [reflexivity|]. split; [reflexivity|]. split; [destruct sign as [[[? ?] ?]|]; reflexivity|]. split; [split; discriminate|]. exact (SG _ _ SI).
  - destruct (anon_round C pair LAW dir DIR own own' m to sign_by po tr text pm fuel o tr' y SM SM' MF P F NS HL (KE eq_refl) X F')
      as (prior & sign & _ & SI & K1 & K2 & ->).
    eexists (unpack_metadata_tree _), _. split; [reflexivity|]. split; [apply packing_written|]. split; [exact EX|]. split; [apply metadata_written|].
    rewrite K1, K2. cbn. split; [reflexivity|]. split; [reflexivity|].
    split; [reflexivity|]. split; [reflexivity|]. split; [destruct sign as [[[? ?] ?]|]; reflexivity|]. split; [split; auto|]. exact (SG _ _ SI).
Qed.

Lemma js_signed_round s m by_ tr text shown uopts o fuel tr' x :
  js_message_new (fparse C) s = Ok m -> msg_typ m = B "application/didcomm-plain+json" -> no_imitation m ->
  exec (js_pack_signed C m by_) tr (Ok (text, shown)) -> Forall (js_says (fparse C) docs secs) tr ->
  js_unpack_options uopts = Ok o ->
  exec (js_unpack C (S fuel) text uopts) tr' x -> Forall (js_says (fparse C) docs secs') tr' ->
  exists w kid w' md, shown = print w /\ req str_read 0 w 0 "sign_by_kid" kid /\ x = Some (Ok (m, print w')) /\ metadata_shown w' md
    /\ um_sign_from md = Some kid /\ um_non_repudiation md = true /\ um_encrypted md = false.
Proof.
  intros R T N P F UO X F'. pose proof (js_read_fits C s m FS R T N) as MF.
  apply (says_all _ _ _ _ _ _ DE DS) in F. apply (says_all _ _ _ _ _ _ DE DS') in F'.
  apply js_sign_exec in P as ([[t kid]|k|] & P & E); try discriminate. apply Ok_inj, pair_equal_spec in E as [<- ->].
  apply js_unpack_exec in X. rewrite UO in X. destruct X as (y & X & EX).
  destruct (signed_round C pair LAW dir DIR own own' m by_ tr text kid fuel o tr' y SM MF P F X F') as (prior & sa & _ & _ & ->).
  exists (VObj [(B "sign_by_kid", VStr kid)]), kid. eexists (unpack_metadata_tree _), _. split; [reflexivity|].
  split; [apply req_here; [intros []|reflexivity]|]. split; [exact EX|]. split; [apply metadata_written|]. repeat split.
Qed.

Lemma js_plain_round s m tr text uopts o fuel tr' x :
  js_message_new (fparse C) s = Ok m -> msg_typ m = B "application/didcomm-plain+json" -> no_imitation m ->
  exec (js_pack_plaintext C m) tr (Ok text) -> Forall (js_says (fparse C) docs secs) tr ->
  js_unpack_options uopts = Ok o ->
  exec (js_unpack C (S fuel) text uopts) tr' x -> Forall (js_says (fparse C) docs secs') tr' ->
  exists w' md, x = Some (Ok (m, print w')) /\ metadata_shown w' md /\ um_encrypted md = false /\ um_authenticated md = false.
Proof.
  intros R T N P F UO X F'. pose proof (js_read_fits C s m FS R T N) as MF.
  apply (says_all _ _ _ _ _ _ DE DS) in F. apply (says_all _ _ _ _ _ _ DE DS') in F'.
  apply js_unpack_exec in X. rewrite UO in X. destruct X as (y & X & EX).
  destruct (plaintext_round C dir own own' m tr text fuel o tr' y MF P F X F') as (prior & _ & ->).
  eexists (unpack_metadata_tree _), _. split; [exact EX|]. split; [apply metadata_written|]. repeat split.
Qed.

Lemma js_rotation_round s p ik tr jwt kid tr' x :
  js_from_prior_new C s = Ok p ->
  exec (js_from_prior_pack C p ik) tr (Ok (jwt, kid)) -> Forall (js_says (fparse C) docs secs) tr ->
  exec (js_from_prior_unpack C jwt) tr' x -> Forall (js_says (fparse C) docs secs') tr' -> x = Ok (p, kid).
Proof.
  intros R P F X F'. apply (says_all _ _ _ _ _ _ DE DS) in F. apply (says_all _ _ _ _ _ _ DE DS') in F'.
  assert (PF : prior_fits p).
  { unfold js_from_prior_new, kind in R. destruct (from_json (de_from_prior C) s) as [p'|k|] eqn:E; try discriminate. apply Ok_inj in R. subst p'.
    eapply prior_sane; eauto. }
  eapply (prior_round C pair LAW dir DIR own own'); eauto.
Qed.
End Js.

(** ** JSON values in uniffi *)
Lemma ffi_json_round fp v : json_value fp 127 v -> ffi_json_in fp (ffi_json_out v) = Ok v.
Proof. exact (json_lossless fp v). Qed.
Lemma value_deeper C v : forall d, json_value (fparse C) d v -> json_value (fparse C) (S d) v.
Proof.
  induction v as [| b | n | s | l IH | l IH] using value_ind'; intros d H; inversion H; subst; try (constructor; assumption); rewrite Forall_forall in IH.
  - constructor. auto.
  - constructor; auto. intros k x I. destruct (H3 k x I) as [U J]. split; auto. exact (IH _ I _ J).
Qed.
Lemma value_within C d e v : json_value (fparse C) d v -> d <= e -> json_value (fparse C) e v.
Proof. intros H L. induction L; auto using value_deeper. Qed.
Lemma value_shallow C v : forall d, json_value (fparse C) (S d) v -> ~ deep (S d) v -> json_value (fparse C) d v.
Proof.
  induction v as [| b | n | s | l IH | l IH] using value_ind'; intros d H D; inversion H; subst; try (constructor; assumption).
  - destruct d as [|d]; [exfalso; apply D; constructor|]. constructor. intros x I. rewrite Forall_forall in IH. apply IH; auto.
    intros X. apply D. econstructor; eauto.
  - destruct d as [|d]; [exfalso; apply D; constructor|]. rewrite Forall_forall in IH. constructor; auto. intros k x I.
    destruct (H3 k x I) as [U J]. split; auto. apply (IH _ I); auto. intros X. apply D. econstructor; eauto.
Qed.
Lemma read_value C s v : floats_stable (fparse C) -> ffi_json_in (fparse C) s = Ok v -> json_value (fparse C) 127 v.
Proof.
  intros F H. revert H. exact (from_json_reads _ _ _ _ (gives_value C F 127)).
Qed.
(** Every JSON value in a message that can be read crosses. *)
Lemma sane_json C m v : message_sane C m -> json_in m v -> json_value (fparse C) 127 v.
Proof.
  intros S I. destruct S as (_ & _ & _ & Hb & _ & _ & _ & _ & _ & _ & _ & Ha & _ & He). destruct I as [->|[(k & I)|(l & a & j & L & I & D)]].
  - now apply value_deeper.
  - apply value_deeper. now apply He in I.
  - specialize (Ha l L). rewrite Forall_forall in Ha. apply Ha in I. destruct I as [I _]. rewrite D in I. destruct I as [I _].
    apply (value_within C 123); auto.
Qed.
Lemma body_fits C m m' v : message_fits C m -> with_body v m m' -> json_value (fparse C) 126 v -> message_fits C m'.
Proof.
  intros F (E1 & E2 & E3 & E4 & E5 & E6 & E7 & E8 & E9 & E10 & E11 & E12 & E13) V. unfold message_fits in *.
  rewrite E1, E2, E3, E4, E5, E6, E7, E8, E9, E10, E11, E12, E13. tauto.
Qed.
