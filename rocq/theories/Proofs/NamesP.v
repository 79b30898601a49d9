(** Header names and key ids that break the envelope. *)
From Verif.Model Require Import Prelude Utf8 Base64 Json Serde DidDoc Crypto Keys Effects Jws Jwe Message FromPrior Pack Routing Unpack.
From Verif.Spec Require Import Small Codec Events World Packing Names.
From Verif.Proofs Require Import Lib Base64P JsonP JsonDec SerdeP CodecP SmallP TreeP Wp Errs NoPanic GarbageP UnpackInv UnpackFacts WorldP SealP RoundP PackP ForwardP.

Lemma escaped_plain s : escaped s -> plain s = false.
Proof.
  intros (c & I & H). unfold plain. apply negb_false_iff, existsb_exists. exists c. split; auto. unfold must_escape.
  destruct H as [H|[-> | ->]]; [|reflexivity|reflexivity]. apply N.ltb_lt in H. now rewrite H.
Qed.
Lemma de_borrowed_plain s a : de_borrowed (raw_of (VStr s)) = Ok a -> plain s = true.
Proof. unfold plain. cbn. destruct (existsb must_escape s); [discriminate|reflexivity]. Qed.
Lemma de_kid_plain k a : de_kid_header (raw_of (VObj [(B "kid", VStr k)])) = Ok a -> plain k = true.
Proof.
  unfold de_kid_header. rewrite raw_of_obj. cbn [mems map fst snd walk rd_str rbind]. kbeq. unfold once.
  intros H. destruct (de_borrowed (raw_of (VStr k))) eqn:E; [eapply de_borrowed_plain; eauto|discriminate|discriminate].
Qed.
Lemma de_recipient_plain r a : de_recipient (raw_of (recipient_tree r)) = Ok a -> plain (rc_kid r) = true.
Proof.
  unfold de_recipient, recipient_tree. rewrite raw_of_obj. cbn [mems map fst snd walk rd_str rbind]. kbeq. unfold once.
  intros H. destruct (de_kid_header _) eqn:E; [eapply de_kid_plain; eauto|discriminate|discriminate].
Qed.
Lemma de_sig_plain sg a : de_jws_sig (raw_of (jws_sig_tree sg)) = Ok a -> plain (sig_kid sg) = true.
Proof.
  unfold de_jws_sig, jws_sig_tree. rewrite raw_of_obj. cbn [mems map fst snd walk rd_str rbind]. kbeq. unfold once.
  intros H. destruct (de_kid_header _) eqn:E; [eapply de_kid_plain; eauto|discriminate|discriminate].
Qed.
Lemma de_vec_each {A B} (f : raw -> res A) (g : B -> value) l ys : de_vec f (raw_of (VArr (map g l))) = Ok ys ->
  forall b, In b l -> exists a, f (raw_of (g b)) = Ok a.
Proof.
  cbn [raw_of de_vec]. rewrite map_map. intros H b I. apply rbind_Ok in H as (xs & H & _). apply rmap_Ok in H.
  assert (I' : In (raw_of (g b)) (map (fun x => raw_of (g x)) l)) by now apply (in_map (fun x => raw_of (g x))).
  destruct (F2_In_l _ _ _ _ H I') as (y & _ & E). eauto.
Qed.
Lemma de_jwe_kids j a : plain (jwe_protected j) = true -> de_jwe (raw_of (jwe_tree j)) = Ok a ->
  forall r, In r (jwe_recipients j) -> plain (rc_kid r) = true.
Proof.
  intros P. unfold de_jwe, jwe_tree. rewrite raw_of_obj. cbn [mems map fst snd walk rd_str rbind]. kbeq. unfold once.
  rewrite de_borrowed_raw by auto. cbn [rbind]. kbeq. intros H r I.
  destruct (de_vec _ _) eqn:E; [|discriminate H|discriminate H]. destruct (de_vec_each _ _ _ _ E _ I) as (y & Y). eapply de_recipient_plain; eauto.
Qed.
Lemma de_jws_kids j a : de_jws (raw_of (jws_tree j)) = Ok a ->
  forall sg, In sg (jws_signatures j) -> plain (sig_kid sg) = true.
Proof.
  unfold de_jws, jws_tree. rewrite raw_of_obj. cbn [mems map fst snd walk rd_str rbind]. kbeq. unfold once.
  intros H r I. destruct (de_vec _ _) eqn:E; [|discriminate H|discriminate H]. destruct (de_vec_each _ _ _ _ E _ I) as (y & Y). eapply de_sig_plain; eauto.
Qed.

(** ** Header names *)
Lemma walk_twice {S} (step : S -> bytes -> raw -> res S) (seen : S -> bool) k :
  (forall s v s', step s k v = Ok s' -> seen s = false /\ seen s' = true) ->
  (forall s n v s', step s n v = Ok s' -> seen s = true -> seen s' = true) ->
  forall l s s', walk step s (mems l) None = Ok s' -> (if seen s then ~ In k (map fst l) else True) /\
    forall l1 v l2, l = l1 ++ (k, v) :: l2 -> ~ In k (map fst l2).
Proof.
  intros H1 H2. induction l as [|[n v] l IH]; intros s s' W.
  - split; [destruct (seen s); auto|]. intros l1 v l2 E. destruct l1; discriminate.
  - cbn [mems map fst snd walk rd_str rbind] in W. apply rbind_Ok in W as (t & T & W). fold (mems l) in W. destruct (IH _ _ W) as [I1 I2]. split.
    + destruct (seen s) eqn:E; auto. cbn. rewrite (H2 _ _ _ _ T E) in I1. intros [->|I]; [|contradiction].
      apply H1 in T as [T _]. congruence.
    + intros l1 w l2 E. destruct l1 as [|x l1].
      * cbn in E. injection E; intros; subst. apply H1 in T as [_ T]. now rewrite T in I1.
      * cbn in E. injection E; intros; subst. eapply I2; reflexivity.
Qed.
Section Headers.
Context (fp : bytes -> option bytes).
Definition seen (k : bytes) (s : mstate) : bool :=
  if beq k (B "id") then is_some (m_id s) else if beq k (B "typ") then is_some (m_typ s) else if beq k (B "type") then is_some (m_type s)
  else if beq k (B "body") then is_some (m_body s) else if beq k (B "from") then is_some (m_from s) else if beq k (B "to") then is_some (m_to s)
  else if beq k (B "thid") then is_some (m_thid s) else if beq k (B "pthid") then is_some (m_pthid s)
  else if beq k (B "created_time") then is_some (m_created s) else if beq k (B "expires_time") then is_some (m_expires s)
  else if beq k (B "from_prior") then is_some (m_fp s) else is_some (m_att s).
Lemma once_some {A} (o : option A) f v o' : once o f v = Ok o' -> o = None /\ is_some o' = true.
Proof. unfold once. destruct o; [discriminate|]. intros H. apply rbind_Ok in H as (a & _ & H). apply Ok_inj in H. subst. auto. Qed.
Lemma step_seen s k v s' : In k standard_headers -> msg_step fp s k v = Ok s' -> seen k s = false /\ seen k s' = true.
Proof.
  destruct s. intros I. unfold standard_headers in I. cbn [map In] in I. unfold seen, msg_step.
  repeat destruct I as [<-|I]; try destruct I; kbeq; intros H; apply rbind_Ok in H as (a & H & E); apply Ok_inj in E; subst s';
    apply once_some in H as [-> H]; cbn; auto.
Qed.
Lemma step_keeps s n v s' k : msg_step fp s n v = Ok s' -> seen k s = true -> seen k s' = true.
Proof.
  destruct s. unfold msg_step. intros H.
  repeat match type of H with (if beq n ?x then _ else _) = _ => destruct (beq n x) end;
  apply rbind_Ok in H as (a & H & E); apply Ok_inj in E; subst s'; try (apply once_some in H as [-> H]);
  unfold seen; cbn; repeat match goal with |- context [if beq k ?x then _ else _] => destruct (beq k x) end; auto.
Qed.
Lemma twice_unread l1 k v l2 m : In k standard_headers -> In k (map fst l2) -> printable (VObj (l1 ++ (k, v) :: l2)) ->
  message_from_str fp (print (VObj (l1 ++ (k, v) :: l2))) <> Ok m.
Proof.
  intros S I P H. unfold message_from_str in H. rewrite from_json_print in H by auto. rewrite raw_of_obj in H. unfold de_message in H.
  apply rbind_Ok in H as (s & W & _).
  destruct (walk_twice (msg_step fp) (seen k) k) with (l := l1 ++ (k, v) :: l2) (s := m_init) (s' := s) as [_ Q]; auto.
  - intros. now apply (step_seen _ _ v0).
  - intros ? ? ? ?. apply step_keeps.
  - eapply Q; eauto.
Qed.
End Headers.

Section Names.
Context (C : crypto).
Lemma printed_rejected fuel v o tr x : printable v ->
  (forall j, jwe_from_str (print v) <> Ok j) -> (forall j, jws_from_str (print v) <> Ok j) ->
  (forall m, message_from_str (fparse C) (print v) <> Ok m) ->
  exec (unpack C (S fuel) (print v) o) tr x -> tr = [] /\ x = Some (Err Malformed).
Proof.
  intros W N1 N2 N3 H.
  assert (E : tr = [] /\ exists k, k = Malformed /\ x = Some (Err k)).
  { apply (reject_with C (fun k => k = Malformed) fuel (print v) o); auto; apply print_errs; auto.
    - apply errs_jwe; auto. intros e [].
    - apply errs_jws; auto. intros e [].
    - apply errs_message; auto. intros e []. }
  destruct E as (-> & k & -> & ->). auto.
Qed.
Lemma jwe_of_text v j : printable v -> jwe_from_str (print v) = Ok j -> de_jwe (raw_of v) = Ok j.
Proof. intros P H. unfold jwe_from_str in H. now rewrite from_json_print in H. Qed.
Lemma jws_of_text v j : printable v -> jws_from_str (print v) = Ok j -> de_jws (raw_of v) = Ok j.
Proof. intros P H. unfold jws_from_str in H. now rewrite from_json_print in H. Qed.
Lemma jwe_kids_rejected j rc fuel o tr x : plain (jwe_protected j) = true -> utf8 (jwe_protected j) = true ->
  Forall (fun r => utf8 (rc_kid r) = true /\ utf8 (rc_key r) = true) (jwe_recipients j) ->
  utf8 (jwe_iv j) = true -> utf8 (jwe_ciphertext j) = true -> utf8 (jwe_tag j) = true ->
  In rc (jwe_recipients j) -> escaped (rc_kid rc) ->
  exec (unpack C (S fuel) (print (jwe_tree j)) o) tr x -> tr = [] /\ x = Some (Err Malformed).
Proof.
  intros PL P1 P2 P3 P4 P5 I X. assert (P : printable (jwe_tree j)) by now apply jwe_printable.
  apply printed_rejected; auto.
  - intros j' H. apply jwe_of_text in H; [|exact P]. pose proof (de_jwe_kids j _ PL H rc I) as Q.
    rewrite (escaped_plain _ X) in Q. discriminate Q.
  - intros j' H. rewrite jwe_not_jws in H by auto. discriminate.
  - intros j' H. rewrite jwe_not_message in H by auto. discriminate.
Qed.
Lemma jws_kids_rejected j sg fuel o tr x :
  Forall (fun sg => utf8 (sig_kid sg) = true /\ utf8 (sig_protected sg) = true /\ utf8 (sig_signature sg) = true) (jws_signatures j) ->
  utf8 (jws_payload j) = true -> In sg (jws_signatures j) -> escaped (sig_kid sg) ->
  exec (unpack C (S fuel) (print (jws_tree j)) o) tr x -> tr = [] /\ x = Some (Err Malformed).
Proof.
  intros P1 P2 I X. assert (P : printable (jws_tree j)) by now apply jws_printable.
  apply printed_rejected; auto.
  - intros j' H. rewrite jws_not_jwe in H by auto. discriminate.
  - intros j' H. apply jws_of_text in H; [|exact P]. pose proof (de_jws_kids j _ H sg I) as Q.
    rewrite (escaped_plain _ X) in Q. discriminate Q.
  - intros j' H. rewrite jws_not_message in H by auto. discriminate.
Qed.
Lemma seals_kids ce d ka alg enc sender rs e1 e2 e3 pt ct tag text kid fuel o tr x :
  seals C ce d ka alg enc sender rs e1 e2 e3 pt ct tag text -> Forall text_ok (map fst rs) -> In kid (map fst rs) -> escaped kid ->
  exec (unpack C (S fuel) text o) tr x -> tr = [] /\ x = Some (Err Malformed).
Proof.
  intros S U I X. apply seals_tree in S as (cek & epk & jwk & apv & header & prot & rcs & _ & _ & _ & _ & _ & -> & _ & F & ->).
  assert (RU : Forall (fun r => utf8 (rc_kid r) = true /\ utf8 (rc_key r) = true) rcs).
  { clear I. revert U. induction F as [|r rc rs rcs (E & w & K) F IH]; cbn; intros U; constructor; inversion_clear U; auto.
    split; [rewrite E; auto|]. rewrite K. apply b64_utf8. }
  assert (RI : exists rc, In rc rcs /\ rc_kid rc = kid).
  { clear U RU. induction F as [|r rc rs rcs (E & _) F IH]; cbn in I; [destruct I|]. destruct I as [I|I].
    - exists rc. split; [now left|congruence].
    - destruct (IH I) as (z & ? & ?). exists z. split; [now right|auto]. }
  destruct RI as (rc & I' & <-).
  apply (jwe_kids_rejected _ rc); cbn [jwe_protected jwe_recipients jwe_iv jwe_ciphertext jwe_tag]; auto using b64_utf8, b64_plain.
Qed.
Lemma keyed_fst doc ka kids rs : Forall2 (keyed C doc ka) kids rs -> map fst rs = kids.
Proof. induction 1 as [|k r kids rs (E & _) F IH]; cbn; congruence. Qed.
Lemma escaped_recipient m to from sign_by po tr text pm kid fuel o tr' x :
  exec (pack_encrypted C m to from sign_by po) tr (Ok (text, pm)) -> pm_service pm = None ->
  Forall text_ok (pm_to_kids pm) -> In kid (pm_to_kids pm) -> escaped kid ->
  exec (unpack C (S fuel) text o) tr' x -> tr' = [] /\ x = Some (Err Malformed).
Proof.
  intros H NS U I X. apply pack_encrypted_inv in H as (s1 & s2 & s3 & msg & text2 & w & _ & _ & _ & O & _ & W).
  assert (E : text = text2) by (destruct w as [[? ?]|]; destruct W as [? W]; [congruence|auto]). subst text2. clear W.
  destruct from as [f|].
  - destruct O as (k & O & _). apply authcrypt_inv in O as (did & doc & fdid & fdoc & asked & found & sec & sk & ka & rs & e1 & e2 & e3 & ct & tag & t1 & rest & _ & _ & _ & _ & AK & _ & S & PR).
    destruct AK as (all & _ & _ & _ & _ & _ & F). apply keyed_fst in F. rewrite <- F in *. destruct (po_protect_sender po).
    + destruct PR as (ce & enc & f1 & f2 & f3 & ct' & tag' & _ & _ & S'). eapply seals_kids; eauto.
    + destruct PR as (_ & <-). eapply seals_kids; eauto.
  - destruct O as (O & _). apply anoncrypt_inv in O as (did & doc & ka & rs & ce & enc & e1 & e2 & e3 & ct & tag & _ & _ & AK & _ & S).
    destruct AK as (all & k0 & _ & _ & _ & _ & _ & F). apply keyed_fst in F. rewrite <- F in *. eapply seals_kids; eauto.
Qed.
Lemma escaped_signer m by_ tr text kid fuel o tr' x :
  exec (pack_signed C m by_) tr (Ok (text, kid)) -> text_ok kid -> escaped kid ->
  exec (unpack C (S fuel) text o) tr' x -> tr' = [] /\ x = Some (Err Malformed).
Proof.
  intros H U X. apply pack_signed_inv in H as (did & doc & asked & found & sec & a & k & alg & trp & _ & _ & _ & _ & _ & _ & _ & _ & J).
  unfold jws_sign in J. destruct (sig_type alg); cbn [rbind] in J; [|discriminate|discriminate].
  apply rbind_Ok in J as (s & _ & J). apply Ok_inj in J. subst text.
  eapply jws_kids_rejected; cbn [jws_signatures jws_payload]; [|apply b64_utf8|left; reflexivity|exact X].
  constructor; [|constructor]. cbn [sig_kid sig_protected sig_signature]. auto using b64_utf8.
Qed.
Lemma amap_insert_split {V} k (v : V) m : exists l1 l2, amap_insert k v m = l1 ++ (k, v) :: l2.
Proof.
  induction m as [|[k' v'] m IH]; cbn; [exists [], []; auto|]. destruct (beq k k'); [exists [], m; auto|].
  destruct IH as (l1 & l2 & ->). exists ((k', v') :: l1), l2. auto.
Qed.
Lemma in_opt_member {A} n (f : A -> value) o : o <> None -> In (B n) (map fst (opt_member n f o)).
Proof. destruct o; [cbn; auto|congruence]. Qed.
Lemma in_middle m k v : taken m k -> exists a c, message_members (mb_header k v m) = a ++ amap_insert k v (msg_extra m) ++ c
  /\ (In k (map fst a) \/ In k (map fst c)).
Proof.
  intros T. eexists ([(B "id", VStr (msg_id m)); (B "typ", VStr (msg_typ m)); (B "type", VStr (msg_type m)); (B "body", msg_body m)]
    ++ opt_member "from" VStr (msg_from m) ++ opt_member "to" VStrs (msg_to m) ++ opt_member "thid" VStr (msg_thid m) ++ opt_member "pthid" VStr (msg_pthid m)), _.
  split; [unfold message_members, mb_header; cbn [msg_id msg_typ msg_type msg_body msg_from msg_to msg_thid msg_pthid msg_extra msg_created msg_expires msg_from_prior msg_attachments];
    rewrite <- !app_assoc; reflexivity|].
  rewrite !map_app, !in_app_iff. cbn [map fst In]. unfold taken in T.
  destruct T as [->|[->|[->|[->|T]]]]; auto 8.
  destruct T as [(-> & N)|T]; [left; right; left; now apply in_opt_member|].
  destruct T as [(-> & N)|T]; [left; right; right; left; now apply in_opt_member|].
  destruct T as [(-> & N)|T]; [left; right; right; right; left; now apply in_opt_member|].
  destruct T as [(-> & N)|T]; [left; right; right; right; right; now apply in_opt_member|].
  right.
  destruct T as [(-> & N)|T]; [left; now apply in_opt_member|].
  destruct T as [(-> & N)|T]; [right; left; now apply in_opt_member|].
  destruct T as [(-> & N)|T]; [right; right; left; now apply in_opt_member|].
  destruct T as (-> & N). right; right; right; now apply in_opt_member.
Qed.
Lemma header_fits m k v : message_fits C m -> json_value (fparse C) 126 v -> text_ok k -> ~ In k standard_headers ->
  ~ In k jwe_names -> ~ In k jws_names -> message_fits C (mb_header k v m).
Proof.
  intros (H1 & H2 & H3 & H4 & H5 & H6 & H7 & H8 & H9 & H10 & H11 & H12 & H13 & H14 & H15 & H16) V U N1 N2 N3.
  unfold message_fits. cbn [mb_header msg_id msg_typ msg_type msg_body msg_from msg_to msg_thid msg_pthid msg_extra msg_created msg_expires msg_from_prior msg_attachments].
  repeat (split; [assumption|]).
  assert (Q : forall names, ~ In k names -> ~ incl names (map fst (msg_extra m)) -> ~ incl names (map fst (amap_insert k v (msg_extra m)))).
  { intros names D N I. apply N. intros n J. specialize (I n J). apply in_map_iff in I as ([k' v'] & E & I). cbn in E. subst k'.
    apply amap_insert_In in I as [I|I]; [|now apply (in_map fst) in I]. injection I as -> ->. contradiction. }
  split; [now apply amap_insert_NoDup|]. split; [|auto].
  intros k' v' I. apply amap_insert_In in I as [I|I]; [injection I as -> ->; auto|now apply H14].
Qed.
Lemma taken_name m k v tr text fuel o tr' x : message_fits C m -> json_value (fparse C) 126 v -> taken m k ->
  exec (pack_plaintext C (mb_header k v m)) tr (Ok text) -> exec (unpack C (S fuel) text o) tr' x -> tr' = [] /\ x = Some (Err Malformed).
Proof.
  intros F V T E. apply pack_plaintext_inv in E as [-> _].
  assert (S : In k standard_headers) by (unfold taken in T; cbn [standard_headers map In]; intuition congruence).
  assert (U : utf8 k = true).
  { assert (Y : forallb utf8 standard_headers = true) by reflexivity. rewrite forallb_forall in Y. auto. }
  assert (P : printable (message_tree (mb_header k v m))).
  { pose proof (message_printable _ _ (message_fits_ok _ _ F)) as P. unfold message_tree in *. apply printable_obj in P. apply printable_obj.
    unfold message_members, mb_header in *. cbn [msg_id msg_typ msg_type msg_body msg_from msg_to msg_thid msg_pthid msg_extra msg_created msg_expires msg_from_prior msg_attachments] in *.
    rewrite !Forall_app in *. intuition. rewrite Forall_forall in *. intros [k' v'] I. apply amap_insert_In in I as [I|I]; [|auto].
    injection I as -> ->. cbn. split; auto. apply json_value_ok in V as (V & _ & _). now apply wfv_printable in V. }
  assert (N1 : ~ incl jwe_names (map fst (msg_extra m)) /\ ~ incl jws_names (map fst (msg_extra m))) by apply F. destruct N1 as [N1 N2].
  assert (Q : forall names, (forall n, In n names -> ~ In n standard_headers) -> ~ incl names (map fst (msg_extra m)) -> ~ incl names (map fst (msg_extra (mb_header k v m)))).
  { intros names D N I. apply N. intros n J. specialize (I n J). cbn [mb_header msg_extra] in I. apply in_map_iff in I as ([k' v'] & E & I). cbn in E. subst k'.
    apply amap_insert_In in I as [I|I]; [|now apply (in_map fst) in I]. injection I as -> ->. now apply D in J. }
  unfold message_text. unfold message_tree in *. apply printed_rejected; auto.
  - intros j H. destruct (message_misses (mb_header k v m) jwe_names) as (n & I & M).
    + intros n I J. cbn [In jwe_names map] in I. repeat (destruct I as [I|I]; [subst n; revert J; vm_compute; intuition discriminate|]). exact I.
    + apply Q; auto. intros n I J. cbn [In jwe_names map] in I. repeat (destruct I as [I|I]; [subst n; revert J; vm_compute; intuition discriminate|]). exact I.
    + rewrite (no_jwe _ n P) in H; auto. discriminate.
  - intros j H. destruct (message_misses (mb_header k v m) jws_names) as (n & I & M).
    + intros n I J. cbn [In jws_names map] in I. repeat (destruct I as [I|I]; [subst n; revert J; vm_compute; intuition discriminate|]). exact I.
    + apply Q; auto. intros n I J. cbn [In jws_names map] in I. repeat (destruct I as [I|I]; [subst n; revert J; vm_compute; intuition discriminate|]). exact I.
    + rewrite (no_jws _ n P) in H; auto. discriminate.
  - destruct (amap_insert_split k v (msg_extra m)) as (x1 & x2 & X).
    assert (M : exists l1 w l2, message_members (mb_header k v m) = l1 ++ (k, w) :: l2 /\ In k (map fst l2)).
    { destruct (in_middle m k v) as (a & c & E & I). { exact T. } rewrite E, X. destruct I as [I|I].
      - apply in_map_iff in I as ([k' w] & E' & I). cbn in E'. subst k'. apply in_split in I as (a1 & a2 & ->).
        exists a1, w, (a2 ++ (x1 ++ (k, v) :: x2) ++ c). rewrite <- app_assoc. split; [reflexivity|]. rewrite !map_app, !in_app_iff. right. left. right. now left.
      - exists (a ++ x1), v, (x2 ++ c). split; [now rewrite <- !app_assoc|]. rewrite map_app, in_app_iff. auto. }
    destruct M as (l1 & w & l2 & M & I). intros j. rewrite M in *. now apply twice_unread.
Qed.
Lemma unreadable_header text j fuel o tr x : jwe_from_str text = Ok j -> jwe_parse C j = Err Malformed ->
  exec (unpack C (S fuel) text o) tr x -> tr = [] /\ x = Some (Err Malformed).
Proof. intros E P. unfold unpack. cbn [unpack_loop]. unfold try_anoncrypt. rewrite E. cbn [soft pbind bind]. rewrite P. cbn. auto. Qed.
Lemma de_header_skid h a : de_jwe_header C (raw_of (jwe_header_tree h)) = Ok a -> forall s, ph_skid h = Some s -> plain s = true.
Proof.
  destruct h as [t al en sk u v k]. cbn [ph_skid]. intros H s ->. unfold de_jwe_header, jwe_header_tree in H. rewrite raw_of_obj in H.
  cbn [ph_typ ph_alg ph_enc ph_skid ph_apu ph_apv ph_epk app opt_member] in H. cbn [mems map fst snd walk rd_str rbind] in H. kbeqH H. unfold once in H.
  destruct (de_option de_string _); cbn [rbind] in H; [|discriminate|discriminate]. kbeqH H.
  destruct (de_jwe_alg _); cbn [rbind] in H; [|discriminate|discriminate]. kbeqH H.
  destruct (de_jwe_enc _); cbn [rbind] in H; [|discriminate|discriminate]. kbeqH H.
  destruct (de_option de_borrowed (raw_of (VStr s))) eqn:E; cbn [rbind] in H; [|discriminate|discriminate].
  unfold de_option in E. cbn [raw_of] in E. apply rbind_Ok in E as (z & E & _). eapply de_borrowed_plain. exact E.
Qed.
Lemma jwe_skid_rejected j h skid fuel o tr x : jwe_protected j = b64enc (print (jwe_header_tree h)) -> printable (jwe_header_tree h) ->
  ph_skid h = Some skid -> escaped skid ->
  Forall (fun r => utf8 (rc_kid r) = true /\ plain (rc_key r) = true /\ utf8 (rc_key r) = true) (jwe_recipients j) ->
  utf8 (jwe_iv j) = true -> utf8 (jwe_ciphertext j) = true -> utf8 (jwe_tag j) = true ->
  plain (jwe_iv j) = true -> plain (jwe_ciphertext j) = true -> plain (jwe_tag j) = true ->
  exec (unpack C (S fuel) (print (jwe_tree j)) o) tr x -> tr = [] /\ x = Some (Err Malformed).
Proof.
  intros PR PH SK X R U1 U2 U3 P1 P2 P3.
  assert (R' : Forall (fun r => utf8 (rc_kid r) = true /\ utf8 (rc_key r) = true) (jwe_recipients j)) by (eapply Forall_impl; [|exact R]; cbn; tauto).
  assert (PP : plain (jwe_protected j) = true) by (rewrite PR; apply b64_plain).
  assert (PU : utf8 (jwe_protected j) = true) by (rewrite PR; apply b64_utf8).
  destruct (forallb (fun r => plain (rc_kid r)) (jwe_recipients j)) eqn:F.
  - rewrite forallb_forall in F. apply (unreadable_header _ j).
    + unfold jwe_from_str. rewrite from_json_print by now apply jwe_printable. apply de_jwe_raw. unfold jwe_plain, rcs_plain. split; auto. split; auto.
      rewrite Forall_forall in *. intros r I. split; [now apply F|]. now apply (R r).
    + unfold jwe_parse. rewrite PR, b64_roundtrip. cbn [ok_or rbind].
      pose proof (print_errs (de_jwe_header C) _ PH) as Q.
      assert (Q' : errs (fun k => k = Malformed) (from_json (de_jwe_header C) (print (jwe_header_tree h)))).
      { apply Q. apply errs_jwe_header; auto. intros e []. }
      rewrite from_json_print in * by auto. destruct (de_jwe_header C _) as [a|k|] eqn:E; cbn [rbind].
      * pose proof (de_header_skid _ _ E _ SK) as Z. rewrite (escaped_plain _ X) in Z. discriminate Z.
      * cbn in Q'. now subst k.
      * destruct Q'.
  - assert (E : exists r, In r (jwe_recipients j) /\ plain (rc_kid r) = false).
    { clear - F. induction (jwe_recipients j) as [|r l IH]; [discriminate|]. cbn in F. destruct (plain (rc_kid r)) eqn:E.
      - destruct (IH F) as (z & ? & ?). exists z. split; [now right|auto].
      - exists r. split; [now left|auto]. }
    destruct E as (r & I & E). assert (P : printable (jwe_tree j)) by now apply jwe_printable. apply printed_rejected; auto.
    + intros j' H. apply jwe_of_text in H; [|exact P]. pose proof (de_jwe_kids j _ PP H r I) as Q.
      rewrite E in Q. discriminate Q.
    + intros j' H. rewrite jwe_not_jws in H by auto. discriminate.
    + intros j' H. rewrite jwe_not_message in H by auto. discriminate.
Qed.
Lemma seals_skid ce d ka alg enc skid sk rs e1 e2 e3 pt ct tag text fuel o tr x :
  (forall a e k v, key_gen C a e = Some k -> to_jwk_public C a k = Some v -> printable v) ->
  utf8 (jwe_alg_str alg) = true -> utf8 (jwe_enc_str enc) = true ->
  seals C ce d ka alg enc (Some (skid, sk)) rs e1 e2 e3 pt ct tag text -> Forall text_ok (map fst rs) -> text_ok skid -> escaped skid ->
  exec (unpack C (S fuel) text o) tr x -> tr = [] /\ x = Some (Err Malformed).
Proof.
  intros PJ UA UE S U US X. apply seals_tree in S as (cek & epk & jwk & apv & header & prot & rcs & _ & G & J & _ & -> & -> & _ & F & ->).
  eapply (jwe_skid_rejected _ _ skid); cbn [jwe_protected jwe_recipients jwe_iv jwe_ciphertext jwe_tag]; auto using b64_utf8, b64_plain.
  - apply jwe_header_printable; cbn [ph_typ ph_alg ph_enc ph_skid ph_apu ph_apv ph_epk option_map fst]; try apply b64_utf8; try assumption; [|eapply PJ; eauto]. reflexivity.
  - revert U. induction F as [|r rc rs rcs (E & w & K) F IH]; cbn; intros U; constructor; inversion_clear U; auto.
    split; [rewrite E; auto|]. rewrite K. auto using b64_utf8, b64_plain.
Qed.
Lemma escaped_sender pair m to from sign_by po tr text pm kid fuel o tr' x : lawful C pair ->
  exec (pack_encrypted C m to (Some from) sign_by po) tr (Ok (text, pm)) -> pm_service pm = None -> po_protect_sender po = false ->
  Forall text_ok (pm_to_kids pm) -> pm_from_kid pm = Some kid -> text_ok kid -> escaped kid ->
  exec (unpack C (S fuel) text o) tr' x -> tr' = [] /\ x = Some (Err Malformed).
Proof.
  intros L H NS NP U I UK X. apply pack_encrypted_inv in H as (s1 & s2 & s3 & msg & text2 & w & _ & _ & _ & O & _ & W).
  assert (E : text = text2) by (destruct w as [[? ?]|]; destruct W as [? W]; [congruence|auto]). subst text2. clear W.
  destruct O as (k & O & E). rewrite I in E. injection E as <-. rewrite NP in O.
  apply authcrypt_inv in O as (did & doc & fdid & fdoc & asked & found & sec & sk & ka & rs & e1 & e2 & e3 & ct & tag & t1 & rest & _ & _ & _ & _ & AK & _ & S & _ & <-).
  destruct AK as (all & _ & _ & _ & _ & _ & F). apply keyed_fst in F. rewrite <- F in *.
  eapply seals_skid; eauto; try reflexivity. intros a e k v G J. pose proof (law_jwk _ _ L _ _ _ _ G J) as V. apply json_value_ok in V as (V & _ & _). now apply wfv_printable in V.
Qed.
End Names.
