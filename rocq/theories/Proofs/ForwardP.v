(** Forward messages: what a mediator reads, and what is left in the end. *)
From Verif.Model Require Import Prelude Utf8 Base64 Json Serde DidDoc Crypto Keys Effects Jws Jwe Message FromPrior Pack Routing Unpack.
From Verif.Spec Require Import Small Codec Events World Packing Forward.
From Verif.Proofs Require Import Lib Base64P JsonP JsonDec SerdeP CodecP SmallP Wp Errs NoPanic UnpackInv TreeP WorldP SealP RoundP PackP RouteP HideP.

(** ** An envelope as a [serde_json::Value] *)
Definition rc_value (r : recipient) : value :=
  VObj [(B "encrypted_key", VStr (rc_key r)); (B "header", VObj [(B "kid", VStr (rc_kid r))])].
Definition jwe_value (j : jwe) : value :=
  VObj [(B "ciphertext", VStr (jwe_ciphertext j)); (B "iv", VStr (jwe_iv j)); (B "protected", VStr (jwe_protected j));
        (B "recipients", VArr (map rc_value (jwe_recipients j))); (B "tag", VStr (jwe_tag j))].
Lemma norm_rc r : norm (recipient_tree r) = rc_value r.
Proof. reflexivity. Qed.
Lemma norm_jwe j : norm (jwe_tree j) = jwe_value j.
Proof.
  unfold jwe_tree, jwe_value. cbn [norm map fst snd]. replace (map norm (map recipient_tree (jwe_recipients j))) with (map rc_value (jwe_recipients j)).
  - reflexivity.
  - rewrite map_map. apply map_ext. intros r. symmetry. apply norm_rc.
Qed.
Lemma printable_parts j : printable (jwe_tree j) ->
  utf8 (jwe_protected j) = true /\ Forall (fun r => utf8 (rc_kid r) = true /\ utf8 (rc_key r) = true) (jwe_recipients j)
  /\ utf8 (jwe_iv j) = true /\ utf8 (jwe_ciphertext j) = true /\ utf8 (jwe_tag j) = true.
Proof.
  unfold jwe_tree. intros H. apply printable_obj in H.
  inversion H as [|? ? [_ P1] H1]; subst. inversion H1 as [|? ? [_ P2] H2]; subst. inversion H2 as [|? ? [_ P3] H3]; subst.
  inversion H3 as [|? ? [_ P4] H4]; subst. inversion H4 as [|? ? [_ P5] _]; subst. cbn [snd] in *.
  repeat (split; [assumption|]). split; [|auto]. rewrite printable_arr, Forall_forall in P2. apply Forall_forall.
  intros r I. specialize (P2 _ (in_map _ _ _ I)). cbn in P2. tauto.
Qed.
Lemma jwe_wfv fp j : printable (jwe_tree j) -> wfv fp (jwe_tree j) /\ depth (jwe_tree j) < 6.
Proof.
  intros P. apply printable_parts in P as (P1 & P2 & P3 & P4 & P5). split.
  - apply wfv_obj. repeat constructor; auto. cbn [snd]. apply wfv_arr. apply Forall_map. eapply Forall_impl; [|exact P2]. intros r [K1 K2]. cbn. auto.
  - apply depth_obj. split; [lia|]. repeat apply Forall_cons; try apply Forall_nil; cbn [snd]; try (cbn; lia). apply depth_arr. split; [lia|]. apply Forall_map. apply Forall_forall.
    intros r _. cbn. lia.
Qed.
Lemma jwe_to_value fp j : printable (jwe_tree j) -> from_json (to_value fp max_depth) (print (jwe_tree j)) = Ok (jwe_value j).
Proof.
  intros P. rewrite from_json_print by auto. unfold to_value. destruct (jwe_wfv fp j P) as [W D].
  rewrite to_content_raw by (auto; unfold max_depth; lia). cbn [rbind]. f_equal. apply norm_jwe.
Qed.
Lemma jwe_value_json fp j d : printable (jwe_tree j) -> json_value fp (4 + d) (jwe_value j).
Proof.
  intros P. apply printable_parts in P as (P1 & P2 & P3 & P4 & P5). unfold jwe_value. cbn [Nat.add]. apply jv_obj.
  - repeat constructor.
  - intros k x [E|[E|[E|[E|[E|[]]]]]]; injection E as <- <-; (split; [reflexivity|]); try (constructor; assumption).
    apply jv_arr. intros x I. apply in_map_iff in I as (r & <- & I). rewrite Forall_forall in P2. destruct (P2 r I) as [K1 K2].
    apply jv_obj; [repeat constructor|]. intros k y [E|[E|[]]]; injection E as <- <-; (split; [reflexivity|]); [now constructor|].
    apply jv_obj; [repeat constructor|]. intros k y [E|[]]; injection E as <- <-. split; [reflexivity|now constructor].
Qed.
Lemma jwe_value_printable j : printable (jwe_tree j) -> printable (jwe_value j).
Proof.
  intros P. pose proof (jwe_value_json (fun _ => None) j 0 P) as J. apply json_value_ok in J as (W & _ & _). eapply wfv_printable; exact W.
Qed.
Lemma de_rc_value r : plain (rc_kid r) = true -> plain (rc_key r) = true -> de_recipient (raw_of (rc_value r)) = Ok r.
Proof.
  destruct r as [k e]. cbn [rc_kid rc_key]. intros H1 H2. unfold de_recipient, rc_value. rewrite raw_of_obj.
  cbn [mems map fst snd rc_kid rc_key]. cbn [walk rd_str rbind]. kbeq. unfold once.
  rewrite de_borrowed_raw by auto. cbn [rbind]. kbeq. rewrite de_kid_header_raw by auto. reflexivity.
Qed.
Lemma de_jwe_value j : jwe_plain j -> de_jwe (raw_of (jwe_value j)) = Ok j.
Proof.
  destruct j as [p rs i c t]. unfold jwe_plain. cbn [jwe_protected jwe_recipients jwe_iv jwe_ciphertext jwe_tag].
  intros (H1 & H2 & H3 & H4 & H5). unfold de_jwe, jwe_value. rewrite raw_of_obj.
  cbn [mems map fst snd jwe_protected jwe_recipients jwe_iv jwe_ciphertext jwe_tag].
  dstep. cbn [rbind]. assert (R : de_vec de_recipient (raw_of (VArr (map rc_value rs))) = Ok rs).
  { apply de_vec_raw. intros a I. unfold rcs_plain in H2. rewrite Forall_forall in H2. destruct (H2 _ I). now apply de_rc_value. }
  rewrite R. dstep. reflexivity.
Qed.

(** ** Texts with the same envelope *)
Section Same.
Context (C : crypto).
Record alike (t t' : bytes) : Prop := {
  al_jwe : jwe_from_str t = jwe_from_str t';
  al_jws : jws_from_str t = Err Malformed /\ jws_from_str t' = Err Malformed;
  al_msg : message_from_str (fparse C) t = Err Malformed /\ message_from_str (fparse C) t' = Err Malformed }.
Lemma alike_rest t t' o md : alike t t' -> peq (unpack_rest C t o md) (unpack_rest C t' o md).
Proof.
  intros A. unfold unpack_rest. unfold try_authcrypt at 1. rewrite (al_jwe _ _ A). fold (try_authcrypt C t' o md).
  apply peq_pbind; [apply peq_refl|]. intros [[pt d]|]; [apply peq_refl|]. cbv iota.
  assert (S : forall x d, jws_from_str x = Err Malformed -> try_sign C x d = Ret (Ok None)) by (intros x d E; unfold try_sign; now rewrite E).
  assert (P : forall x d, message_from_str (fparse C) x = Err Malformed -> try_plaintext C x d = Ret (Ok None)) by (intros x d E; unfold try_plaintext; now rewrite E).
  rewrite !S by apply A. cbn [pbind bind]. rewrite !P by apply A. apply peq_refl.
Qed.
Lemma alike_unpack t t' : alike t t' -> same_unpack C t t'.
Proof.
  intros A fuel o. unfold unpack. destruct fuel as [|fuel]; [intros; tauto|]. cbn [unpack_loop].
  unfold try_anoncrypt at 1. rewrite (al_jwe _ _ A). fold (try_anoncrypt C t' o um_init).
  apply peq_bind; [apply peq_refl|]. intros [[[pt d]|]|k|]; try apply peq_refl.
  apply peq_bind; [now apply alike_rest|]. intros; apply peq_refl.
Qed.
Lemma jwe_alike j : printable (jwe_tree j) -> jwe_plain j -> alike (print (jwe_tree j)) (print (jwe_value j)).
Proof.
  intros P PL. pose proof (jwe_value_printable _ P) as P'. split.
  - unfold jwe_from_str. rewrite !from_json_print by auto. now rewrite de_jwe_raw, de_jwe_value.
  - split; [now apply jwe_not_jws|]. apply (no_jws _ (B "payload") P'); [cbn; auto|absent].
  - split; [now apply jwe_not_message|]. apply (no_message _ _ (B "id") P'); [cbn; auto|absent].
Qed.
End Same.

(** ** Forward messages *)
Section Forward.
Context (C : crypto) (pair : kalg -> key C -> key C -> Prop) (LAW : lawful C pair) (dir : bytes -> option diddoc) (DIR : directory dir).

Lemma amap_insert_NoDup {V} k (v : V) m : NoDup (map fst m) -> NoDup (map fst (amap_insert k v m)).
Proof.
  induction m as [|[k' v'] m IH]; cbn; intros N; [constructor; auto; constructor|]. inversion N as [|? ? N1 N2]; subst. destruct (beq_spec k k') as [->|E]; cbn.
  - constructor; auto.
  - constructor; auto. rewrite amap_insert_keys. intros [->|I]; auto.
Qed.
Lemma amap_insert_In {V} k (v : V) m k' v' : In (k', v') (amap_insert k v m) -> (k', v') = (k, v) \/ In (k', v') m.
Proof.
  induction m as [|[k0 v0] m IH]; cbn; [intuition|]. destruct (beq k k0); cbn; intuition.
Qed.
Definition with_headers (l : list (bytes * value)) (m : message) : message := fold_left (fun m kv => mb_header (fst kv) (snd kv) m) l m.
Lemma with_headers_extra l : forall m, NoDup (map fst (msg_extra m)) ->
  NoDup (map fst (msg_extra (with_headers l m)))
  /\ (forall k v, In (k, v) (msg_extra (with_headers l m)) -> In (k, v) l \/ In (k, v) (msg_extra m)).
Proof.
  induction l as [|[k v] l IH]; intros m N; cbn [with_headers fold_left fst snd]; [auto|].
  destruct (IH (mb_header k v m)) as [H1 H2]; [cbn; now apply amap_insert_NoDup|]. split; [exact H1|]. intros k' v' I. apply H2 in I as [I|I].
  - left. now right.
  - cbn in I. apply amap_insert_In in I as [E|I]; [left; left; congruence|now right].
Qed.
Lemma with_headers_rest l : forall m, let m' := with_headers l m in
  msg_id m' = msg_id m /\ msg_typ m' = msg_typ m /\ msg_type m' = msg_type m /\ msg_body m' = msg_body m /\ msg_from m' = msg_from m /\ msg_to m' = msg_to m
  /\ msg_thid m' = msg_thid m /\ msg_pthid m' = msg_pthid m /\ msg_created m' = msg_created m /\ msg_expires m' = msg_expires m
  /\ msg_from_prior m' = msg_from_prior m /\ msg_attachments m' = msg_attachments m.
Proof. induction l as [|[k v] l IH]; intros m; cbn [with_headers fold_left fst snd]; [repeat split|]. apply (IH (mb_header k v m)). Qed.

Lemma forward_fits id next headers v : headers_fit C headers -> utf8 id = true -> utf8 next = true -> json_value (fparse C) 123 v ->
  message_fits C (forward_message id next headers v).
Proof.
  intros HF UI UN J. unfold forward_message. set (l := match headers with Some l => l | None => [] end).
  assert (HL : (forall k v, In (k, v) l -> text_ok k /\ ~ In k standard_headers /\ json_value (fparse C) 126 v)
    /\ ~ incl jwe_names (map fst l) /\ ~ incl jws_names (map fst l)).
  { destruct headers as [l0|]; [now apply HF|]. subst l. split; [intros k w []|]. split; intros I; apply (I _ (or_introl eq_refl)). }
  destruct HL as (HL & N1 & N2). set (m0 := mb_new id forward_type (VObj [(B "next", VStr next)])). fold (with_headers l m0).
  destruct (with_headers_extra l m0) as [ND IN]; [constructor|]. destruct (with_headers_rest l m0) as (E1 & E2 & E3 & E4 & E5 & E6 & E7 & E8 & E9 & E10 & E11 & E12).
  set (m1 := with_headers l m0) in *.
  assert (NM : incl (map fst (msg_extra m1)) (map fst l)).
  { intros k I. apply in_map_iff in I as ([k' w] & <- & I). apply IN in I as [I|[]]. now apply (in_map fst) in I. }
  unfold message_fits. cbn [mb_attachment msg_id msg_typ msg_type msg_body msg_from msg_to msg_thid msg_pthid msg_extra msg_created msg_expires msg_from_prior msg_attachments].
  rewrite E1, E2, E3, E4, E5, E6, E7, E8, E9, E10, E11, E12.
  split; [exact UI|]. split; [reflexivity|]. split; [reflexivity|]. split.
  { apply jv_obj; [repeat constructor|]. intros k x [E|[]]. injection E as <- <-. split; [reflexivity|now constructor]. }
  do 7 (split; [intros ? E; discriminate E|]). split.
  { intros l' E. cbn in E. injection E as <-. constructor; [|constructor]. split; [split; [exact J|intros ? E; discriminate E]|].
    do 6 (split; [intros ? E; discriminate E|]). intros ? E; discriminate E. }
  split; [exact ND|]. split; [intros k w I; apply IN in I as [I|[]]; now apply HL|].
  split; intros I; [apply N1|apply N2]; intros x X; apply NM, I, X.
Qed.

(** An anonymous envelope of a forward message, in any text with the same envelope. *)
Lemma anon_hop own rk id next headers v alg tr text kids text' :
  exec (anoncrypt C rk (message_text (forward_message id next headers v)) alg) tr (Ok (text, kids)) -> Forall (answers dir own) tr ->
  message_fits C (forward_message id next headers v) -> same_unpack C text' text -> hop C pair dir alg rk text' next v.
Proof.
  intros H A MF SU. set (m := forward_message id next headers v) in *.
  pose proof (proj1 (forward_parsed m (mkPF next v)) (forward_parses id next headers v)) as (T & BO & AT).
  pose proof H as H'. apply anoncrypt_inv in H' as (did & doc & ka & rs & ce & enc & e1 & e2 & e3 & ct & tag & DP & E & AK & _).
  assert (D : dir did = Some doc). { subst tr. inversion A as [|? ? A0 _]; subst. cbn in A0. now injection A0 as ->. }
  destruct (anoncrypt_Ok C dir own _ _ _ _ _ _ H A) as (did' & doc' & ka' & rs' & tr0 & _ & R & K & AE).
  destruct (anon_encrypt_sealed C pair LAW dir DIR _ _ _ _ _ _ _ _ AE R) as (ce' & enc' & j & p & EN & S).
  exists did, doc, ka, kids, rs, m. split; [exact DP|]. split; [exact D|]. split; [exact AK|]. split; [exact T|]. split; [exact BO|]. split; [exact AT|].
  intros own' fuel o tr' x SM HO KE X A'. apply SU in X. rewrite K in HO.
  assert (CA : carried C dir m None).
  { unfold carried. assert (E' : msg_from_prior m = None); [|now rewrite E'].
    unfold m, forward_message. set (m0 := mb_new _ _ _). set (l := match headers with Some l => l | None => [] end). fold (with_headers l m0).
    pose proof (with_headers_rest l m0) as W. cbv zeta in W. cbn [mb_attachment msg_from_prior]. apply W. }
  assert (N : inner C dir own' (message_text m) m (with_prior None)) by now apply inner_plain.
  assert (SA : safe (answers dir own') (unpack C (Datatypes.S fuel) text o)
    (fun x => x = Some (Ok (m, with_prior None (md_anon (map fst rs') alg um_init))))).
  { eapply (unpack_anon C dir own' fuel o text (message_text m) (map fst rs') alg m (with_prior None)).
    - intros md. eapply anon_stage; eauto. apply (in_utf8 _ _ _ _ _ _ N).
    - intros U. now apply (unwrap_kept C dir own' o).
    - intros md. apply (rest_inner C dir own' o _ m _ md N). }
  rewrite (safe_exec _ _ _ _ _ SA X A'). rewrite K. reflexivity.
Qed.

(** The envelope an anonymous encryption made is an envelope. *)
Lemma anoncrypt_envelope own rk msg alg tr text kids : exec (anoncrypt C rk msg alg) tr (Ok (text, kids)) -> Forall (answers dir own) tr ->
  exists j, text = print (jwe_tree j) /\ printable (jwe_tree j) /\ jwe_plain j.
Proof.
  intros H A. destruct (anoncrypt_Ok C dir own _ _ _ _ _ _ H A) as (did' & doc' & ka' & rs' & tr0 & _ & R & K & AE).
  destruct (anon_encrypt_sealed C pair LAW dir DIR _ _ _ _ _ _ _ _ AE R) as (ce' & enc' & j & p & EN & S).
  exists j. split; [apply S|]. split; apply S.
Qed.

(** The hops of the loop of wrap_in_forward, the last mediator first. *)
Definition hops (rks : list bytes) (to : bytes) : list (bytes * bytes) := combine (rev rks) (rev (tl rks ++ [to])).
Lemma hops_snoc l k to : hops (l ++ [k]) to = (k, to) :: hops l k.
Proof.
  unfold hops. rewrite rev_app_distr. cbn [rev app]. destruct l as [|a l]; [reflexivity|]. cbn [app tl]. rewrite (rev_app_distr (l ++ [k]) [to]). reflexivity.
Qed.

Lemma wrap_travels own headers to v alg : headers_fit C headers -> forall rks d msg v' tr text,
  exec (wrap_loop C msg headers (hops rks (hd to d)) alg) tr (Ok text) -> Forall (answers dir own) tr ->
  Forall (fun k => utf8 k = true) (to :: rks ++ d) ->
  from_json (to_value (fparse C) max_depth) msg = Ok v' -> json_value (fparse C) 123 v' ->
  (d = [] -> v' = v) -> (d <> [] -> travels C pair dir alg d to msg v /\ travels C pair dir alg d to (print v') v) ->
  rks ++ d <> [] -> travels C pair dir alg (rks ++ d) to text v.
Proof.
  intros HF rks. induction rks as [|k l IH] using rev_ind; intros d msg v' tr text H A U TV J D0 D1 NE.
  - cbn in H. destruct H as [-> E]. apply Ok_inj in E. subst text. cbn [app] in *. now apply D1.
  - rewrite hops_snoc in H. cbn [wrap_loop] in H. apply exec_pbind_Ok in H as (t1 & t2 & x & -> & H1 & H2).
    apply Forall_app in A as [A1 A2]. unfold build_forward in H1. rewrite TV in H1. cbn [kind] in H1. step H1. step H1. step H1. ok.
    rename a into v'. cbv iota in H2. step H2. destruct a as [text1 kids]. apply Forall_app in A2 as [A2 A3].
    assert (UI : utf8 a0 = true) by (inversion A1; subst; assumption).
    assert (UN : utf8 (hd to d) = true). { destruct d as [|r d']; cbn [hd]; [now inversion U|]. rewrite Forall_forall in U. apply U. right. apply in_or_app. right. now left. }
    pose proof (forward_fits a0 (hd to d) headers v' HF UI UN J) as MF.
    destruct (anoncrypt_envelope own _ _ _ _ _ _ K A2) as (j & -> & PJ & PL).
    pose proof (alike_unpack C _ _ (jwe_alike C j PJ PL)) as SU.
    assert (TR : forall t', same_unpack C t' (print (jwe_tree j)) -> travels C pair dir alg (k :: d) to t' v).
    { intros t' S. pose proof (anon_hop own k a0 (hd to d) headers v' alg _ _ _ t' K A2 MF S) as HO. destruct d as [|r d']; cbn [hd] in HO.
      - rewrite (D0 eq_refl) in HO. now constructor.
      - eapply travels_on; [exact HO|]. now apply D1. }
    rewrite <- app_assoc in *. cbn [app] in *.
    eapply (IH (k :: d) _ (jwe_value j)); [exact H2|exact A3|exact U|now apply jwe_to_value|apply (jwe_value_json _ _ 119 PJ)|discriminate| |destruct l; discriminate].
    intros _. split; apply TR; [intros ? ? ? ?; tauto|]. intros ? ? ? ?. symmetry. apply SU.
Qed.
Lemma wrapped_travels own headers to alg msg rks tr text v : headers_fit C headers ->
  exec (wrap_in_forward C msg headers to rks alg) tr (Ok text) -> Forall (answers dir own) tr ->
  Forall (fun k => utf8 k = true) (to :: rks) -> from_json (to_value (fparse C) max_depth) msg = Ok v -> json_value (fparse C) 123 v ->
  travels C pair dir alg rks to text v.
Proof.
  intros HF H A U TV J. destruct rks as [|r rest]; [destruct H as [_ H]; discriminate|]. unfold wrap_in_forward in H.
  pose proof (wrap_travels own headers to v alg HF (r :: rest) [] msg v tr text) as W. rewrite app_nil_r in W. apply W; auto; try discriminate. intros F; now destruct F.
Qed.

(** ** The whole of pack_encrypted *)
Lemma outer_envelope own to from o msg tr text fk kids : secrets_match C pair dir own -> outer_stage C to from o msg tr text fk kids ->
  Forall (answers dir own) tr -> exists j, text = print (jwe_tree j) /\ printable (jwe_tree j) /\ jwe_plain j.
Proof.
  intros SM O A. destruct from as [f|]; cbn in O.
  - destruct O as (k & O & _). destruct (authcrypt_Ok C pair dir own _ _ _ _ _ _ _ _ _ _ SM O A) as (did & doc & fdid & fdoc & ka & rs & sk & t1 & tr1 & _ & _ & R & _ & SE & AE & PT & _).
    destruct (jwe_encrypt_sealed C pair LAW _ _ _ _ _ _ _ _ _ _ AE) as (j & p & S); try discriminate.
    { eapply recipients_named; eauto. }
    { cbn. intros s E'. injection E' as <-. apply key_id_plain. destruct SE as (FD & pk & PU & _).
      destruct (DIR fdid fdoc FD k) as [_ KID]; [apply in_or_app; left; apply PU|]. exact KID. }
    destruct (po_protect_sender o).
    + destruct PT as (tr2 & AN). destruct (anon_encrypt_sealed C pair LAW dir DIR _ _ _ _ _ _ _ _ AN R) as (ce & enc & j' & p' & EN & S').
      exists j'. split; [apply S'|]. split; apply S'.
    + subst text. exists j. split; [apply S|]. split; apply S.
  - destruct O as (O & _). eapply anoncrypt_envelope; eauto.
Qed.
Lemma pack_travels own m to from sign_by o tr text pm sm :
  secrets_match C pair dir own -> headers_fit C (po_forward_headers o) -> utf8 to = true ->
  (forall id uri rks, route dir to (po_messaging_service o) (Some (id, uri, rks)) -> Forall (fun k => utf8 k = true) rks) ->
  exec (pack_encrypted C m to from sign_by o) tr (Ok (text, pm)) -> Forall (answers dir own) tr -> pm_service pm = Some sm ->
  exists tr1 inner rks v, route dir to (po_messaging_service o) (Some (smd_id sm, smd_endpoint sm, rks))
    /\ exec (pack_encrypted C m to from sign_by (no_forward o)) tr1 (Ok (inner, mkPM None (pm_from_kid pm) (pm_sign_by_kid pm) (pm_to_kids pm)))
    /\ Forall (answers dir own) tr1 /\ from_json (to_value (fparse C) max_depth) inner = Ok v
    /\ travels C pair dir (po_enc_alg_anon o) rks to text v /\ same_unpack C (print v) inner.
Proof.
  intros SM HF UT UR H A PS. destruct (pack_decides C dir own _ _ _ _ _ _ _ _ H A) as (tr1 & tr2 & text1 & -> & P1 & W).
  apply Forall_app in A as [A1 A2].
  destruct (po_forward o); [|destruct W as (W & _); congruence]. destruct W as (q & RT & W).
  destruct q as [[[id uri] [|k ks]]|]; try (destruct W as (W & _); congruence). destruct W as (PS' & t1 & t2 & -> & _ & W).
  rewrite PS in PS'. injection PS' as ->. apply Forall_app in A2 as [_ A2]. cbn [smd_id smd_endpoint].
  pose proof P1 as P1'. apply pack_encrypted_inv in P1' as (s1 & s2 & s3 & msg & text2 & w & -> & _ & _ & O & W' & PT).
  rewrite wrap_off in W'. step W'. apply Ok_inj in W'. subst w. destruct PT as [-> _].
  apply Forall_app in A1 as [A11 A12]. apply Forall_app in A12 as [A12 A13].
  destruct (outer_envelope own _ _ _ _ _ _ _ _ SM O A12) as (j & -> & PJ & PL).
  exists (s1 ++ s2 ++ []), (print (jwe_tree j)), (k :: ks), (jwe_value j). split; [exact RT|]. split; [exact P1|].
  split; [rewrite app_nil_r; apply Forall_app; auto|]. split; [now apply jwe_to_value|]. split.
  - eapply (wrapped_travels own (po_forward_headers o) to _ (print (jwe_tree j)) _ t2); [exact HF|exact W|exact A2| |now apply jwe_to_value|apply (jwe_value_json _ _ 119 PJ)].
    constructor; [exact UT|]. eapply UR; eauto.
  - intros ? ? ? ?. symmetry. apply (alike_unpack C _ _ (jwe_alike C j PJ PL)).
Qed.
End Forward.
