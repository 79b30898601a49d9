(** Packing succeeds. *)
From Verif.Model Require Import Prelude Utf8 Base64 Json Serde DidDoc Crypto Keys Effects Jws Jwe Message FromPrior Pack Routing Unpack.
From Verif.Spec Require Import Small Codec Events World Packing Accept Works.
From Verif.Proofs Require Import Lib Base64P JsonP SerdeP CodecP SmallP Wp Errs NoPanic UnpackInv SealP RoundP PackP RouteP ForwardP AcceptP.

Lemma safe_intro {X} A (m : prog X) (Q : X -> Prop) : (forall tr x, exec m tr x -> Forall A tr -> Q x) -> safe A m Q.
Proof.
  induction m as [x|o k IH]; cbn [safe]; intros H.
  - apply (H []); [split; reflexivity|constructor].
  - intros r Ar. apply IH. intros tr x E F. apply (H (Ev o r :: tr)); [|now constructor]. cbn. eauto.
Qed.
Lemma safe_both {X} A (m : prog X) (P Q : X -> Prop) : safe A m P -> (forall tr x, exec m tr x -> Forall A tr -> P x -> Q x) -> safe A m Q.
Proof. intros S H. apply safe_intro. intros tr x E F. apply (H tr x E F). eapply safe_exec; eauto. Qed.

Lemma sec_key_pair_alg C s a k : sec_key_pair C s = Ok (a, k) -> sec_key_alg s = a.
Proof.
  assert (J : forall b v, jwk_key C b v = Ok (a, k) -> b = a).
  { intros b v. unfold jwk_key. destruct (from_jwk C b v); [|discriminate]. cbn. congruence. }
  unfold sec_key_pair, sec_key_alg, key_alg. destruct (sec_type s), (sec_material s); try discriminate.
  1: destruct (jwk_alg v); try discriminate; apply J.
  all: match goal with |- rbind ?x _ = _ -> _ => destruct x as [d| |]; [|discriminate|discriminate] end; cbn [rbind];
       unfold x25519_secret_key, ed25519_secret_key.
  all: match goal with |- rbind ?x _ = _ -> _ => destruct x as [d'| |]; [|discriminate|discriminate] end; cbn [rbind]; try destruct d'; apply J.
Qed.
Lemma sec_as_pair C s a k : sec_key_pair C s = Ok (a, k) -> sec_as C a s = Ok k.
Proof.
  intros E. unfold sec_as, as_alg. rewrite (sec_key_pair_alg C s a k E), E. replace (kalg_eqb a a) with true by now destruct a. cbn [rbind].
  replace (kalg_eqb a a) with true by now destruct a. reflexivity.
Qed.
Lemma signing_alg a : signing a -> exists alg, sign_alg_of a = Ok alg.
Proof. intros [->|[->| ->]]; cbn; eauto. Qed.

Section Works.
Context (C : crypto) (pair : kalg -> key C -> key C -> Prop) (LAW : lawful C pair) (WK : working C pair).
Context (dir : bytes -> option diddoc) (DIR : directory dir) (own : bytes -> option secret) (SM : secrets_match C pair dir own).
Notation go := (safe (answers dir own)).
Definition done {X} (r : res X) : Prop := exists x, r = Ok x.

Lemma rotation_checked p kid m :
  did_text (fp_iss p) /\ ~ In "#"%char (fp_iss p) /\ did_text (fp_sub p) /\ ~ In "#"%char (fp_sub p) /\ fp_iss p <> fp_sub p ->
  url_of (fp_iss p) kid -> (forall f, msg_from m = Some f -> f = fp_sub p) ->
  validate_pack_plaintext m (Some (p, kid)) = Ok tt.
Proof.
  intros (D1 & H1 & D2 & H2 & N) U F. apply is_did_text in D1, D2. apply did_or_url_none in H1, H2. apply url_of_some in U.
  unfold validate_pack_plaintext, validate_pack. rewrite D1, D2, H1, H2, U. cbn [negb snd is_some orb].
  destruct (beq (fp_iss p) (fp_sub p)) eqn:E; [apply beq_eq in E; contradiction|]. rewrite beq_refl. cbn [negb rbind].
  destruct (msg_from m) as [f|]; [|reflexivity]. rewrite (F f eq_refl), beq_refl. reflexivity.
Qed.
Lemma plaintext_works m : rotation_ready C dir m -> go (pack_plaintext C m) (fun r => r = Ok (message_text m)).
Proof.
  intros R. unfold pack_plaintext. destruct (msg_from_prior m) as [jwt|] eqn:E; [|reflexivity].
  destruct (R jwt E) as (p & kid & V & D1 & H1 & D2 & H2 & N & U & F).
  apply (safe_then _ _ (Some (p, kid))). { eapply safe_then; [apply rotation_accept, V|]. reflexivity. }
  cbv beta. eapply safe_ret; [apply rotation_checked; auto|]. reflexivity.
Qed.

(** Signing keys. *)
Lemma signing_secret doc did asked k : dir did = Some doc -> incl asked (doc_authentication doc) -> can_sign own doc asked ->
  In k asked -> own k <> None -> exists sec a p s, own k = Some sec /\ sec_key_pair C sec = Ok (a, s) /\ pair a p s /\ signing a.
Proof.
  intros D IN (_ & CS) I O. destruct (own k) as [sec|] eqn:E; [|congruence].
  destruct (SM did doc k sec doc_authentication (or_intror eq_refl) D (IN _ I) E) as (a & p & s & PU & SK & PR).
  destruct (CS k I) as (a' & OC & SG); [congruence|]. exists sec, a, p, s. split; auto. split; auto. split; auto.
  destruct PU as (_ & vm & FV & KP), OC as (vm' & FV' & <-). rewrite (first_with_fun _ _ _ _ FV FV') in KP. now rewrite (vm_key_pair_alg C _ _ _ KP) in SG.
Qed.
Lemma sign_works payload kid a p s : pair a p s -> signing a -> exists alg text, sign_alg_of a = Ok alg /\ jws_sign C payload kid a s alg = Ok text.
Proof.
  intros PR SG. destruct (signing_alg a SG) as (alg & E). exists alg. destruct (sign_alg_row _ _ E) as (st & sa & ROW).
  destruct WK as (_ & _ & W). unfold jws_sign. rewrite (row_sig_type _ _ _ _ ROW). cbn [rbind].
  match goal with |- context [key_sign C a st s ?m] => destruct (key_sign C a st s m) as [sg|] eqn:X; [|exfalso; eapply W; eauto] end. cbn. eauto.
Qed.
Lemma sign_compact_works payload kid typ a p s : pair a p s -> signing a -> exists alg text, sign_alg_of a = Ok alg /\ jws_sign_compact C payload kid a s typ alg = Ok text.
Proof.
  intros PR SG. destruct (signing_alg a SG) as (alg & E). exists alg. destruct (sign_alg_row _ _ E) as (st & sa & ROW).
  destruct WK as (_ & _ & W). unfold jws_sign_compact. rewrite (row_sig_type _ _ _ _ ROW). cbn [rbind].
  match goal with |- context [key_sign C a st s ?m] => destruct (key_sign C a st s m) as [sg|] eqn:X; [|exfalso; eapply W; eauto] end. cbn. eauto.
Qed.
Lemma asked_incl by_ doc asked : auth_wanted by_ doc asked -> incl asked (doc_authentication doc).
Proof. intros [[_ ->]|(_ & I & ->)]; [apply incl_refl|]. intros x [<-|[]]. exact I. Qed.
Lemma found_held asked found k : (forall i, In i found <-> In i asked /\ exists s, own i = Some s) -> In k found -> In k asked /\ own k <> None.
Proof. intros FO I. apply FO in I as (I & s & E). split; auto. congruence. Qed.
Lemma signed_works m by_ : rotation_ready C dir m -> signer_ready dir own by_ -> go (pack_signed C m by_) done.
Proof.
  intros RR (did & doc & asked & D & DP & DD & AW & CS). unfold pack_signed. apply is_did_text in D. rewrite D. cbn [negb].
  destruct (did_part_inv _ _ DP) as (u & U). rewrite U.
  apply safe_resolve. rewrite DD. apply (safe_ret _ _ doc); [reflexivity|].
  assert (K : match u with Some kid => let? _ := ok_or DIDUrlNotFound (find_first (fun a => beq a kid) (doc_authentication doc)) in Ok [kid] | None => Ok (doc_authentication doc) end = Ok asked).
  { destruct AW as [[N ->]|(I & IN & ->)].
    - destruct u as [u|]; auto. exfalso. apply did_or_url_some in U as X. destruct X as [-> _]. apply url_of_some in U. apply N. eapply url_has_hash; eauto.
    - destruct u as [u|].
      + apply did_or_url_some in U as [-> _]. destruct (find_first (fun a => beq a by_) (doc_authentication doc)) as [z|] eqn:F; [reflexivity|].
        exfalso. eapply find_first_none in F; eauto. cbn in F. rewrite beq_refl in F. discriminate.
      + destruct (did_part_spec _ _ _ U) as [X|[X _]]; [apply url_of_some in X; congruence|contradiction]. }
  apply (safe_ret _ _ asked); [exact K|]. apply safe_find. intros found FO. pose proof (found_some _ _ _ (proj1 CS) FO) as NF.
  destruct found as [|k l]; [contradiction|]. destruct (found_held _ _ k FO (or_introl eq_refl)) as [I O].
  destruct (signing_secret _ _ _ _ DD (asked_incl _ _ _ AW) CS I O) as (sec & a & p & s & OS & SK & PR & SG).
  apply (safe_ret _ _ k); [reflexivity|]. apply safe_get. rewrite OS. apply (safe_ret _ _ sec); [reflexivity|].
  apply (safe_ret _ _ (a, s)); [exact SK|]. cbv beta iota. eapply safe_then; [apply plaintext_works, RR|]. cbv beta.
  destruct (sign_works (message_text m) k a p s PR SG) as (alg & text & E1 & E2).
  apply (safe_ret _ _ alg); [exact E1|]. apply (safe_ret _ _ text); [exact E2|]. cbn. unfold done. eauto.
Qed.
Lemma token_works p ik : token_ready dir own p ik -> go (from_prior_pack C p ik) done.
Proof.
  intros (D1 & H1 & D2 & H2 & N & doc & asked & DD & CS & AK). unfold from_prior_pack. apply is_did_text in D1, D2. apply did_or_url_none in H1, H2.
  apply (safe_ret _ _ tt).
  { unfold validate_pack. rewrite D1, D2, H1, H2. cbn [negb snd is_some orb]. destruct (beq (fp_iss p) (fp_sub p)) eqn:E; [apply beq_eq in E; contradiction|].
    destruct ik as [ik|]; auto. destruct AK as (U & _). apply url_of_some in U. rewrite U. cbn [is_some negb]. rewrite beq_refl. reflexivity. }
  cbv zeta. apply safe_resolve. rewrite DD. apply (safe_ret _ _ doc); [reflexivity|].
  assert (IN : incl asked (doc_authentication doc)). { destruct ik as [ik|]; [|subst asked; apply incl_refl]. destruct AK as (_ & I & ->). intros x [<-|[]]. exact I. }
  apply (safe_ret _ _ asked).
  { destruct ik as [ik|]; [|now subst]. destruct AK as (U & I & ->). apply url_of_some in U. rewrite U. cbn [ok_or rbind]. rewrite beq_refl. cbn [negb].
    destruct (find_first (fun a => beq a ik) (doc_authentication doc)) as [z|] eqn:F.
    - apply find_first_some in F as [_ F]. apply beq_eq in F. subst z. reflexivity.
    - exfalso. eapply find_first_none in F; eauto. cbn in F. rewrite beq_refl in F. discriminate. }
  apply safe_find. intros found FO. pose proof (found_some _ _ _ (proj1 CS) FO) as NF.
  destruct found as [|k l]; [contradiction|]. destruct (found_held _ _ k FO (or_introl eq_refl)) as [I O].
  destruct (signing_secret _ _ _ _ DD IN CS I O) as (sec & a & pk & s & OS & SK & PR & SG).
  apply (safe_ret _ _ k); [reflexivity|]. apply safe_get. rewrite OS. apply (safe_ret _ _ sec); [reflexivity|].
  apply (safe_ret _ _ (a, s)); [exact SK|]. cbv beta iota.
  destruct (sign_compact_works (print (from_prior_tree p)) k (B "JWT") a pk s PR SG) as (alg & text & E1 & E2).
  apply (safe_ret _ _ alg); [exact E1|]. apply (safe_ret _ _ text); [exact E2|]. cbn. unfold done. eauto.
Qed.

(** Encryption. *)
Definition is_envelope (t : bytes) : Prop := exists j, t = print (jwe_tree j) /\ printable (jwe_tree j).
Lemma anon_goes to msg alg : recipient_ready C dir to -> go (anoncrypt C to msg alg) (fun r => exists t kids, r = Ok (t, kids) /\ is_envelope t).
Proof.
  intros (did & doc & all & k0 & ka & H1 & H2 & H3 & H4 & H5 & H6 & H7 & H8).
  eapply safe_both; [eapply (anon_works C dir own to msg alg did doc all k0 ka); eauto; apply WK|].
  intros tr x E F ([t kids] & ->). exists t, kids. split; auto. destruct (anoncrypt_envelope C pair LAW dir DIR own _ _ _ _ _ _ E F) as (j & -> & P & _). exists j. auto.
Qed.
Lemma Forall2_In_l' {X Y} (P : X -> Y -> Prop) l l' x : Forall2 P l l' -> In x l -> exists y, In y l' /\ P x y.
Proof. apply F2_In_l. Qed.
Lemma auth_goes to from msg au an pr : pair_ready C dir own from to ->
  go (authcrypt C to from msg au an pr) (fun r => exists t fk kids, r = Ok (t, fk, kids)).
Proof.
  intros (did & doc & fdid & fdoc & asked & all & DT & DD & DF & DFD & WA & WL & DA & DL & (k0 & I0 & O0 & S0) & NP & PU).
  unfold authcrypt. destruct (did_part_inv _ _ DT) as (u & U), (did_part_inv _ _ DF) as (u' & U'). rewrite U, U'.
  apply safe_resolve. rewrite DD. apply (safe_ret _ _ doc); [reflexivity|]. apply safe_resolve. rewrite DFD. apply (safe_ret _ _ fdoc); [reflexivity|].
  rewrite (wanted_select _ _ _ _ _ U' WA), (wanted_select _ _ _ _ _ U WL).
  assert (NA : asked <> []) by (intros ->; destruct I0). assert (NL : all <> []) by (intros ->; destruct S0 as (? & _ & _ & ? & [] & _)).
  assert (HO : holds_one own asked). { destruct (own k0) as [s|] eqn:E; [|congruence]. exists k0, s. auto. }
  destruct asked as [|a0 asked0] eqn:EA; [contradiction|]. cbv iota. rewrite <- EA in *.
  apply safe_find. intros found FO. pose proof (found_some _ _ _ HO FO) as NF. destruct found as [|f0 found0] eqn:EF; [contradiction|]. cbv iota. rewrite <- EF in *.
  destruct (rmap_total (find_vm Malformed fdoc) found) as (fkeys & FK). { intros x I. apply find_vm_entry, DA. now apply FO. }
  apply (safe_ret _ _ fkeys); [exact FK|]. destruct all as [|b0 all0] eqn:EL; [contradiction|]. cbv iota. rewrite <- EL in *.
  destruct (rmap_total (find_vm Malformed doc) all) as (keys & TK). { intros x I. now apply find_vm_entry, DL. }
  apply (safe_ret _ _ keys); [exact TK|]. apply entries in FK, TK.
  match goal with |- context [find_first ?f ?l] => assert (FF : exists vm, find_first f l = Some vm) end.
  { destruct (find_first _ _) as [vm|] eqn:X; [eauto|]. exfalso. destruct S0 as (a & AG & OC & k' & IK & OC').
    assert (IF : In k0 found). { apply FO. split; auto. destruct (own k0); [eauto|congruence]. }
    destruct (F2_In_l _ _ _ _ FK IF) as (fv & IFV & _ & FW). destruct (F2_In_l _ _ _ _ TK IK) as (tv & ITV & _ & FW').
    apply (on_curve_entry _ _ _ _ FW) in OC. apply (on_curve_entry _ _ _ _ FW') in OC'.
    assert (IFF : In fv (filter (fun f => supported (vm_key_alg f)) fkeys)). { apply filter_In. split; auto. rewrite OC. destruct AG; subst a; reflexivity. }
    eapply find_first_none in X; [|exact IFF]. cbv beta in X. assert (existsb (fun t => kalg_eqb (vm_key_alg t) (vm_key_alg fv)) keys = true); [|congruence].
    apply existsb_exists. exists tv. split; auto. apply kalg_eqb_eq. congruence. }
  destruct FF as (vm & FF). rewrite FF. apply (safe_ret _ _ vm); [reflexivity|].
  apply find_first_some in FF as [I X]. apply filter_In in I as [I S]. apply existsb_exists in X as (t & IT & X). apply kalg_eqb_eq in X.
  destruct (Forall2_In_r _ _ _ _ FK I) as (k & IK & VK & FW). destruct (Forall2_In_r _ _ _ _ TK IT) as (k' & IK' & VK' & FW').
  pose proof (found_held _ _ _ FO IK) as [IA OK].
  assert (AG : agreement (vm_key_alg vm)).
  { destruct (NP k k' (vm_key_alg vm)) as [Y|Y]; auto; try (eapply on_curve_entry; eauto; fail). unfold supported in S. rewrite Y in S. discriminate. }
  destruct (own k) as [sec|] eqn:OS; [|congruence].
  assert (IKA : In k (doc_key_agreement fdoc)). { rewrite <- (wanted_select _ _ _ _ _ U' WA) in IA. eapply select_kids_In; eauto. }
  destruct (SM fdid fdoc k sec doc_key_agreement (or_introl eq_refl) DFD IKA OS) as (a & p & s & (_ & vm' & FV & KP) & SK & PR).
  rewrite (first_with_fun _ _ _ _ FV FW) in KP. pose proof (vm_key_pair_alg C _ _ _ KP) as KA.
  rewrite VK. apply safe_get. rewrite OS. apply (safe_ret _ _ sec); [reflexivity|]. cbv zeta.
  destruct (rmap_total (vm_recipient C a) (filter (fun v => kalg_eqb (vm_key_alg v) a) keys)) as (rs & RS).
  { intros v IV. apply filter_In in IV as [IV E]. apply kalg_eqb_eq in E. destruct (Forall2_In_r _ _ _ _ TK IV) as (kk & IKK & VKK & FVV).
    destruct (PU kk a IKK) as (q & _ & v' & FV' & KP'). { now apply (on_curve_entry _ _ _ _ FVV). } { now rewrite <- KA. }
    rewrite (first_with_fun _ _ _ _ FV' FVV) in KP'. exists (vm_id v, q). unfold vm_recipient. rewrite (vm_as_pair _ _ _ _ KP'). reflexivity. }
  pose proof (rs_imported _ _ _ _ RS) as IM. rewrite KA in *.
  assert (E1 : go (auth_encrypt C a au an pr msg vm sec (filter (fun v => kalg_eqb (vm_key_alg v) a) keys)) done).
  { unfold auth_encrypt. rewrite RS. apply (safe_ret _ _ rs); [reflexivity|]. apply (safe_ret _ _ s); [now apply sec_as_pair|].
    eapply safe_bind with (R := done).
    - destruct au. apply jwe_works; auto; [apply WK|]. intros _. eexists _, _. split; [reflexivity|].
      intros e epk q apu apv tag G (v & IMV). destruct WK as (_ & W & _). eapply W; eauto.
    - intros x (t1 & ->). destruct pr; [apply encrypt_works; auto; apply WK|]. cbn. unfold done. eauto. }
  eapply safe_bind with (R := done).
  - destruct AG as [->| ->]; exact E1.
  - intros x (t1 & ->). cbn. eauto.
Qed.

(** Forwarding. *)
Lemma wrap_loop_works headers alg hps : Forall (fun h => recipient_ready C dir (fst h)) hps -> forall msg, is_envelope msg ->
  go (wrap_loop C msg headers hps alg) done.
Proof.
  induction hps as [|[to next] hps IH]; intros R msg EN; cbn [wrap_loop].
  - cbn. unfold done. eauto.
  - inversion R as [|? ? R0 R1]; subst. destruct EN as (j & -> & P).
    eapply safe_bind with (R := done).
    + unfold build_forward. rewrite (jwe_to_value _ _ P). apply (safe_ret _ _ (jwe_value j)); [reflexivity|]. unfold random. cbn. intros r _. unfold done. eauto.
    + intros x (m & ->). eapply safe_bind; [apply anon_goes, R0|]. intros x (t & kids & -> & E). cbv beta iota. now apply IH.
Qed.
Lemma combine_fst {X Y} (P : X -> Prop) (l : list X) (l' : list Y) : Forall P l -> Forall (fun h => P (fst h)) (combine l l').
Proof. intros F. revert l'. induction F; intros [|y l']; cbn; constructor; auto. Qed.
Lemma wrap_works msg to o did doc : is_envelope msg -> did_part to did -> dir did = Some doc -> way_ready C dir to o -> go (wrap_if_needed C msg to o) done.
Proof.
  intros EN DP DD W. unfold wrap_if_needed. destruct (po_forward o) eqn:PF; cbn [negb]; [|cbn; unfold done; eauto].
  destruct W as [W|W]; [congruence|].
  assert (R : exists q, route dir to (po_messaging_service o) q /\ match q with None => True | Some (_, _, rks) => Forall (recipient_ready C dir) rks end).
  { destruct W as [W|(id & uri & rks & W & F)]; [exists None|exists (Some (id, uri, rks))]; auto. }
  destruct R as (q & RT & RQ).
  eapply safe_bind with (R := fun r => exists chain, r = Ok chain /\ chain_route chain = q).
  { apply safe_intro. intros tr x E F. destruct (services_chain_total dir own _ _ _ _ _ _ E F DP DD) as [H _]. exact (H q RT). }
  intros x (chain & -> & CR). cbv beta iota. destruct chain as [|f rest]; [cbn; unfold done; eauto|]. cbv zeta. cbn [chain_route] in CR. subst q.
  set (rks := map _ rest ++ _) in *. destruct rks as [|r0 rks'] eqn:ER; [cbn; unfold done; eauto|].
  eapply safe_bind with (R := done).
  - unfold wrap_in_forward. apply wrap_loop_works; auto. apply combine_fst. apply Forall_rev. exact RQ.
  - intros x (t & ->). cbn. unfold done. eauto.
Qed.
Lemma encrypted_works m to from sign_by o : rotation_ready C dir m -> ~ refused m to from sign_by ->
  (forall s, sign_by = Some s -> signer_ready dir own s) ->
  match from with None => recipient_ready C dir to | Some f => pair_ready C dir own f to end ->
  way_ready C dir to o -> go (pack_encrypted C m to from sign_by o) done.
Proof.
  intros RR NR SG KR WR. unfold pack_encrypted. destruct (validate_cases m to from sign_by) as [[E _]|[_ R]]; [|contradiction].
  apply (safe_ret _ _ tt); [exact E|].
  eapply safe_bind with (R := done).
  { destruct sign_by as [s|].
    - eapply safe_bind; [apply signed_works; auto|]. intros x ([t k] & ->). cbn. unfold done. eauto.
    - eapply safe_bind; [apply plaintext_works, RR|]. intros x ->. cbn. unfold done. eauto. }
  intros x ([msg skid] & ->). cbv beta iota.
  eapply safe_bind with (R := fun r => exists t fk kids, r = Ok (t, fk, kids) /\ is_envelope t).
  { destruct from as [f|].
    - eapply safe_bind with (R := fun r => exists t fk kids, r = Ok (t, fk, kids) /\ is_envelope t).
      + eapply safe_both; [now apply auth_goes|]. intros tr x X F (t & fk & kids & ->). exists t, fk, kids. split; auto.
        destruct (outer_envelope C pair LAW dir DIR own to (Some f) o msg tr t (Some fk) kids SM) as (j & -> & P & _); [cbn; eauto|exact F|]. exists j. auto.
      + intros x (t & fk & kids & -> & EN). cbn. eauto 10.
    - eapply safe_bind; [apply anon_goes, KR|]. intros x (t & kids & -> & EN). cbn. eauto 10. }
  intros x (t & fk & kids & -> & EN). cbv beta iota.
  assert (X : exists did doc, did_part to did /\ dir did = Some doc).
  { destruct from as [f|]; [destruct KR as (did & doc & _ & _ & _ & _ & H1 & H2 & _)|destruct KR as (did & doc & _ & _ & _ & H1 & H2 & _)]; eauto. }
  destruct X as (did & doc & DP & DD).
  eapply safe_bind; [eapply wrap_works; eauto|]. intros x ([[fwd sm]|] & ->); cbn; unfold done; eauto.
Qed.
End Works.
