(** How long packed texts are. *)
From Verif.Model Require Import Prelude Utf8 Base64 Json Serde DidDoc Crypto Keys Effects Jws Jwe Message FromPrior Pack Routing Unpack.
From Verif.Spec Require Import Small Codec Events World Text Packing Mediator Size.
From Verif.Proofs Require Import Lib Base64P JsonP SerdeP CodecP SmallP TreeP Wp Errs NoPanic UnpackInv SealP TextP PackP RouteP HideP ForwardP SigningP MediatorP.

Lemma size_app a b : size (a ++ b) = size a + size b. Proof. apply app_length. Qed.
Lemma size_b64 s : size (b64enc s) = b64_size (size s).
Proof.
  unfold size, b64_size. induction s as [|[]|[] []|a b c t IH] using ind3; try reflexivity.
  destruct a, b, c. cbn [b64enc List.length]. rewrite IH.
  replace (4 * S (S (S (List.length t))) + 2) with (4 * 3 + (4 * List.length t + 2)) by lia.
  rewrite (Nat.div_add_l 4 3) by lia. lia.
Qed.
Lemma size_commas l : l <> [] -> size (commas l) + 1 = list_sum (map (fun t => size t + 1) l).
Proof.
  induction l as [|t [|t' l] IH]; intros N; [congruence|unfold list_sum; cbn [commas map fold_right]; lia|]. change (commas (t :: t' :: l)) with (t ++ B "," ++ commas (t' :: l)).
  change (map (fun t => size t + 1) (t :: t' :: l)) with ((size t + 1) :: map (fun t => size t + 1) (t' :: l)).
  cbn [list_sum fold_right]. rewrite !size_app. unfold list_sum in IH at 1. specialize (IH ltac:(discriminate)). change (size (B ",")) with 1. unfold list_sum. lia.
Qed.

Section Sizes.
Context (C : crypto) (epk : kalg -> nat) (SZ : sized C epk).
Lemma header_sized ce alg enc sk apv jwk a : (exists x, enc_of enc ce x) -> alg = match sk with None => EcdhEsA256kw | Some _ => Ecdh1puA256kw end ->
  size apv = 32 -> size (print jwk) = epk a ->
  size (jwe_header_text alg enc sk apv jwk) = header_size ce sk (epk a).
Proof.
  intros (x & X) -> AV J. unfold jwe_header_text, header_size. rewrite !size_app, J, size_b64, AV. change (b64_size 32) with 43.
  assert (E : size (print (VStr (enc_text enc))) = 2 + enc_size ce) by (destruct X as [X|[X|X]]; injection X as -> -> _; reflexivity). rewrite E.
  destruct sk as [s|].
  - rewrite !size_app, size_b64. change (size (print (VStr (alg_text Ecdh1puA256kw)))) with 17. fold (quoted s).
    change (size (B "{""typ"":""application/didcomm-encrypted+json"",""alg"":")) with 50. change (size (B ",""enc"":")) with 7. change (size (B ",""skid"":")) with 8.
    change (size (B ",""apu"":""")) with 8. change (size (B """")) with 1. change (size (B ",""apv"":""")) with 8. change (size (B """,""epk"":")) with 8. change (size (B "}")) with 1. lia.
  - change (size (print (VStr (alg_text EcdhEsA256kw)))) with 16. change (size []) with 0.
    change (size (B "{""typ"":""application/didcomm-encrypted+json"",""alg"":")) with 50. change (size (B ",""enc"":")) with 7.
    change (size (B ",""apv"":""")) with 8. change (size (B """,""epk"":")) with 8. change (size (B "}")) with 1. lia.
Qed.
Lemma apv_size l apv : apv_for C l apv -> size apv = 32.
Proof. intros V. apply apv_for_spec in V. subst apv. apply (sz_sha _ _ SZ). Qed.
Lemma seals_size_any ce d ka alg enc sender rs e1 e2 e3 pt ct tag text : seals C ce d ka alg enc sender rs e1 e2 e3 pt ct tag text ->
  (exists x, enc_of enc ce x) -> alg = match sender with None => EcdhEsA256kw | Some _ => Ecdh1puA256kw end ->
  size text = (match rs with [] => 1 | _ => 0 end) + envelope_size ce (option_map fst sender) (map fst rs) (epk ka) (size pt).
Proof.
  intros (cek & ek & jwk & apv & p & ws & G1 & G2 & G3 & V & -> & A & F & ->) X AL. pose proof (sz_cek _ _ SZ _ _ _ G1) as SC.
  apply (sz_aead _ _ SZ) in A as [A1 A2]. unfold jwe_text, envelope_size. rewrite !size_app, !size_b64, (sz_nonce _ _ SZ), A1, A2.
  rewrite (header_sized ce alg enc (option_map fst sender) apv jwk ka X); [| |eapply apv_size; eauto|eapply (sz_epk _ _ SZ); eauto].
  2: { rewrite AL. now destruct sender as [[]|]. }
  set (f := fun r : bytes * bytes => B "{""header"":{""kid"":" ++ print (VStr (fst r)) ++ B "},""encrypted_key"":""" ++ b64enc (snd r) ++ B """}").
  assert (SR : size (commas (map f (combine (map fst rs) ws))) + 1
    = (match rs with [] => 1 | _ => 0 end) + list_sum (map (fun k => 39 + quoted k + b64_size (cek_size ce + 8)) (map fst rs))).
  { destruct F as [|r w rs ws K F]; [reflexivity|]. rewrite size_commas by discriminate. pose proof (Forall2_cons r w K F) as F'.
    cbv iota. cbn [Nat.add]. revert F'. generalize (r :: rs) (w :: ws). clear - SZ SC. intros rs ws F. rewrite map_map.
    induction F as [|r w rs ws (kw & W & _) F IH]; [reflexivity|]. cbn [map combine list_sum fold_right].
    unfold list_sum in IH. rewrite IH. f_equal. unfold f at 1. cbn [fst snd]. rewrite !size_app, size_b64. apply (sz_wrap _ _ SZ) in W. rewrite W, SC. fold (quoted (fst r)).
    change (size (B "{""header"":{""kid"":")) with 17. change (size (B "},""encrypted_key"":""")) with 19. change (size (B """}")) with 2. lia. }
  change (size (B "{""protected"":""")) with 14. change (size (B """,""recipients"":[")) with 16. change (size (B "],""iv"":""")) with 8.
  change (size (B """,""ciphertext"":""")) with 16. change (size (B """,""tag"":""")) with 9. change (size (B """}")) with 2. lia.
Qed.
Lemma seals_size ce d ka alg enc sender rs e1 e2 e3 pt ct tag text : seals C ce d ka alg enc sender rs e1 e2 e3 pt ct tag text ->
  (exists x, enc_of enc ce x) -> alg = match sender with None => EcdhEsA256kw | Some _ => Ecdh1puA256kw end -> rs <> [] ->
  size text = envelope_size ce (option_map fst sender) (map fst rs) (epk ka) (size pt).
Proof. intros S X A N. rewrite (seals_size_any _ _ _ _ _ _ _ _ _ _ _ _ _ _ S X A). destruct rs; [congruence|reflexivity]. Qed.
Lemma sign_size payload kid ka k alg t : sign_alg_of ka = Ok alg -> jws_sign C payload kid ka k alg = Ok t ->
  size t = signed_size kid (size (jws_alg_str alg)) (size payload).
Proof.
  intros SA S. unfold jws_sign in S. apply rbind_Ok in S as (st & ST & S). cbv zeta in S. apply rbind_Ok in S as (sg & SG & S). apply ok_or_Ok in SG. apply Ok_inj in S.
  destruct (sign_alg_with _ _ _ SA ST) as [W P]. rewrite jws_written in S by exact P. subst t. apply (sz_sign _ _ SZ) in SG.
  unfold jws_text, signed_size. rewrite !size_app, !size_b64, SG. fold (quoted kid). set (a := jws_alg_str alg).
  replace (size (jws_header_text a)) with (50 + size a) by (unfold jws_header_text; rewrite !size_app; change (size (B "{""typ"":""application/didcomm-signed+json"",""alg"":""")) with 48; change (size (B """}")) with 2; lia).
  change (size (B "{""signatures"":[{""header"":{""kid"":")) with 32. change (size (B "},""protected"":""")) with 15. change (size (B """,""signature"":""")) with 15.
  change (size (B """}],""payload"":""")) with 15. change (size (B """}")) with 2. lia.
Qed.
Lemma signed_sized m by_ tr t kid : exec (pack_signed C m by_) tr (Ok (t, kid)) ->
  exists a, (a = 5 \/ a = 6) /\ size t = signed_size kid a (size (plain_text m)).
Proof.
  intros H. apply pack_signed_inv in H as (did & doc & asked & found & sec & ka & k & alg & trp & _ & _ & -> & _ & _ & KP & SA & _ & S).
  exists (size (jws_alg_str alg)). split; [destruct ka; cbn in SA; try discriminate; apply Ok_inj in SA; subst alg; cbn; auto|].
  rewrite (sign_size _ _ _ _ _ _ SA S). now rewrite message_written.
Qed.
Lemma written_sized m sign_by tr msg skid : written C m sign_by tr msg skid -> inner_size m skid (size msg).
Proof.
  unfold written, inner_size. destruct sign_by as [s|].
  - intros (kid & H & ->). apply signed_sized in H as (a & [-> | ->] & E); auto.
  - intros [H ->]. apply pack_plaintext_inv in H as [-> _]. now rewrite message_written.
Qed.
Lemma enc_anon enc ce a : enc_of enc ce a -> ce = anon_cenc a.
Proof. intros [X|[X|X]]; injection X as -> -> ->; reflexivity. Qed.
Lemma keyed_fst doc ka kids (rs : list (bytes * key C)) : Forall2 (keyed C doc ka) kids rs -> map fst rs = kids.
Proof. induction 1 as [|k r kids rs [E _] F IH]; [reflexivity|]. cbn. now rewrite IH, E. Qed.
Lemma picked_some {A} (P : A -> Prop) l l' : picked P l l' -> (exists x, In x l /\ P x) -> l' <> [].
Proof. induction 1 as [|x l l' Q H IH|x l l' Q H IH]; intros (y & I & Py); [destruct I|discriminate|]. destruct I as [->|I]; [tauto|]. apply IH. eauto. Qed.
Lemma anon_some to doc ka kids rs : anon_keys C to doc ka kids rs -> map fst rs = kids /\ rs <> [].
Proof.
  intros (all & k0 & W & FW & OC & _ & P & F). pose proof (keyed_fst _ _ _ _ F) as E. split; [exact E|]. intros ->. cbn in E. subst kids.
  apply (picked_some _ _ _ P); [|reflexivity]. exists k0. split; [|exact OC]. destruct FW as (l1 & l2 & -> & _). apply in_elt.
Qed.
Lemma auth_some fdoc found to doc ka fk kids rs : auth_keys C fdoc found to doc ka fk kids rs -> map fst rs = kids /\ rs <> [].
Proof.
  intros (all & W & FW & OC & _ & P & F). pose proof (keyed_fst _ _ _ _ F) as E. split; [exact E|]. intros ->. cbn in E. subst kids.
  apply (picked_some _ _ _ P); [|reflexivity]. destruct FW as (l1 & l2 & _ & (a & _ & OC' & k' & I & OC2) & _). exists k'. split; [exact I|].
  destruct OC as (v & V1 & V2), OC' as (v' & V1' & V2'). rewrite (first_with_fun _ _ _ _ V1' V1) in V2'. congruence.
Qed.
Lemma anoncrypt_size to msg alg tr text kids : exec (anoncrypt C to msg alg) tr (Ok (text, kids)) ->
  exists ka, agreement ka /\ size text = envelope_size (anon_cenc alg) None kids (epk ka) (size msg).
Proof.
  intros H. apply anoncrypt_inv in H as (did & doc & ka & rs & ce & enc & e1 & e2 & e3 & ct & tag & _ & _ & K & EN & S).
  exists ka. split; [destruct K as (? & ? & _ & _ & _ & A & _); exact A|]. apply anon_some in K as [<- N]. rewrite (seals_size _ _ _ _ _ _ _ _ _ _ _ _ _ _ S); eauto.
  now rewrite (enc_anon _ _ _ EN).
Qed.
Lemma packed_sized m to from sign_by o tr text pm : exec (pack_encrypted C m to from sign_by o) tr (Ok (text, pm)) -> pm_service pm = None ->
  exists ka n, agreement ka /\ inner_size m (pm_sign_by_kid pm) n /\ size text = packed_size o (pm_from_kid pm) (pm_to_kids pm) (epk ka) n.
Proof.
  intros H NS. apply pack_encrypted_inv in H as (t1 & t2 & t3 & msg & text2 & w & -> & _ & W & O & _ & E).
  assert (text = text2). { destruct w as [[fwd sm]|]; destruct E as [-> E]; [congruence|reflexivity]. } subst text2. apply written_sized in W.
  unfold outer_stage in O. destruct from as [f|].
  - destruct O as (k & O & ->). apply authcrypt_inv in O as (did & doc & fdid & fdoc & asked & found & sec & sk & ka & rs & e1 & e2 & e3 & ct & tag & x1 & rest & _ & _ & _ & _ & K & _ & S & PR).
    exists ka, (size msg). split; [destruct K as (? & _ & _ & _ & A & _); exact A|]. split; [exact W|]. apply auth_some in K as [<- N].
    assert (CB : exists x, enc_of A256cbcHs512 CA256CbcHs512 x) by (exists AnonA256cbcHs512; left; reflexivity).
    pose proof (seals_size _ _ _ _ _ _ _ _ _ _ _ _ _ _ S CB eq_refl N) as S1. cbn [option_map fst] in S1. unfold packed_size. cbv zeta. destruct (po_protect_sender o).
    + destruct PR as (ce & enc & f1 & f2 & f3 & ct' & tag' & EN & _ & S2). rewrite (seals_size _ _ _ _ _ _ _ _ _ _ _ _ _ _ S2 (ex_intro _ _ EN) eq_refl N). now rewrite (enc_anon _ _ _ EN), S1.
    + destruct PR as [_ ->]. exact S1.
  - destruct O as [O ->]. apply anoncrypt_size in O as (ka & A & O). eauto.
Qed.
Lemma body_lower ce n : n <= body_size ce n.
Proof. destruct ce; cbn [body_size]; try lia. pose proof (Nat.div_mod n 16 ltac:(lia)). pose proof (Nat.mod_upper_bound n 16 ltac:(lia)). lia. Qed.
Lemma body_upper ce n : body_size ce n <= body_size ce 0 + n.
Proof. destruct ce; cbn [body_size]; try lia. change (0 / 16) with 0. pose proof (Nat.div_mod n 16 ltac:(lia)). lia. Qed.
Lemma b64_bounds n : 4 * n <= 3 * b64_size n /\ 3 * b64_size n <= 4 * n + 2.
Proof. unfold b64_size. pose proof (Nat.div_mod (4 * n + 2) 3 ltac:(lia)). pose proof (Nat.mod_upper_bound (4 * n + 2) 3 ltac:(lia)). lia. Qed.
Lemma envelope_bounds ce sk kids e n : 4 * n <= 3 * envelope_size ce sk kids e n
  /\ 3 * envelope_size ce sk kids e n <= 3 * envelope_size ce sk kids e 0 + 4 * n + 2.
Proof.
  unfold envelope_size. pose proof (body_lower ce n). pose proof (body_upper ce n). pose proof (b64_bounds (body_size ce n)). pose proof (b64_bounds (body_size ce 0)). lia.
Qed.
End Sizes.
