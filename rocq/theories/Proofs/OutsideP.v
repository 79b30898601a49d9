(** From the description in terms of the RFCs to the one in terms of the model's readers. *)
From Verif.Model Require Import Prelude Utf8 Base64 Json Serde DidDoc Crypto Keys Effects Jws Jwe Message FromPrior Pack Routing Unpack.
From Verif.Spec Require Import Codec Small Events World Text Grammar Wire Accept Outside.
From Verif.Proofs Require Import Lib Base64P JsonP JsonDec SerdeP CodecP Errs GarbageP UnpackInv NamesP WireP ReadP ReadM Base64P CodecP WireU GrammarP SpellP NoPanic RoundP AcceptP.

Lemma is64_decodes s t : is_base64url s t -> b64dec t = Some s.
Proof.
  intros H. apply b64dec_spec; [|exact H]. destruct H as (gs & _ & ->). intros I. apply in_map_iff in I as (g & E & _).
  assert (A : forall n, nth n alphabet64 " "%char <> "="%char).
  { intros n. destruct (Nat.lt_ge_cases n (List.length alphabet64)) as [L|L].
    - intros Q. assert (J : In "="%char alphabet64) by (rewrite <- Q; now apply nth_In). vm_compute in J.
      repeat (destruct J as [J|J]; [discriminate J|]). exact J.
    - rewrite nth_overflow by exact L. discriminate. }
  exact (A _ E).
Qed.

Section Outside.
Context (C : crypto) (dir : bytes -> option diddoc) (own : bytes -> option secret).
Hypothesis FS : floats_stable (fparse C).
Let fp := fparse C.

Lemma says_read {A} (dec : raw -> res A) read t a : blind fp true dec -> reads fp 127 dec read -> says C read t a -> from_json dec t = Ok a.
Proof.
  intros K R (v & D & H). rewrite (respelled_plainly fp FS dec t v K D).
  apply (read_as fp 127 dec read v a R); [exact (denotes_tree fp FS t v (plainly_denotes _ _ _ D))|exact H].
Qed.
Lemma encloses_read {A} (dec : raw -> res A) read t a : blind fp true dec -> reads fp 127 dec read -> encloses C read t a ->
  exists s, b64dec t = Some s /\ from_json dec s = Ok a.
Proof. intros K R (s & E & H). exists s. split; [now apply is64_decodes|now apply (says_read dec read)]. Qed.
Lemma jwe_says text j : says C jwe_read text j -> jwe_from_str text = Ok j.
Proof. apply says_read; [apply blind_jwe|apply reads_jwe]. Qed.
Lemma jws_says text j : says C jws_read text j -> jws_from_str text = Ok j.
Proof. apply says_read; [apply blind_jws|apply reads_jws]. Qed.
Lemma jwe_mute text : mute C jwe_read text -> jwe_from_str text = Err Malformed.
Proof.
  intros (v & D & N). unfold jwe_from_str. rewrite (respelled_plainly fp FS _ text v (blind_jwe fp) D).
  exact (jwe_unread fp 127 v (denotes_tree fp FS text v (plainly_denotes _ _ _ D)) N).
Qed.
Lemma jws_mute text : mute C jws_read text -> jws_from_str text = Err Malformed.
Proof.
  intros (v & D & N). unfold jws_from_str. rewrite (respelled_plainly fp FS _ text v (blind_jws fp) D).
  exact (jws_unread fp 127 v (denotes_tree fp FS text v (plainly_denotes _ _ _ D)) N).
Qed.
Lemma message_says text m : says C message_read text m -> exists m', message_from_str fp text = Ok m' /\ same_message m m'.
Proof.
  intros (v & D & H). pose proof (denotes_tree fp FS text v (plainly_denotes _ _ _ D)) as T.
  unfold message_from_str. rewrite (respelled fp FS _ text v (blind_message fp false) (plainly_denotes _ _ _ D)).
  rewrite from_json_print by (eapply wfv_printable, wf_of; eauto). now apply message_complete.
Qed.
Lemma message_mute text : mute C message_read text -> message_from_str fp text = Err Malformed.
Proof.
  intros (v & D & N). pose proof (denotes_tree fp FS text v (plainly_denotes _ _ _ D)) as T.
  unfold message_from_str. rewrite (respelled fp FS _ text v (blind_message fp false) (plainly_denotes _ _ _ D)).
  assert (Q : errs (fun k => k = Malformed) (from_json (de_message fp) (print v))).
  { apply print_errs; [eapply wfv_printable, wf_of; eauto|]. apply errs_message; auto. intros e []. }
  destruct (from_json (de_message fp) (print v)) as [m| |] eqn:E; cbn in Q; [|congruence|destruct Q].
  rewrite from_json_print in E by (eapply wfv_printable, wf_of; eauto). destruct (N m). now apply (message_sound fp).
Qed.
Lemma jwe_text_envelope text j h : jwe_text C text j h -> envelope C text j h.
Proof.
  intros [J H]. split; [now apply jwe_says|].
  exact (encloses_read _ _ _ _ (blind_jwe_header C) (reads_jwe_header fp C 126 eq_refl ltac:(lia)) H).
Qed.
Lemma sender_announced h apu : sender_named h apu -> announces h apu.
Proof. unfold sender_named, announces. destruct (ph_apu h), apu; auto. apply is64_decodes. Qed.
Lemma decrypts_opened ce ka j h sender kid k pt : ph_alg h = match sender with None => EcdhEsA256kw | Some _ => Ecdh1puA256kw end ->
  decrypts C ce ka j h sender kid k pt -> opened C ce ka j h sender kid k pt.
Proof.
  intros A (rc & ek & epk & apv & tag & kw & c & cek & iv & ct & F & E1 & E2 & E3 & E4 & E5 & E6 & E7 & E8 & E9 & E10).
  exists cek, iv, ct, tag. split; [|split; [now apply is64_decodes|split; [now apply is64_decodes|split; [now apply is64_decodes|exact E10]]]].
  exists rc, ek, epk, apv, tag, kw, c. split; [exact F|]. split; [now apply is64_decodes|]. split; [exact E2|].
  split; [now apply is64_decodes|]. split; [now apply is64_decodes|]. rewrite A. destruct sender as [[apu s]|]; auto.
Qed.
Lemma digest_ok j h : recipients_digest C j h -> one_did (recipient_kids j) /\ exists apv, b64dec (ph_apv h) = Some apv /\ apv_for C (recipient_kids j) apv.
Proof. intros [O (apv & E & A)]. split; auto. exists apv. split; auto. now apply is64_decodes. Qed.
Lemma anonymous_valid text j alg pt : anonymous C own text j alg pt -> anon_valid C (opens_each C own) text j alg pt.
Proof.
  intros (h & ce & T & A & E & N & S & D & U & H1 & H2). destruct (digest_ok _ _ D) as (O & apv & V1 & V2).
  exists h, apv, ce. split; [now apply jwe_text_envelope|]. split; [exact A|]. split; [exact E|]. split; [now apply sender_announced|].
  split; [exact S|]. split; [exact V1|]. split; [exact V2|]. split; [exact O|]. split; [now apply utf8_iff|]. split; [exact H1|].
  intros kid sec I W. destruct (H2 kid sec I W) as (ka & k & K & KA & X). exists ka, k. split; [exact K|]. split; [exact KA|]. now apply decrypts_opened.
Qed.
Lemma authenticated_valid text j from pt : authenticated C dir own text j from pt -> auth_valid C dir (opens_each C own) text j from pt.
Proof.
  intros (h & did & doc & ka & fk & T & A & E & N & UF & S & D & U & UR & RD & PU & KA & H1 & H2). destruct (digest_ok _ _ D) as (O & apv & V1 & V2).
  exists h, apv, did, doc, ka, fk. split; [now apply jwe_text_envelope|]. split; [exact A|]. split; [exact E|]. split; [now apply sender_announced|].
  split; [now apply utf8_iff|]. split; [exact S|]. split; [exact V1|]. split; [exact V2|]. split; [exact O|]. split; [now apply utf8_iff|].
  split; [exact UR|]. split; [exact RD|]. split; [exact PU|]. split; [exact KA|]. split; [exact H1|].
  intros kid sec I W. destruct (H2 kid sec I W) as (ka' & k & K & -> & X). exists ka, k. split; [exact K|]. split; [reflexivity|]. now apply decrypts_opened.
Qed.
Lemma not_sealed_other alg text : not_sealed C alg text -> other_jwe C alg text.
Proof.
  intros [M|(j & h & apv & apu & T & A & V & N)]; [left; now apply jwe_mute|right].
  exists j, h, apv, apu. split; [now apply jwe_text_envelope|]. split; [exact A|]. split; [now apply is64_decodes|now apply sender_announced].
Qed.
Lemma signed_text_valid text kid sa payload : signed_text C dir text kid sa payload -> signed_valid C dir text kid sa payload.
Proof.
  intros (j & sg & h & J & SG & K & H & (did & doc & ka & k & st & s & R & U & D & P & E & V) & E' & U').
  destruct (encloses_read _ _ _ _ (blind_jws_header fp true) (reads_jws_header fp 127) H) as (hb & B1 & B2).
  exists j, sg, hb, h, did, doc, ka, k, st, s. split; [now apply jws_says|].
  repeat (split; [solve [assumption|now apply is64_decodes]|]). now apply utf8_iff.
Qed.
Lemma is64_no_dot s t : is_base64url s t -> ~ In "."%char t.
Proof.
  intros (gs & _ & ->) I. apply in_map_iff in I as (g & E & _).
  assert (A : forall n, nth n alphabet64 " "%char <> "."%char).
  { intros n. destruct (Nat.lt_ge_cases n (List.length alphabet64)) as [L|L].
    - intros Q. assert (J : In "."%char alphabet64) by (rewrite <- Q; now apply nth_In). vm_compute in J.
      repeat (destruct J as [J|J]; [discriminate J|]). exact J.
    - rewrite nth_overflow by exact L. discriminate. }
  exact (A _ E).
Qed.
Lemma token_text_valid jwt p kid : token_text C dir jwt p kid -> rotation_valid C dir jwt p kid.
Proof.
  intros (hd & pl & sg & h & sa & J & H & T & K & (did & doc & ka & k & st & s & R & U & D & P & E & V) & payload & E' & U' & S).
  destruct (encloses_read _ _ _ _ (blind_compact_header fp) (reads_token_header fp 127) H) as (hb & B1 & B2).
  destruct H as (hb' & H64 & _).
  exists hd, pl, sg, hb, h, did, doc, ka, k, st, sa, s, payload. split; [exact J|].
  split; [eapply is64_no_dot; eauto|]. split; [eapply is64_no_dot; eauto|]. split; [eapply is64_no_dot; eauto|].
  repeat (split; [solve [assumption|now apply is64_decodes|now apply utf8_iff]|]).
  exact (says_read _ _ _ _ (blind_prior C true) (reads_prior fp C 126 eq_refl) S).
Qed.
Lemma forwards_same m m' next v : same_message m m' -> forwards m' next v -> forwards m next v.
Proof.
  intros (_ & _ & S1 & S2 & _ & _ & _ & _ & _ & _ & _ & S3 & _) (body & att & rest & js & F1 & F2 & F3 & F4 & F5).
  exists body, att, rest, js. repeat (split; [congruence|]). exact F5.
Qed.
Lemma same_sym m m' : same_message m m' -> same_message m' m.
Proof. unfold same_message. intuition (symmetry; auto). Qed.
Lemma forwards_dec m : (exists next v, forwards m next v) \/ forall next v, ~ forwards m next v.
Proof.
  destruct (list_eq_dec ascii_dec (msg_type m) (B "https://didcomm.org/routing/2.0/forward")) as [E|E]; [|right; intros n0 v0 (b0 & a0 & r0 & js0 & X & _); congruence].
  destruct (msg_body m) as [| | | | |body] eqn:E1; try (right; intros n0 v0 (b0 & a0 & r0 & js0 & _ & X & _); rewrite E1 in X; discriminate X).
  destruct (amap_get (B "next") body) as [[| | |next| |]|] eqn:E2;
    try (right; intros n0 v0 (b0 & a0 & r0 & js0 & _ & X & Y & _); rewrite E1 in X; injection X as <-; rewrite E2 in Y; discriminate Y).
  destruct (msg_attachments m) as [[|a r]|] eqn:E3; try (right; intros n0 v0 (b0 & a0 & r0 & js0 & _ & _ & _ & X & _); rewrite E3 in X; discriminate X).
  destruct (att_data a) as [|v js|] eqn:E4; try (right; intros n0 v0 (b0 & a0 & r0 & js0 & _ & _ & _ & X & Y); rewrite E3 in X; injection X as <- <-; rewrite E4 in Y; discriminate Y).
  left. exists next, v, body, a, r, js. auto.
Qed.
Lemma peeled_layers o n text rew last t : peeled C dir own o n text rew last t -> layers C dir own (opens_each C own) o n text rew last t.
Proof.
  induction 1 as [text N|text j alg pt A U|n text j alg pt m next v rew last text' A U S F M P IH].
  - constructor. now apply not_sealed_other.
  - constructor; [now apply anonymous_valid|]. intros W. destruct (U W) as [M|(m & S & F)]; [left; now apply message_mute|right].
    destruct (message_says _ _ S) as (m' & E & SM). destruct (forwards_dec m') as [(next & v & G)|G].
    + right. exists next, v. split; [|apply (F next v); now apply (forwards_same m m')].
      destruct G as (b & a & r & js & G). exists m', b, a, r, js. split; auto.
    + left. exists m'. split; auto. intros next v (m2 & b & a & r & js & E2 & G2). unfold fp in E. rewrite E in E2. injection E2 as <-.
      apply (G next v). exists b, a, r, js. exact G2.
  - destruct (message_says _ _ S) as (m' & E & SM). econstructor; eauto using anonymous_valid.
    destruct (forwards_same _ _ _ _ (same_sym _ _ SM) F) as (b & a & r & js & G). exists m', b, a, r, js. split; auto.
Qed.
Lemma conveys_valid o n text m md : conveys C dir own o n text m md -> exists m', same_message m m' /\ valid C dir own o n text m' md.
Proof.
  intros (rew & anon & auth & sign & prior & t1 & t2 & t3 & L & A & S & R & T & P & ->).
  destruct (message_says _ _ R) as (m' & E & SM). exists m'. split; [exact SM|].
  exists rew, anon, auth, sign, prior, t1, t2, t3. split; [now apply peeled_layers|].
  split. { destruct auth as [[kids from]|]; [|destruct A; split; auto using not_sealed_other]. destruct A as (j & A & E'). exists j. auto using authenticated_valid. }
  split. { destruct sign as [[kid sa]|]; [now apply signed_text_valid|]. destruct S. split; auto using jws_mute. }
  split; [exact E|]. destruct SM as (_ & S1 & _ & _ & _ & _ & _ & _ & _ & _ & S2 & _). split; [congruence|].
  split; [|reflexivity]. destruct prior as [[p kid]|]; [|congruence]. destruct P as (jwt & J & V). exists jwt. split; [congruence|now apply token_text_valid].
Qed.
End Outside.
