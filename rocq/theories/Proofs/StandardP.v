(** A record with the standard ciphers is lawful, works and gives results of the standard sizes. *)
From Coq Require Import Lia.
From Verif.Model Require Import Prelude Json Crypto.
From Verif.Spec Require Import Small Codec Events World Packing Accept Works Size Bounds Sha2 Aes Chacha Ciphers Standard.
From Verif.Proofs Require Import Lib AesP CipherP StdP.

Lemma fit_ok n s : List.length (fit n s) = n /\ byt (fit n s).
Proof.
  unfold fit. split.
  - apply firstn_length_le. rewrite app_length. unfold zeros. rewrite repeat_length. lia.
  - apply byt_firstn, byt_app; [apply ns_byt|]. apply repeat_byt. reflexivity.
Qed.
Lemma right_lengths_ok ce k n : right_lengths ce k n = true <-> List.length k = cek_len ce /\ List.length n = nonce_len ce.
Proof. unfold right_lengths. rewrite andb_true_iff, !Nat.eqb_eq. tauto. Qed.
Lemma cipher_bytes kl nl tl grow enc dec k n aad p : cipher kl nl tl grow enc dec -> List.length k = kl -> List.length n = nl ->
  exists c t, enc (ns k) (ns n) (ns aad) (ns p) = (c, t) /\ option_map bs (dec (ns k) (ns n) (ns aad) (ns (bs c ++ bs t))) = Some p
    /\ size (bs c) = grow (size p) /\ size (bs t) = tl.
Proof.
  intros H KL NL. specialize (H (ns k) (ns n) (ns aad) (ns p)). rewrite !ns_length in H. specialize (H KL (ns_byt k) NL (ns_byt n) (ns_byt p)).
  destruct (enc (ns k) (ns n) (ns aad) (ns p)) as [c t]. destruct H as (D & CB & TB & CL & TL). exists c, t. split; [reflexivity|].
  rewrite ns_app, !ns_bs, D by assumption. cbn [option_map]. rewrite bs_ns. unfold size. rewrite !bs_length. auto.
Qed.
Lemma enc_ok ce k n aad p : List.length k = cek_len ce -> List.length n = nonce_len ce ->
  exists c t, std_enc ce k n aad p = Some (c, t) /\ std_dec ce k n aad (c ++ t) = Some p
    /\ size c = body_size ce (size p) /\ size t = tag_size ce.
Proof.
  intros KL NL. unfold std_enc, std_dec. rewrite (proj2 (right_lengths_ok ce k n)) by auto. destruct ce.
  - destruct (cipher_bytes _ _ _ _ _ _ k n aad p cbchs_cipher KL NL) as (c & t & E & D & L1 & L2).
    exists (bs c), (bs t). rewrite E. split; [reflexivity|]. split; [exact D|]. split; [exact L1|exact L2].
  - destruct (cipher_bytes _ _ _ _ _ _ k n aad p xc20p_cipher KL NL) as (c & t & E & D & L1 & L2).
    exists (bs c), (bs t). rewrite E. split; [reflexivity|]. split; [exact D|]. split; [exact L1|exact L2].
  - destruct (cipher_bytes _ _ _ _ _ _ k n aad p gcm_cipher KL NL) as (c & t & E & D & L1 & L2).
    exists (bs c), (bs t). rewrite E. split; [reflexivity|]. split; [exact D|]. split; [exact L1|exact L2].
Qed.
Lemma wrappable_ok x : wrappable x = true <-> exists n, List.length x = 8 * n /\ 2 <= n.
Proof.
  unfold wrappable. rewrite andb_true_iff, Nat.eqb_eq, Nat.leb_le. split.
  - intros [A B]. exists (List.length x / 8). assert (E : List.length x = 8 * (List.length x / 8)) by (apply Nat.div_exact; [lia|exact A]). split; [exact E|lia].
  - intros (n & -> & H). split; [rewrite Nat.mul_comm; apply Nat.mod_mul; lia|lia].
Qed.
Lemma wrap_ok k x w : std_wrap k x = Some w -> std_unwrap k w = Some x /\ size w = size x + 8.
Proof.
  unfold std_wrap, std_unwrap. destruct (wrappable x) eqn:W; [|discriminate]. intros E. injection E as <-.
  apply wrappable_ok in W as (n & L & N2). destruct (fit_ok 32 k) as [FL FB].
  destruct (kw_undone (fit 32 k) (ns x) n FL FB (ns_byt x)) as (U & WL & WB); [now rewrite ns_length|exact N2|].
  rewrite ns_bs, U by exact WB. cbn [option_map]. rewrite bs_ns. split; [reflexivity|]. unfold size. rewrite bs_length, WL, L. reflexivity.
Qed.
Lemma cek_ok ce e k : std_cek ce e = Some k -> List.length k = cek_len ce.
Proof. unfold std_cek. intros E. injection E as <-. rewrite bs_length. apply fit_ok. Qed.
Lemma nonce_ok ce e : List.length (std_nonce ce e) = nonce_len ce.
Proof. unfold std_nonce. rewrite bs_length. apply fit_ok. Qed.

Ltac see := cbn [standard key key_sign key_verify key_gen to_jwk_public from_jwk ecdh_es ecdh_1pu kw_wrap kw_unwrap cek_gen cek_import nonce_gen aead_enc aead_dec sha256 fparse].
Lemma standard_lawful C pair : keys_agree C pair -> lawful (standard C) pair.
Proof.
  intros [S E P J]. constructor; see.
  - exact S.
  - intros a e epk jwk p s alg apu apv kw PR G T H. destruct (ecdh_es C a epk p alg apu apv false) as [z|] eqn:Z; [|discriminate].
    destruct (E a e epk jwk p s alg apu apv z PR G T Z) as (epk' & F & R). exists epk'. split; [exact F|]. now rewrite R.
  - intros a e epk jwk p s p' s' alg apu apv tag kw PR PR' G T H. destruct (ecdh_1pu C a epk s' p alg apu apv tag false) as [z|] eqn:Z; [|discriminate].
    destruct (P a e epk jwk p s p' s' alg apu apv tag z PR PR' G T Z) as (epk' & F & R). exists epk'. split; [exact F|]. now rewrite R.
  - intros kw x w H. now apply wrap_ok.
  - intros ce e k H. unfold std_import. rewrite (cek_ok ce e k H), Nat.eqb_refl. reflexivity.
  - intros ce k iv aad pt ct tag H. assert (R : right_lengths ce k iv = true) by (unfold std_enc in H; destruct (right_lengths ce k iv); [reflexivity|discriminate]).
    apply right_lengths_ok in R as [KL NL]. destruct (enc_ok ce k iv aad pt KL NL) as (c & t & E1 & D & _). rewrite E1 in H. injection H as <- <-. exact D.
  - exact J.
Qed.
Lemma cek_wrappable ce k : List.length k = cek_len ce -> wrappable k = true.
Proof. intros H. apply wrappable_ok. destruct ce; [exists 8|exists 4|exists 4]; rewrite H; cbn; lia. Qed.
Lemma standard_works C pair : keys_work C pair -> working (standard C) pair.
Proof.
  intros [G J E P S]. split; [|split]; [split; [|split; [|split; [|split; [|split]]]]|..]; see.
  - discriminate.
  - exact G.
  - exact J.
  - intros ce e cek n aad pt H. destruct (enc_ok ce cek (std_nonce ce n) aad pt (cek_ok ce e cek H) (nonce_ok ce n)) as (c & t & E1 & _). rewrite E1. discriminate.
  - intros ce e cek kw H. unfold std_wrap. rewrite (cek_wrappable ce cek (cek_ok ce e cek H)). discriminate.
  - intros a e epk v p alg apu apv A K F. specialize (E a e epk v p alg apu apv A K F). destruct (ecdh_es C a epk p alg apu apv false); [discriminate|congruence].
  - intros a e epk v p ps s alg apu apv tag A K F PR. specialize (P a e epk v p ps s alg apu apv tag A K F PR).
    destruct (ecdh_1pu C a epk s p alg apu apv tag false); [discriminate|congruence].
  - exact S.
Qed.
Lemma standard_sized C epk : keys_sized C epk -> sized (standard C) epk.
Proof.
  intros [S E]. constructor; see.
  - intros ce k n aad pt ct tag H. assert (R : right_lengths ce k n = true) by (unfold std_enc in H; destruct (right_lengths ce k n); [reflexivity|discriminate]).
    apply right_lengths_ok in R as [KL NL]. destruct (enc_ok ce k n aad pt KL NL) as (c & t & E1 & _ & L). rewrite E1 in H. injection H as <- <-. exact L.
  - intros ce e k H. unfold size. rewrite (cek_ok ce e k H). now destruct ce.
  - intros ce e. unfold size. rewrite nonce_ok. now destruct ce.
  - intros kw k w H. now apply wrap_ok in H.
  - intros x. unfold std_sha256, size. rewrite bs_length. apply sha256_ok.
  - exact S.
  - exact E.
Qed.

(** Opening yields no more bytes than there were. *)
Lemma strm_le w g : forall fuel i p, (List.length (strm w g fuel i p) <= List.length p)%nat.
Proof.
  induction fuel as [|f IH]; intros i p; [cbn; lia|]. destruct p as [|x p]; [cbn; lia|]. cbn [strm].
  rewrite app_length, xors_length. specialize (IH (i + 1)%N (skipn w (x :: p))). rewrite <- (firstn_skipn w (x :: p)) at 3. rewrite app_length. lia.
Qed.
Lemma cbc_d_le rk : forall bl v, (List.length v <= 16)%nat -> Forall (fun b => List.length b = 16%nat) bl ->
  (List.length (List.concat (cbc_d rk v bl)) <= 16 * List.length bl)%nat.
Proof.
  induction bl as [|b bl IH]; intros v V F; [cbn; lia|]. inversion F as [|b0 bl0 B F']; subst. cbn [cbc_d List.concat List.length].
  rewrite app_length, xors_length. specialize (IH b ltac:(lia) F'). lia.
Qed.
Lemma cbc_dec_le key iv c p : List.length iv = 16%nat -> Nat.modulo (List.length c) 16 = 0%nat -> cbc_dec key iv c = Some p -> (List.length p <= List.length c)%nat.
Proof.
  intros IV M. unfold cbc_dec. rewrite fold_cbc_d. cbn [rev app].
  assert (D : List.length c = (16 * (List.length c / 16))%nat) by (apply Nat.div_exact; [lia|exact M]).
  destruct (chunks_whole 16 (List.length c / 16) c (List.length c)) as (_ & C2 & C3); [lia|exact D|lia|].
  pose proof (cbc_d_le (round_keys key) (chunks (List.length c) 16 c) iv ltac:(lia) C2) as L. rewrite C3, <- D in L.
  set (q := List.concat (cbc_d (round_keys key) iv (chunks (List.length c) 16 c))) in *. cbv zeta.
  destruct (_ && _); [|discriminate]. intros E. injection E as <-. rewrite firstn_length. lia.
Qed.
Lemma standard_shrinks C : aead_shrinks (standard C).
Proof.
  intros ce k n aad c p. see. unfold std_dec. destruct (right_lengths ce k n) eqn:R; [|discriminate]. apply right_lengths_ok in R as [KL NL].
  cbv zeta. set (f := match ce with CA256CbcHs512 => cbchs_dec | CXC20P => xc20p_dec | CA256Gcm => gcm_dec end).
  destruct (f (ns k) (ns n) (ns aad) (ns c)) as [q|] eqn:E; [|discriminate]. cbn [option_map]. intros H. injection H as <-. rewrite bs_length, <- (ns_length c).
  unfold f in E. clear f. destruct ce.
  - unfold cbchs_dec in E. destruct (Nat.leb 32 _); [|discriminate]. cbv zeta in E. destruct (eqs _ _); [|discriminate].
    cbn [andb] in E. destruct (Nat.eqb _ 0) eqn:M; [|discriminate]. apply Nat.eqb_eq in M. apply cbc_dec_le in E; [|rewrite ns_length; exact NL|exact M].
    rewrite firstn_length in E. lia.
  - unfold xc20p_dec in E. destruct (Nat.leb 16 _); [|discriminate]. cbv zeta in E. destruct (eqs _ _); [|discriminate]. injection E as <-.
    rewrite chacha_strm. eapply Nat.le_trans; [apply strm_le|]. rewrite firstn_length. lia.
  - unfold gcm_dec in E. destruct (Nat.leb 16 _); [|discriminate]. cbv zeta in E. destruct (eqs _ _); [|discriminate]. injection E as <-.
    rewrite ctr_strm. eapply Nat.le_trans; [apply strm_le|]. rewrite firstn_length. lia.
Qed.
