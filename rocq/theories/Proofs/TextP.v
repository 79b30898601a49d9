(** The texts written by the model are the ones of Spec/Text.v. *)
From Verif.Model Require Import Prelude Utf8 Base64 Json Serde DidDoc Crypto Keys Effects Jws Jwe Message FromPrior Pack Routing.
From Verif.Spec Require Import Codec Small Text.
From Verif.Proofs Require Import Lib JsonP JsonDec SerdeP.
From Coq Require Import Lia.

(** ** Strings *)
Lemma low_char c : nat_of_ascii c < 32 -> In c (map ascii_of_nat (seq 0 32)).
Proof. intros L. apply in_map_iff. exists (nat_of_ascii c). split; [apply ascii_nat_embedding|]. apply in_seq. lia. Qed.
Lemma high_char c : 32 <= nat_of_ascii c -> c <> """"%char -> c <> "\"%char -> esc_char c = [c].
Proof.
  intros G N1 N2. unfold nat_of_ascii in G. unfold esc_char. set (n := N_of_ascii c) in *.
  assert (n <> 34)%N by (intros E; apply N1; rewrite <- (ascii_N_embedding c); fold n; now rewrite E).
  assert (n <> 92)%N by (intros E; apply N2; rewrite <- (ascii_N_embedding c); fold n; now rewrite E).
  clearbody n. destruct (N.eqb_spec n 34); [contradiction|]. destruct (N.eqb_spec n 92); [contradiction|].
  destruct (N.eqb_spec n 8); [lia|]. destruct (N.eqb_spec n 9); [lia|]. destruct (N.eqb_spec n 10); [lia|].
  destruct (N.eqb_spec n 12); [lia|]. destruct (N.eqb_spec n 13); [lia|]. destruct (N.ltb_spec n 32); [lia|]. reflexivity.
Qed.
Lemma esc_text c : char_text c (esc_char c).
Proof.
  destruct (le_lt_dec 32 (nat_of_ascii c)) as [G|L].
  - destruct (ascii_dec c """"%char) as [->|N1]; [exact ct_quote|]. destruct (ascii_dec c "\"%char) as [->|N2]; [exact ct_backslash|].
    rewrite high_char by assumption. now constructor.
  - pose proof (low_char c L) as I. cbn [seq map In] in I.
    repeat (destruct I as [<-|I]; [first [exact ct_b|exact ct_t|exact ct_n|exact ct_f|exact ct_r
      |exact (ct_u _ _ eq_refl L ltac:(vm_compute; intuition discriminate))]|]). destruct I.
Qed.
Lemma text_esc c t : char_text c t -> t = esc_char c.
Proof.
  intros H. inversion H as [| | | | | | |c' n E L N E1 E2|c' L N1 N2 E1 E2]; subst; try reflexivity.
  - pose proof (low_char c L) as I. cbn [seq map In] in I.
    repeat (destruct I as [<-|I]; [first [reflexivity|exfalso; apply N; vm_compute; tauto]|]). destruct I.
  - symmetry. now apply high_char.
Qed.
Lemma string_text_iff s t : string_text s t <-> t = print_str s.
Proof.
  split.
  - intros (us & F & ->). unfold print_str. change (B """") with [""""%char]. cbn [app]. do 2 f_equal.
    induction F as [|c u s us H F IH]; [reflexivity|]. cbn. now rewrite IH, (text_esc _ _ H).
  - intros ->. exists (map esc_char s). split; [induction s; constructor; auto using esc_text|].
    unfold print_str, esc_str. now rewrite flat_map_concat_map.
Qed.

(** ** Numbers *)
Definition dval (s : bytes) : N := be_value 10 (map (fun c => N_of_ascii c - 48)%N s).
Lemma dval_snoc s c : dval (s ++ [c]) = (dval s * 10 + (N_of_ascii c - 48))%N.
Proof. unfold dval, be_value. rewrite map_app, fold_left_app. reflexivity. Qed.
Lemma dval_dec s : dval s = dec_val s.
Proof.
  unfold dval, be_value, dec_val. generalize 0%N. induction s as [|c s IH]; intros a; cbn [map fold_left]; auto.
Qed.
Definition dig (c : ascii) : Prop := exists k, (k < 10)%N /\ N_of_ascii c = (48 + k)%N.
Lemma digit09_dig c : digit09 c -> dig c.
Proof.
  unfold digit09. cbn. intros H. unfold dig.
  repeat (destruct H as [<-|H]; [match goal with |- exists k, _ /\ N_of_ascii ?c = _ => exists (N_of_ascii c - 48)%N end; split; reflexivity|]). destruct H.
Qed.
Lemma dig_inj c c' : dig c -> dig c' -> (N_of_ascii c - 48 = N_of_ascii c' - 48)%N -> c = c'.
Proof.
  intros (k & K & E) (k' & K' & E') H. rewrite <- (ascii_N_embedding c), <- (ascii_N_embedding c'). f_equal. lia.
Qed.
Definition lead (s : bytes) : Prop := match s with [] => True | c :: _ => N_of_ascii c <> 48%N end.
Lemma dval_pos s : Forall dig s -> lead s -> s <> [] -> (0 < dval s)%N.
Proof.
  induction s as [|c s IH] using rev_ind; intros F L N; [congruence|]. rewrite dval_snoc.
  apply Forall_app in F as [F G]. inversion_clear G as [|? ? D _]. destruct D as (k & K & E). destruct s as [|d s].
  - cbn in L. cbn. lia.
  - assert (0 < dval (d :: s))%N by (apply IH; auto; discriminate). lia.
Qed.
Lemma dval_inj s : forall t, Forall dig s -> Forall dig t -> lead s -> lead t -> dval s = dval t -> s = t.
Proof.
  induction s as [|c s IH] using rev_ind; intros t F G L M E.
  - destruct t as [|d t]; auto. assert (0 < dval (d :: t))%N by (apply dval_pos; auto; discriminate). change (dval []) with 0%N in E. lia.
  - destruct (exists_last (l := t)) as (t' & d & ->).
    { intros ->. assert (0 < dval (s ++ [c]))%N by (apply dval_pos; auto; destruct s; discriminate). change (dval []) with 0%N in E. lia. }
    rewrite !dval_snoc in E. apply Forall_app in F as [F F1]. apply Forall_app in G as [G G1].
    inversion_clear F1 as [|? ? D _]. inversion_clear G1 as [|? ? D' _]. pose proof D as (k & K & X). pose proof D' as (k' & K' & X').
    assert (dval s = dval t' /\ k = k') as [E1 <-] by lia.
    rewrite (IH t'); auto.
    + f_equal. f_equal. apply dig_inj; auto. lia.
    + destruct s; cbn in *; auto.
    + destruct t'; cbn in *; auto.
Qed.
Lemma is_digit_09 c : is_digit c = true -> digit09 c.
Proof. unfold digit09. destruct c as [[] [] [] [] [] [] [] []]; vm_compute; intros E; try discriminate; tauto. Qed.
Lemma digits_09 s : digits s -> Forall digit09 s.
Proof. unfold digits. intros H. apply Forall_forall. intros c I. rewrite forallb_forall in H. now apply is_digit_09, H. Qed.
Lemma decimal_iff n t : decimal n t <-> t = print_N n.
Proof.
  destruct (print_N_ok n) as (D & V & (c & s & E & Z) & P). set (pn := print_N n) in *.
  assert (J : json_int (print_N n)).
  { destruct (N.eq_dec n 0) as [E0|N0]; [left; unfold pn; now rewrite E0|].
    unfold json_int. rewrite E in *. apply digits_09 in D. inversion_clear D as [|? ? D1 D2].
    - right. exists c, s. split; auto. split; auto. specialize (P N0 c s eq_refl). apply Ascii.eqb_neq in P.
      unfold digit09 in D1. cbn in D1 |- *. intuition congruence. }
  split.
  - intros (J' & H). fold (dval t) in H. destruct J' as [->|(c' & s' & -> & I & F)].
    + cbn in H. unfold pn. rewrite <- H. reflexivity.
    + assert (C9 : digit09 c') by (right; exact I).
      assert (L : lead (c' :: s')).
      { cbn. intros Q. assert (c' = "0"%char) by (rewrite <- (ascii_N_embedding c'), Q; reflexivity). subst c'. revert I. cbn. intuition discriminate. }
      assert (FD : Forall dig (c' :: s')) by (constructor; [now apply digit09_dig|]; eapply Forall_impl; [apply digit09_dig|exact F]).
      assert (n <> 0)%N. { pose proof (dval_pos _ FD L ltac:(discriminate)). lia. }
      apply dval_inj; auto.
      * eapply Forall_impl; [apply digit09_dig|]. now apply digits_09.
      * rewrite E. cbn. intros Q. specialize (P H0 c s E). apply Ascii.eqb_neq in P. apply P.
        rewrite <- (ascii_N_embedding c), Q. reflexivity.
      * now rewrite H, dval_dec.
  - intros ->. split; [exact J|]. fold (dval pn). now rewrite dval_dec.
Qed.

(** ** Values *)
Lemma join_commas l : join (B ",") l = commas l.
Proof. induction l as [|t l IH]; [reflexivity|]. destruct l; [reflexivity|]. cbn [join commas] in *. now rewrite IH. Qed.
Lemma json_text_print v : json_text v (print v).
Proof.
  induction v as [| b | n | s | l IH | l IH] using value_ind'.
  - constructor.
  - destruct b; constructor.
  - destruct n as [n|n|x]; [apply jx_pos|apply (jx_neg n (print_N n))|apply jx_float]; now apply decimal_iff.
  - constructor. now apply string_text_iff.
  - cbn [print]. rewrite join_commas. apply (jx_arr l (map print l)). induction IH; constructor; auto.
  - cbn [print]. rewrite join_commas. apply (jx_obj l). induction IH as [|[k x] l H IH IH']; constructor; auto.
    exists (print_str k), (print x). split; [now apply string_text_iff|]. auto.
Qed.
Lemma json_text_fun v : forall t, json_text v t -> t = print v.
Proof.
  induction v as [| b | n | s | l IH | l IH] using value_ind'; intros t H; inversion H as [| | |n' t' D|n' t' D| |s' t' S|l' ts F|l' ts F]; subst; try reflexivity.
  - now apply decimal_iff.
  - cbn. f_equal. now apply decimal_iff.
  - now apply string_text_iff.
  - cbn [print]. rewrite join_commas. change (B "[" ++ commas ts ++ B "]") with ("["%char :: commas ts ++ ["]"%char]). do 3 f_equal.
    clear H. induction F as [|x t l ts X F IHF]; [reflexivity|]. inversion_clear IH as [|? ? I1 I2]. cbn. f_equal; auto.
  - cbn [print]. rewrite join_commas. change (B "{" ++ commas ts ++ B "}") with ("{"%char :: commas ts ++ ["}"%char]). do 3 f_equal.
    clear H. induction F as [|x t l ts X F IHF]; [reflexivity|]. inversion_clear IH as [|? ? I1 I2]. cbn [map]. f_equal; auto.
    destruct X as (a & b & A & X & ->). apply string_text_iff in A. subst a. now rewrite (I1 _ X).
Qed.

(** ** Records *)
Definition mtext (kv : bytes * value) : bytes := print_str (fst kv) ++ B ":" ++ print (snd kv).
Lemma print_obj l : print (VObj l) = obj_text (map mtext l).
Proof. cbn [print]. rewrite join_commas. reflexivity. Qed.
Lemma print_arr {A} (f : A -> value) l : print (VArr (map f l)) = list_text (fun x => print (f x)) l.
Proof. cbn [print]. rewrite join_commas, map_map. reflexivity. Qed.
Lemma print_arr1 v : print (VArr [v]) = B "[" ++ print v ++ B "]".
Proof. reflexivity. Qed.
Lemma plain_str s : plain s = true -> print_str s = B """" ++ s ++ B """".
Proof.
  unfold plain. intros H. apply negb_true_iff in H. unfold print_str. change (B """") with [""""%char]. cbn [app]. do 2 f_equal.
  revert H. unfold esc_str. induction s as [|c s IH]; cbn [existsb flat_map]; intros H; [reflexivity|]. apply orb_false_iff in H as [H1 H2]. rewrite IH by auto.
  clear H2 IH. revert H1. destruct c as [[] [] [] [] [] [] [] []]; vm_compute; intros E; try discriminate E; reflexivity.
Qed.
Lemma mtext_lit k v : plain (B k) = true -> mtext (B k, v) = entry k (print v).
Proof. intros P. unfold mtext, entry. cbn [fst snd]. rewrite plain_str by exact P. now rewrite <- !app_assoc. Qed.
Lemma mtext_opt {A} k (f : A -> value) o : plain (B k) = true -> map mtext (opt_member k f o) = entries k (fun a => print (f a)) o.
Proof. intros P. destruct o; cbn [opt_member entries map]; [|reflexivity]. now rewrite mtext_lit. Qed.
Lemma entries_ext {A} k (f g : A -> bytes) o : (forall a, f a = g a) -> entries k f o = entries k g o.
Proof. intros H. destruct o; cbn; [|reflexivity]. now rewrite H. Qed.
Lemma print_b64 s : print (VStr (b64enc s)) = B """" ++ b64enc s ++ B """".
Proof. cbn [print]. apply plain_str, b64_plain. Qed.
Ltac members := rewrite print_obj; cbn [map]; rewrite ?map_app; cbn [map];
  rewrite ?mtext_lit by reflexivity; rewrite ?mtext_opt by reflexivity.

Lemma from_prior_written p : print (from_prior_tree p) = prior_text p.
Proof. unfold from_prior_tree. members. reflexivity. Qed.
Lemma VStrs_written l : print (VStrs l) = list_text str_text l.
Proof. unfold VStrs. now rewrite print_arr. Qed.
Lemma adata_written d : print (adata_tree d) = content_text d.
Proof. unfold adata_tree, content_text. destruct d; members; rewrite ?VStrs_written; reflexivity. Qed.
Lemma attachment_written a : print (attachment_tree a) = attachment_text a.
Proof. unfold attachment_tree. members. rewrite adata_written. reflexivity. Qed.
Lemma list_text_ext {A} (f g : A -> bytes) l : (forall a, f a = g a) -> list_text f l = list_text g l.
Proof. intros H. unfold list_text. now rewrite (map_ext _ _ H). Qed.
Lemma message_written m : message_text m = plain_text m.
Proof.
  unfold message_text, message_tree, message_members, plain_text. members.
  rewrite (entries_ext "to" (fun a => print (VStrs a)) _ _ VStrs_written).
  rewrite (entries_ext "attachments" (fun a => print (VArr (map attachment_tree a))) (list_text attachment_text)).
  2:{ intros l. rewrite print_arr. apply list_text_ext, attachment_written. }
  reflexivity.
Qed.

Lemma jwe_alg_text a : jwe_alg_str a = alg_text a. Proof. destruct a; reflexivity. Qed.
Lemma jwe_enc_text a : jwe_enc_str a = enc_text a. Proof. destruct a; reflexivity. Qed.
Ltac flat := unfold obj_text, entry, entries; cbn [commas app]; change (B "") with (@nil ascii); rewrite <- ?app_assoc.
Lemma jwe_header_written alg enc skid apv epk :
  print (jwe_header_tree (mkPH (Some (B "application/didcomm-encrypted+json")) alg enc skid (option_map b64enc skid) (b64enc apv) epk))
  = jwe_header_text alg enc skid apv epk.
Proof.
  unfold jwe_header_tree. cbn [ph_typ ph_alg ph_enc ph_skid ph_apu ph_apv ph_epk]. members.
  unfold jwe_header_text. rewrite jwe_alg_text, jwe_enc_text. destruct skid as [s|]; cbn [option_map entries]; rewrite !print_b64;
  generalize (print (VStr (alg_text alg))) (print (VStr (enc_text enc))) (b64enc apv) (print epk); intros a e v k;
  [generalize (print (VStr s)) (b64enc s); intros p q|]; unfold obj_text, entry, entries; cbn [commas app]; rewrite <- ?app_assoc; reflexivity.
Qed.
Lemma recipients_written rs (rcs : list recipient) : Forall2 (fun r rc => rc_kid rc = fst r /\ rc_key rc = b64enc (snd r)) rs rcs ->
  map (fun rc => print (recipient_tree rc)) rcs
  = map (fun r => B "{""header"":{""kid"":" ++ print (VStr (fst r)) ++ B "},""encrypted_key"":""" ++ b64enc (snd r) ++ B """}") rs.
Proof.
  induction 1 as [|r rc rs rcs (E & K) F IH]; [reflexivity|]. cbn [map]. rewrite <- IH. f_equal. unfold recipient_tree. members.
  rewrite E, K, print_b64. members. generalize (print (VStr (fst r))) (b64enc (snd r)); intros a b.
  unfold obj_text, entry; cbn [commas app]; rewrite <- ?app_assoc; reflexivity.
Qed.
Lemma jwe_written p rs rcs iv ct tag : plain p = true -> Forall2 (fun r rc => rc_kid rc = fst r /\ rc_key rc = b64enc (snd r)) rs rcs ->
  print (jwe_tree (mkJwe p rcs (b64enc iv) (b64enc ct) (b64enc tag))) = jwe_text p rs iv ct tag.
Proof.
  intros P F. unfold jwe_tree, jwe_text. cbn [jwe_protected jwe_recipients jwe_iv jwe_ciphertext jwe_tag]. members.
  rewrite !print_b64, print_arr. change (print (VStr p)) with (print_str p). rewrite plain_str by exact P. unfold list_text. rewrite (recipients_written _ _ F).
  match goal with |- context [commas (map ?f rs)] => generalize (commas (map f rs)) end.
  generalize (b64enc iv) (b64enc ct) (b64enc tag). intros a b c l.
  unfold obj_text, entry; cbn [commas app]; rewrite <- ?app_assoc; reflexivity.
Qed.
Lemma jws_header_written a : plain (jws_alg_str a) = true ->
  print (jws_header_tree (mkJH (B "application/didcomm-signed+json") a)) = jws_header_text (jws_alg_str a).
Proof.
  intros P. unfold jws_header_tree. cbn [jh_typ jh_alg]. members. cbn [print]. rewrite (plain_str _ P).
  unfold jws_header_text, obj_text, entry; cbn [commas app]; rewrite <- ?app_assoc; reflexivity.
Qed.
Lemma jws_written payload kid a sg : plain (jws_alg_str a) = true ->
  print (jws_tree (mkJws [mkSig kid (b64enc (print (jws_header_tree (mkJH (B "application/didcomm-signed+json") a)))) (b64enc sg)] (b64enc payload)))
  = jws_text payload kid (jws_alg_str a) sg.
Proof.
  intros P. rewrite jws_header_written by exact P. unfold jws_tree. cbn [jws_signatures jws_payload]. members.
  rewrite print_b64, print_arr1. unfold jws_sig_tree. cbn [sig_kid sig_protected sig_signature]. members.
  rewrite !print_b64. members. unfold jws_text. generalize (b64enc (jws_header_text (jws_alg_str a))) (b64enc sg) (b64enc payload) (print (VStr kid)).
  intros x y z w. unfold obj_text, entry; cbn [commas app]; rewrite <- ?app_assoc; reflexivity.
Qed.
Lemma token_header_written kid a : plain (jws_alg_str a) = true ->
  print (compact_header_tree (mkCH (B "JWT") a kid)) = token_header_text kid (jws_alg_str a).
Proof.
  intros P. unfold compact_header_tree. cbn [ch_typ ch_alg ch_kid]. members. cbn [print]. rewrite (plain_str _ P).
  unfold token_header_text, obj_text, entry. cbn [print]. generalize (print_str kid). intros k.
  cbn [commas app]; rewrite <- ?app_assoc; reflexivity.
Qed.
Lemma with_headers_extra l : forall m, exists hs, fold_left (fun m (kv : bytes * value) => mb_header (fst kv) (snd kv) m) l m
  = mkMsg (msg_id m) (msg_typ m) (msg_type m) (msg_body m) (msg_from m) (msg_to m) (msg_thid m) (msg_pthid m) hs (msg_created m) (msg_expires m)
      (msg_from_prior m) (msg_attachments m).
Proof.
  induction l as [|[k v] l IH]; intros m; cbn [fold_left].
  - exists (msg_extra m). destruct m; reflexivity.
  - destruct (IH (mb_header k v m)) as (hs & E). exists hs. cbn [fst snd]. rewrite E. reflexivity.
Qed.
Lemma json_written v : list_text attachment_text [ab_json v] = B "[{""data"":{""json"":" ++ print v ++ B "}}]".
Proof.
  unfold list_text, attachment_text, ab_json, ab_new, content_text, obj_text, entry. cbn [map commas att_data att_id att_description att_filename att_media_type att_format att_lastmod_time att_byte_count entries app].
  generalize (print v). intros t. rewrite <- ?app_assoc. reflexivity.
Qed.
Lemma forward_written id next headers v : exists hs, message_text (forward_message id next headers v) = forward_text id next hs v.
Proof.
  unfold forward_message. destruct (with_headers_extra (match headers with Some l => l | None => [] end) (mb_new id forward_type (VObj [(B "next", VStr next)]))) as (hs & E).
  exists hs. rewrite E, message_written. unfold plain_text, forward_text. cbn [msg_id msg_typ msg_type msg_body msg_from msg_to msg_thid msg_pthid msg_extra msg_created msg_expires msg_from_prior msg_attachments mb_new mb_attachment app entries].
  rewrite print_obj. cbn [map]. rewrite mtext_lit by reflexivity. rewrite json_written. reflexivity.
Qed.
