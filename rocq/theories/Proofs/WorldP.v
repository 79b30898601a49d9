(** Unpacking what was packed: from the specification of the world to the facts used
    by the round-trip proofs, and each stage of unpack on a text that was packed. *)
From Verif.Model Require Import Prelude Utf8 Base64 Json Serde DidDoc Crypto Keys Effects Jws Jwe Message FromPrior Pack Routing Unpack.
From Verif.Spec Require Import Small Codec Events World.
From Verif.Proofs Require Import Lib Base64P JsonP JsonDec SerdeP CodecP SmallP Errs NoPanic UnpackInv TreeP.

(** ** Key ids *)
Lemma key_id_plain s : key_id_ok s -> plain s = true /\ utf8 s = true.
Proof.
  intros [U F]. split; auto. unfold plain. apply negb_true_iff. apply not_true_is_false. intros E.
  apply existsb_exists in E as (c & I & E). rewrite Forall_forall in F. destruct (F c I) as (L & Q & S).
  unfold must_escape in E. apply orb_prop in E as [E|E]; [apply orb_prop in E as [E|E]|].
  - apply N.ltb_lt in E. lia.
  - apply N.eqb_eq in E. apply Q. apply N_of_ascii_inj. exact E.
  - apply N.eqb_eq in E. apply S. apply N_of_ascii_inj. exact E.
Qed.

(** ** Messages *)
Section Msg.
Context (C : crypto).
Lemma opt_ostr o : opt text_ok o -> ostr_ok o.
Proof. intros H. destruct o; cbn; auto. now apply H. Qed.
Lemma opt_u64 o : opt time_ok o -> u64_ok o.
Proof. intros H. destruct o; cbn; auto. now apply H. Qed.
Lemma json_val_ok d v : json_value (fparse C) d v -> val_ok (fparse C) (S d) v.
Proof. intros H. apply json_value_ok in H as (W & K & D). repeat split; auto. lia. Qed.
Lemma attachment_fits_ok a : attachment_fits C a -> att_ok (fparse C) a.
Proof.
  unfold attachment_fits, att_ok. intros (D & H1 & H2 & H3 & H4 & H5 & H6 & H7).
  repeat split; auto using opt_ostr, opt_u64.
  destruct (att_data a) as [s j|v j|l h j]; cbn.
  - destruct D. split; auto using opt_ostr.
  - destruct D. split; auto using opt_ostr. now apply json_val_ok.
  - destruct D as (? & ? & ?). repeat split; auto using opt_ostr.
Qed.
Lemma message_fits_ok m : message_fits C m -> msg_ok (fparse C) m.
Proof.
  unfold message_fits, msg_ok. intros (H1 & H2 & H3 & H4 & H5 & H6 & H7 & H8 & H9 & H10 & H11 & H12 & H13 & H14 & _).
  assert (T : utf8 (msg_typ m) = true) by now rewrite H2.
  assert (E : Forall (fun kv => utf8 (fst kv) = true /\ ~ In (fst kv) reserved /\ val_ok (fparse C) 127 (snd kv)) (msg_extra m)).
  { apply Forall_forall. intros [k v] I. destruct (H14 _ _ I) as (? & ? & J). apply (json_val_ok 126) in J. auto. }
  assert (A : match msg_attachments m with Some l => Forall (att_ok (fparse C)) l | None => True end).
  { destruct (msg_attachments m) as [l|]; auto. specialize (H12 l eq_refl). eapply Forall_impl; [|exact H12]. apply attachment_fits_ok. }
  assert (O : match msg_to m with Some l => Forall (fun s => utf8 s = true) l | None => True end).
  { destruct (msg_to m); [now apply H6|exact I]. }
  apply (json_val_ok 126) in H4.
  exact (conj H1 (conj T (conj H3 (conj H4 (conj (opt_ostr _ H5) (conj O (conj (opt_ostr _ H7) (conj (opt_ostr _ H8)
    (conj (conj H13 E) (conj (opt_u64 _ H9) (conj (opt_u64 _ H10) (conj (opt_ostr _ H11) A)))))))))))).
Qed.

Lemma opt_member_names {A} k (f : A -> value) o x : In x (map fst (opt_member k f o)) -> x = B k.
Proof. destruct o; cbn; intuition. Qed.
Lemma message_names m x : In x (map fst (message_members m)) -> In x standard_headers \/ In x (map fst (msg_extra m)).
Proof.
  unfold message_members. rewrite !map_app, !in_app_iff. cbn [map fst].
  assert (S : forall k, In k standard_headers -> forall y, y = k -> In y standard_headers) by (intros; subst; auto).
  intros H. repeat destruct H as [H|H]; try (apply opt_member_names in H; subst x; left; vm_compute; tauto);
    try (subst; left; vm_compute; tauto). now right.
Qed.
Lemma message_misses m names : (forall n, In n names -> ~ In n standard_headers) -> ~ incl names (map fst (msg_extra m)) ->
  exists n, In n names /\ ~ In n (map fst (message_members m)).
Proof.
  intros S N. assert (D : forall l, incl l names -> incl l (map fst (msg_extra m)) \/ exists n, In n l /\ ~ In n (map fst (message_members m))).
  { induction l as [|a l IH]; intros I; [left; intros x []|].
    destruct IH as [IH|(n & I1 & I2)]; [intros x Hx; apply I; now right| |right; exists n; split; auto; now right].
    destruct (in_dec bytes_eq_dec a (map fst (message_members m))) as [J|J]; [|right; exists a; split; auto; now left].
    left. intros x [<-|Hx]; [|now apply IH]. apply message_names in J as [J|J]; auto. exfalso. eapply S; eauto. apply I. now left. }
  destruct (D names (incl_refl _)); [contradiction|auto].
Qed.
Lemma message_not_jwe m : message_fits C m -> jwe_from_str (message_text m) = Err Malformed.
Proof.
  intros F. pose proof (message_fits_ok m F) as K. apply message_printable in K.
  destruct F as (_ & _ & _ & _ & _ & _ & _ & _ & _ & _ & _ & _ & _ & _ & N & _).
  destruct (message_misses m jwe_names) as (n & I & M); auto.
  - intros n I J. cbn [In jwe_names jws_names map] in I. repeat (destruct I as [I|I]; [subst n; revert J; vm_compute; intuition discriminate|]). exact I.
  - apply (no_jwe _ n K); auto.
Qed.
Lemma message_not_jws m : message_fits C m -> jws_from_str (message_text m) = Err Malformed.
Proof.
  intros F. pose proof (message_fits_ok m F) as K. apply message_printable in K.
  destruct F as (_ & _ & _ & _ & _ & _ & _ & _ & _ & _ & _ & _ & _ & _ & _ & N).
  destruct (message_misses m jws_names) as (n & I & M); auto.
  - intros n I J. cbn [In jwe_names jws_names map] in I. repeat (destruct I as [I|I]; [subst n; revert J; vm_compute; intuition discriminate|]). exact I.
  - apply (no_jws _ n K); auto.
Qed.
Lemma message_reads m : message_fits C m -> message_from_str (fparse C) (message_text m) = Ok m.
Proof. intros F. now apply message_roundtrip, message_fits_ok. Qed.
Lemma message_utf8 m : message_fits C m -> utf8 (message_text m) = true.
Proof. intros F. unfold message_text. apply utf8_print. eapply message_printable, message_fits_ok; eauto. Qed.
End Msg.
