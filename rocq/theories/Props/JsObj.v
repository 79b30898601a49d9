(** Messages kept as JavaScript objects. *)
From Coq Require Import Permutation.
From Verif.Model Require Import Prelude Utf8 Json Serde DidDoc Crypto Keys Effects Jws Jwe Message FromPrior Bindings DocJson.
From Verif.Spec Require Import Codec Small Toy World Sane Wire JsObj.
From Verif.Proofs Require Import Lib CodecP ToyP SaneP SigningP JsObjP.
From Verif.Props Require Import Sane.
Ltac distinct := repeat (constructor; [cbn; let H := fresh in intros H; repeat (destruct H as [H|H]; [discriminate H|]); exact H|]); constructor.

(** C85, in full: a message that a JavaScript program reads with as_value(), keeps as an
    object and makes a Message of again is the same message.  It is not: numbers pass
    through doubles.  An integer above 2^53 comes back as its neighbour and no error is
    reported... *)
Definition big (n : string) : bytes := B ("{""id"":""1"",""type"":""t"",""body"":{""amount"":" ++ n ++ "}}").
Definition with_amount (n : number) : message := mb_new (B "1") (B "t") (VObj [(B "amount", VNum n)]).
Lemma amount_image jn n : exists v w, js_message_value (with_amount n) = print v /\ js_image jn v w /\ print w = js_message_value (with_amount (jn n)).
Proof.
  exists (message_tree (with_amount n)), (message_tree (with_amount (jn n))). split; [reflexivity|]. split; [|reflexivity].
  apply image_members; [distinct|]. repeat (apply Forall2_cons; [split; [reflexivity|try apply ji_str]|]); [|apply Forall2_nil].
  apply image_members; [distinct|]. repeat (apply Forall2_cons; [split; [reflexivity|]|]); [apply ji_num|apply Forall2_nil].
Qed.
Theorem C85_object_roundtrip_refuted : forall C jn, js_numbers jn ->
  exists m v w m', js_message_new (fparse C) (big "9007199254740993") = Ok m /\ js_message_value m = print v /\ js_image jn v w
    /\ js_message_new (fparse C) (print w) = Ok m' /\ ~ same_message m m'
    /\ msg_body m' = VObj [(B "amount", VNum (PosInt 9007199254740992))].
Proof.
  intros C jn (S & L & _). destruct (amount_image jn (PosInt (2 ^ 53 + 1))) as (v & w & V & I & W). rewrite L in W.
  exists (with_amount (PosInt (2 ^ 53 + 1))), v, w, (with_amount (PosInt (2 ^ 53))).
  split; [vm_compute; reflexivity|]. split; [exact V|]. split; [exact I|]. rewrite W. split; [vm_compute; reflexivity|].
  split; [intros (_ & _ & _ & E & _); discriminate E|reflexivity].
Qed.
Print Assumptions C85_object_roundtrip_refuted.
(** ... and a float with an integral value comes back as an integer. *)
Theorem C85_object_floats_refuted : forall C jn, js_numbers jn -> fparse C (B "1.0") = Some (B "1.0") ->
  exists m v w m', js_message_new (fparse C) (big "1.0") = Ok m /\ js_message_value m = print v /\ js_image jn v w
    /\ js_message_new (fparse C) (print w) = Ok m' /\ ~ same_message m m'
    /\ msg_body m = VObj [(B "amount", VNum (Float (B "1.0")))] /\ msg_body m' = VObj [(B "amount", VNum (PosInt 1))].
Proof.
  intros C jn (_ & _ & L) F. destruct (amount_image jn (Float (B "1.0"))) as (v & w & V & I & W). rewrite L in W.
  exists (with_amount (Float (B "1.0"))), v, w, (with_amount (PosInt 1)).
  split; [clear - F; vm_compute in F; vm_compute; rewrite F; reflexivity|]. split; [exact V|]. split; [exact I|]. rewrite W. split; [vm_compute; reflexivity|].
  split; [intros (_ & _ & _ & E & _); discriminate E|split; reflexivity].
Qed.
Print Assumptions C85_object_floats_refuted.

(** C85.  If every number in the message survives in JavaScript, the message does... *)
Theorem C85_object_roundtrip_partial : forall C jn, floats_stable (fparse C) ->
  forall s m, js_message_new (fparse C) s = Ok m -> numbers_message (fun n => jn n = n) m ->
  exists v, js_message_value m = print v /\ json_tree (fparse C) 127 v
    /\ forall w, js_image jn v w -> exists m', js_message_new (fparse C) (print w) = Ok m' /\ same_message m m'.
Proof.
  intros C jn F s m H N. unfold js_message_new in H. apply kind_Ok in H. apply message_kept; auto. eapply read_sane; eauto.
Qed.
Print Assumptions C85_object_roundtrip_partial.
(** ... in particular if they are integers of magnitude at most 2^53; *)
Theorem C85_safe_integers : forall C jn, floats_stable (fparse C) -> js_numbers jn ->
  forall s m, js_message_new (fparse C) s = Ok m -> numbers_message safe_integer m ->
  exists v, js_message_value m = print v /\ json_tree (fparse C) 127 v
    /\ forall w, js_image jn v w -> exists m', js_message_new (fparse C) (print w) = Ok m' /\ same_message m m'.
Proof.
  intros C jn F J s m H N. eapply C85_object_roundtrip_partial; eauto. revert N. apply numbers_message_imp. apply J.
Qed.
Print Assumptions C85_safe_integers.
(** the claims of a rotation likewise. *)
Theorem C85_prior_object : forall C jn, js_numbers jn ->
  forall p, prior_fits p -> numbers_prior safe_integer p ->
  exists v, js_from_prior_value p = print v /\ json_tree (fparse C) 127 v
    /\ forall w, js_image jn v w -> js_from_prior_new C (print w) = Ok p.
Proof. intros C jn J p F N. apply prior_kept; auto. revert N. apply numbers_prior_imp. apply J. Qed.
Print Assumptions C85_prior_object.

(** The numbers of JavaScript as far as the laws say; a message with a time, a custom
    header and an attachment, whose members JavaScript may list in the opposite order. *)
Definition toy_jn (n : number) : number :=
  match n with
  | PosInt k => if (k <=? 2 ^ 53)%N then n else PosInt (2 ^ 53)
  | NegInt k => if (k <=? 2 ^ 53)%N then n else NegInt (2 ^ 53)
  | Float _ => PosInt 1
  end.
Definition kept_msg : message :=
  mb_attachment (ab_count 12 (ab_json (VArr [VNum (NegInt 7)])))
    (mb_created 1516269022 (mb_header (B "7") (VObj [(B "n", VNum (PosInt 9007199254740992))]) toy_msg)).
Example C85_case : js_numbers toy_jn /\ floats_stable (fparse toy)
  /\ js_message_new (fparse toy) (message_text kept_msg) = Ok kept_msg /\ numbers_message safe_integer kept_msg
  /\ js_image toy_jn (VObj (message_members kept_msg)) (VObj (rev (message_members kept_msg)))
  /\ rev (message_members kept_msg) <> message_members kept_msg
  /\ prior_fits toy_prior /\ numbers_prior safe_integer toy_prior.
Proof.
  assert (J : js_numbers toy_jn).
  { split; [|split; reflexivity]. intros [k|k|l]; cbn [safe_integer toy_jn]; [intros H; apply N.leb_le in H; now rewrite H..|tauto]. }
  assert (R : js_message_new (fparse toy) (message_text kept_msg) = Ok kept_msg) by (vm_compute; reflexivity).
  assert (N : numbers_message safe_integer kept_msg).
  { assert (S : forall v, forallb (fun n => match n with PosInt k | NegInt k => (k <=? 2 ^ 53)%N | Float _ => false end) (all_numbers v) = true -> numbers_within safe_integer v).
    { intros v H. apply within_all, Forall_forall. rewrite forallb_forall in H. intros [n|n|l] I; apply H in I; [now apply N.leb_le..|discriminate]. }
    split; [apply S; vm_compute; reflexivity|]. split; [intros k v [H|[]]; apply (f_equal snd) in H; cbn [snd] in H; subst v; apply S; vm_compute; reflexivity|].
    split; [intros n H; apply SigningP.some_inj in H; subst n; apply N.leb_le; vm_compute; reflexivity|].
    split; [intros n H; discriminate H|]. intros l H. apply SigningP.some_inj in H. subst l. constructor; [|constructor].
    split; [apply S; vm_compute; reflexivity|]. split; [intros n H; discriminate H|].
    intros n H. apply SigningP.some_inj in H; subst n; apply N.leb_le; vm_compute; reflexivity. }
  split; [exact J|]. split; [exact toy_floats|]. split; [exact R|]. split; [exact N|]. split; [|split; [discriminate|split]].
  - apply image_shuffle; [|apply Permutation_rev]. apply (good_message toy_jn toy kept_msg).
    + apply (read_sane toy toy_floats (message_text kept_msg)). apply kind_Ok in R. exact R.
    + revert N. apply numbers_message_imp. apply J.
  - repeat split; try reflexivity; intros x H; discriminate H.
  - repeat split; intros n H; discriminate H.
Qed.
