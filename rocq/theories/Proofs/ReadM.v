(** Messages are read by the names of their members. *)
From Verif.Model Require Import Prelude Utf8 Base64 Json Serde DidDoc Crypto Keys Effects Jws Jwe Message FromPrior.
From Verif.Spec Require Import Codec Small Names World Wire.
From Verif.Proofs Require Import Lib Base64P JsonP JsonDec SerdeP CodecP NamesP WireP ReadP.

Section ReadM.
Context (fp : bytes -> option bytes).
Notation reads := (reads fp).
Notation mems_ok := (mems_ok fp).
Notation slot' f := (slot (fun v => f (raw_of v))).

(** The custom headers that the members [l] add. *)
Fixpoint extra (l : members) (x : list (bytes * value)) : list (bytes * value) :=
  match l with
  | [] => x
  | (k, v) :: l' => extra l' (if existsb (beq k) standard_headers then x else amap_insert k (norm v) x)
  end.
Lemma std_iff k : existsb (beq k) standard_headers = true <-> In k standard_headers.
Proof. rewrite existsb_exists. split; [intros (y & I & E); apply beq_eq in E; now subst|]. intros I. exists k. split; auto. now apply beq_eq. Qed.
Lemma extra_get l k : forall x,
  (In k standard_headers \/ none l k -> amap_get k (extra l x) = amap_get k x)
  /\ (forall v, ~ In k standard_headers -> last_of l k v -> amap_get k (extra l x) = Some (norm v)).
Proof.
  induction l as [|[n v] l IH]; intros x; cbn [extra].
  - split; auto. intros v _ H. now apply last_nil in H.
  - destruct (IH (if existsb (beq n) standard_headers then x else amap_insert n (norm v) x)) as [A B]. clear IH. split.
    + intros H. rewrite A.
      * destruct (existsb (beq n) standard_headers) eqn:E; auto. rewrite amap_get_insert. destruct (beq k n) eqn:E'; auto.
        apply beq_eq in E'. subst n. destruct H as [H|H]; [apply std_iff in H; congruence|]. apply none_cons in H. tauto.
      * destruct H as [H|H]; auto. apply none_cons in H. tauto.
    + intros w N H. apply last_cons in H as [H|(-> & -> & NO)]; auto. rewrite A by auto.
      destruct (existsb (beq k) standard_headers) eqn:E; [apply std_iff in E; tauto|]. rewrite amap_get_insert.
      replace (beq k k) with true; auto. symmetry. now apply beq_eq.
Qed.
Lemma extra_hit k v l x : In k standard_headers -> extra ((k, v) :: l) x = extra l x.
Proof. intros H. apply std_iff in H. cbn [extra]. now rewrite H. Qed.
Lemma extra_miss k v l x : ~ In k standard_headers -> extra ((k, v) :: l) x = extra l (amap_insert k (norm v) x).
Proof. intros H. cbn [extra]. destruct (existsb (beq k) standard_headers) eqn:E; auto. apply std_iff in E. tauto. Qed.

Definition atts_read : value -> list attachment -> Prop := list_read attachment_read.
Lemma msg_walk d l : mems_ok d l -> d < 127 -> forall i ty t b f to th pt x c e p a i' ty' t' b' f' to' th' pt' x' c' e' p' a',
  walk (msg_step fp) (mkMS' i ty t b f to th pt x c e p a) (mems l) None = Ok (mkMS' i' ty' t' b' f' to' th' pt' x' c' e' p' a')
  <-> slot' de_string (B "id") l i i' /\ slot' de_string (B "typ") l ty ty' /\ slot' de_string (B "type") l t t'
  /\ slot' (to_value fp (max_depth - 1)) (B "body") l b b' /\ slot' de_ostr (B "from") l f f'
  /\ slot' (de_option (de_vec de_string)) (B "to") l to to' /\ slot' de_ostr (B "thid") l th th' /\ slot' de_ostr (B "pthid") l pt pt'
  /\ x' = extra l x
  /\ slot' (de_ou64 fp) (B "created_time") l c c' /\ slot' (de_ou64 fp) (B "expires_time") l e e' /\ slot' de_ostr (B "from_prior") l p p'
  /\ slot' (de_option (de_vec (de_attachment fp))) (B "attachments") l a a'.
Proof.
  intros M L. induction l as [|[k v] l IH]; intros.
  - cbn [walk mems map close extra]. rewrite !slot_nil. split.
    + intros H. injection H; intros; subst; repeat split; reflexivity.
    + intros; repeat match goal with H : _ /\ _ |- _ => destruct H end; subst; reflexivity.
  - pose proof (M k v (or_introl eq_refl)) as [_ J]. apply tree_wf in J as [_ D].
    apply mems_tail in M as [W M]. specialize (IH M). cbn [walk mems map fst snd rd_str rbind]. change (map _ l) with (mems l).
    cbn [msg_step].
    repeat match goal with |- context [if beq k (B ?s) then _ else _] =>
      let E := fresh "E" in destruct (beq k (B s)) eqn:E; [apply beq_eq in E; subst k|apply beq_neq in E] end.
    13: { assert (NI : ~ In k standard_headers) by (unfold standard_headers; cbn [map In]; intuition).
      rewrite extra_miss by exact NI. repeat (rewrite slot_miss by assumption).
      unfold to_value at 1. rewrite (to_content_raw fp) by (auto; change (max_depth - 1) with 127; lia). cbn [rbind]. apply IH. }
    all: rewrite extra_hit by (cbn; tauto); repeat first [rewrite slot_hit | rewrite slot_miss by first [assumption | easy]];
      match goal with |- context [once ?o ?f ?x] => destruct (once o f x) as [?| |] end;
      cbn [rbind]; rewrite ?ex_ok, ?ex_err, ?ex_panic; first [apply IH|split; [discriminate|tauto]].
Qed.
Hint Resolve reads_string reads_borrowed reads_u64 reads_vec' : reads.

Lemma message_sound v m : json_tree fp 127 v -> de_message fp (raw_of v) = Ok m -> message_read v m.
Proof.
  intros T H. destruct v as [|b|n|s|l|l]; try discriminate.
  { change (raw_of (VNum n)) with (num_raw n) in H. destruct (num_is fp n (wf_of _ _ _ T)) as (? & ? & ? & E & _). rewrite E in H. discriminate. }
  pose proof (tree_obj fp _ _ T) as M. clear T. rewrite raw_of_obj in H. cbn [de_message] in H. apply ok_bind in H as (s & H & G).
  destruct s as [i ty t b f to th pt x c e p a]. apply (msg_walk 126) in H; auto.
  destruct H as (H1 & H2 & H3 & H4 & H5 & H6 & H7 & H8 & -> & H10 & H11 & H12 & H13).
  cbn [msg_finish] in G. destruct i as [i|]; [|discriminate]. destruct t as [t|]; [|discriminate]. destruct b as [b|]; [|discriminate].
  cbn [need ok_or rbind] in G. injection G as <-.
  assert (RV : reads 126 (to_value fp (max_depth - 1)) value_read) by (apply reads_value; change (max_depth - 1) with 127; lia).
  assert (RA : reads 126 (de_vec (de_attachment fp)) (list_read attachment_read)) by (apply reads_vec, reads_attachment, reads_adata; lia).
  unfold message_read. cbn [msg_id msg_typ msg_type msg_body msg_from msg_to msg_thid msg_pthid msg_extra msg_created msg_expires msg_from_prior msg_attachments].
  exists l. repeat match goal with |- _ /\ _ => split end; auto.
  1,3,4: eapply (req_obj fp 126); [eauto with reads|exact M|eassumption].
  2-9: eapply (maybe_obj fp 126); [eauto with reads|exact M|eexists; split; [eassumption|reflexivity]].
  - destruct ty as [ty|].
    + left. eapply (req_obj fp 126); [eauto with reads|exact M|eassumption].
    + right. split; auto. apply missing_obj. destruct H2 as [[H2 _]|(_ & w & z & _ & _ & E)]; [auto|discriminate].
  - intros k. destruct (in_dec (list_eq_dec ascii_dec) k standard_headers) as [I|N].
    + rewrite (proj1 (extra_get l k [])) by auto. cbn. auto.
    + destruct (none_dec l k) as [NO|NO].
      * rewrite (proj1 (extra_get l k [])) by auto. cbn. auto.
      * apply last_some in NO as [w NO]. rewrite (proj2 (extra_get l k []) w) by auto. split; auto. exists w. split; auto. now apply value_read_norm.
Qed.
Lemma message_complete v m : json_tree fp 127 v -> message_read v m -> exists m', de_message fp (raw_of v) = Ok m' /\ same_message m m'.
Proof.
  intros T (l & -> & H1 & H2 & H3 & H4 & H5 & H6 & H7 & H8 & H10 & H11 & H12 & H13 & X).
  pose proof (tree_obj fp _ _ T) as M. clear T. rewrite raw_of_obj. cbn [de_message].
  assert (RV : reads 126 (to_value fp (max_depth - 1)) value_read) by (apply reads_value; change (max_depth - 1) with 127; lia).
  assert (RA : reads 126 (de_vec (de_attachment fp)) (list_read attachment_read)) by (apply reads_vec, reads_attachment, reads_adata; lia).
  destruct m as [i ty t b f to th pt x c e p a].
  cbn [msg_id msg_typ msg_type msg_body msg_from msg_to msg_thid msg_pthid msg_extra msg_created msg_expires msg_from_prior msg_attachments] in *.
  eapply (req_obj fp 126) in H1; [|eauto with reads|exact M].
  eapply (req_obj fp 126) in H3; [|eauto with reads|exact M].
  eapply (req_obj fp 126) in H4; [|eauto with reads|exact M].
  eapply (maybe_obj fp 126) in H5; [|eauto with reads|exact M]. destruct H5 as (f' & H5 & <-).
  eapply (maybe_obj fp 126) in H6; [|eauto with reads|exact M]. destruct H6 as (to' & H6 & <-).
  eapply (maybe_obj fp 126) in H7; [|eauto with reads|exact M]. destruct H7 as (th' & H7 & <-).
  eapply (maybe_obj fp 126) in H8; [|eauto with reads|exact M]. destruct H8 as (pt' & H8 & <-).
  eapply (maybe_obj fp 126) in H10; [|eauto with reads|exact M]. destruct H10 as (c' & H10 & <-).
  eapply (maybe_obj fp 126) in H11; [|eauto with reads|exact M]. destruct H11 as (e' & H11 & <-).
  eapply (maybe_obj fp 126) in H12; [|eauto with reads|exact M]. destruct H12 as (p' & H12 & <-).
  eapply (maybe_obj fp 126) in H13; [|eauto with reads|exact M]. destruct H13 as (a' & H13 & <-).
  assert (TY : exists ty', slot' de_string (B "typ") l None ty' /\ match ty' with Some t => t | None => plaintext_typ end = ty).
  { destruct H2 as [H2|[N ->]].
    - eapply (req_obj fp 126) in H2; [|eauto with reads|exact M]. exists (Some ty). auto.
    - apply missing_obj in N. exists None. split; auto. left. auto. }
  destruct TY as (ty' & TY & <-).
  eexists. split.
  - unfold m_init. rewrite (proj2 (msg_walk 126 l M ltac:(lia) None None None None None None None None [] None None None None
      (Some i) ty' (Some t) (Some b) f' to' th' pt' (extra l []) c' e' p' a')).
    + reflexivity.
    + repeat match goal with |- _ /\ _ => split end; auto.
  - unfold same_message. cbn. repeat split; auto.
    intros k. specialize (X k). destruct (amap_get k x) as [w|] eqn:E.
    + destruct X as [N (v & LA & V)]. apply value_read_norm in V. subst w. now rewrite (proj2 (extra_get l k []) v) by auto.
    + now rewrite (proj1 (extra_get l k [])) by auto.
Qed.
End ReadM.
