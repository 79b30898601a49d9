(** Each record is read by the names of its fields. *)
From Verif.Model Require Import Prelude Utf8 Base64 Json Serde DidDoc Crypto Keys Effects Jws Jwe Message FromPrior.
From Verif.Spec Require Import Codec Small Names World Wire.
From Verif.Proofs Require Import Lib Base64P JsonP JsonDec SerdeP CodecP NamesP WireP.

Section Read.
Context (fp : bytes -> option bytes).
Notation reads := (reads fp).
Notation mems_ok := (mems_ok fp).
Notation slot' f := (slot (fun v => f (raw_of v))).

Lemma ex_ok {A} (x : A) (P : A -> Prop) : (exists y, Ok x = Ok y /\ P y) <-> P x.
Proof. split; [intros (y & E & H); now injection E as ->|eauto]. Qed.
Lemma ex_err {A} e (P : A -> Prop) : (exists y, Err e = Ok y /\ P y) <-> False.
Proof. split; [intros (y & E & _); discriminate|tauto]. Qed.
Lemma ex_panic {A} (P : A -> Prop) : (exists y, Panic = Ok y /\ P y) <-> False.
Proof. split; [intros (y & E & _); discriminate|tauto]. Qed.
Lemma ex_some {A} (x : A) (P : A -> Prop) : (exists y, Some x = Some y /\ P y) <-> P x.
Proof. split; [intros (y & E & H); now injection E as ->|eauto]. Qed.
Lemma ok_bind {A B} (r : res A) (g : A -> res B) b : (let? a := r in g a) = Ok b <-> exists a, r = Ok a /\ g a = Ok b.
Proof. destruct r; cbn; [rewrite ex_ok|rewrite ex_err|rewrite ex_panic]; split; auto; discriminate || tauto. Qed.
Lemma mems_tail d k v l : mems_ok d ((k, v) :: l) -> wfv fp v /\ mems_ok d l.
Proof. intros M. split; [destruct (M k v (or_introl eq_refl)); eapply wf_of; eauto|]. intros k' x I. apply M. now right. Qed.

Ltac slots := repeat first [rewrite slot_hit | rewrite slot_miss by first [assumption | easy]].
(** The members of an object, one after the other; [P]: what [walk] is claimed to do. *)
Ltac walking M l Hst :=
  let IH := fresh "IH" in let k := fresh "k" in let v := fresh "v" in let W := fresh "W" in
  induction l as [|[k v] l IH]; intros;
  [ cbn [walk mems map close]; rewrite !slot_nil; split;
    [ let H := fresh in intros H; injection H; intros; subst; repeat split; reflexivity
    | intros; repeat match goal with H : _ /\ _ |- _ => destruct H end; subst; reflexivity ]
  | apply mems_tail in M as [W M]; specialize (IH M);
    cbn [walk mems map fst snd rd_str rbind]; change (map _ l) with (mems l); rewrite Hst; cbv iota beta;
    repeat match goal with |- context [if beq k (B ?s) then _ else _] =>
      let E := fresh "E" in destruct (beq k (B s)) eqn:E; [apply beq_eq in E; subst k|apply beq_neq in E] end;
    slots;
    [ .. | rewrite (skip_raw fp) by assumption; cbn [rbind]; apply IH ];
    match goal with |- context [once ?o ?f ?x] => destruct (once o f x) as [?| |] end;
    cbn [rbind]; rewrite ?ex_ok, ?ex_err, ?ex_panic; first [apply IH|split; [discriminate|tauto]] ].
Ltac step_of st Hst :=
  match goal with |- context [walk ?f ?s0 (mems _) None] => set (st := f);
    assert (Hst : forall s k v, st s k v = ltac:(let t := eval cbv beta in (f s k v) in exact t)) by reflexivity; clearbody st end.
Ltac notrec T := first
  [ split; [discriminate|]
  | match goal with |- context [raw_of (VNum ?n)] => change (raw_of (VNum n)) with (num_raw n);
      let E := fresh in destruct (num_is fp n (wf_of _ _ _ T)) as (? & ? & ? & E & _); rewrite E; split; [discriminate|] end ];
  intros; exfalso; repeat match goal with H : _ /\ _ |- _ => destruct H end;
  match goal with H : req _ _ _ _ _ _ |- _ => let E := fresh in apply req_other in H as [[? E]|(? & E & _)]; discriminate end.

Lemma tree_arr d l : json_tree fp (S d) (VArr l) -> forall x, In x l -> json_tree fp d x.
Proof. intros T. now inversion T; subst. Qed.
Lemma tree_obj d l : json_tree fp (S d) (VObj l) -> mems_ok d l.
Proof. intros T. now inversion T; subst. Qed.

Lemma reads_kid d : reads d de_kid_header kid_read.
Proof.
  revert d. apply reads_up. intros d w T r. unfold kid_read.
  destruct w as [|b|n|s|l|l]; [notrec T..| |].
  - pose proof (tree_arr _ _ T) as M. destruct l as [|x1 [|x2 l]].
    + split; [discriminate|]. intros H. apply req_other in H as [[? E]|(? & E & L)]; [discriminate|]. injection E as <-. discriminate.
    + rewrite (req_arr fp d de_borrowed) by (reflexivity || auto using reads_borrowed). cbn [nth_error]. rewrite ex_some.
      cbn. destruct (de_borrowed (raw_of x1)); cbn; tauto.
    + cbn. split; [destruct (de_borrowed (raw_of x1)); discriminate|].
      intros H. apply req_other in H as [[? E]|(? & E & L)]; [discriminate|]. injection E as <-. discriminate.
  - pose proof (tree_obj _ _ T) as M. rewrite <- (req_obj fp d de_borrowed) by (auto using reads_borrowed). clear T.
    rewrite raw_of_obj. unfold de_kid_header. step_of st Hst. rewrite ok_bind.
    assert (W : forall h h', walk st h (mems l) None = Ok h' <-> slot' de_borrowed (B "kid") l h h') by walking M l Hst.
    split.
    + intros (s & H & G). apply W in H. destruct s; [|discriminate]. now injection G as ->.
    + intros H. exists (Some r). split; auto. now apply W.
Qed.

Lemma reads_vec' {A} (f : raw -> res A) rd : (forall d, reads d f rd) -> forall d, reads d (de_vec f) (list_read rd).
Proof. intros R. apply reads_up. intros d. now apply reads_vec. Qed.
Lemma reads_name {A} (of : bytes -> A) named : (forall s a, named s a <-> a = of s) ->
  forall d, reads d (fun r => let? s := de_string r in Ok (of s)) (name_read named).
Proof.
  intros H d. eapply reads_map; [apply reads_string|]. intros w b. unfold name_read, str_read. split.
  - intros (s & -> & N). apply H in N. eauto.
  - intros (s & -> & ->). exists s. split; auto. now apply H.
Qed.
Lemma reads_jws_alg d : reads d de_jws_alg (name_read jws_alg_named).
Proof.
  apply reads_name. intros s a. unfold jws_alg_of, jws_alg_named.
  repeat match goal with |- context [beq s ?x] => let E := fresh in destruct (beq s x) eqn:E; [apply beq_eq in E; subst s|apply beq_neq in E] end;
  destruct a; cbn [In]; intuition first [discriminate | congruence].
Qed.
Lemma reads_jwe_alg d : reads d de_jwe_alg (name_read jwe_alg_named).
Proof.
  apply reads_name. intros s a. unfold jwe_alg_of, jwe_alg_named.
  repeat match goal with |- context [beq s ?x] => let E := fresh in destruct (beq s x) eqn:E; [apply beq_eq in E; subst s|apply beq_neq in E] end;
  destruct a; cbn [In]; intuition first [discriminate | congruence].
Qed.
Lemma reads_jwe_enc d : reads d de_jwe_enc (name_read jwe_enc_named).
Proof.
  apply reads_name. intros s a. unfold jwe_enc_of, jwe_enc_named.
  repeat match goal with |- context [beq s ?x] => let E := fresh in destruct (beq s x) eqn:E; [apply beq_eq in E; subst s|apply beq_neq in E] end;
  destruct a; cbn [In]; intuition first [discriminate | congruence].
Qed.
Hint Resolve reads_string reads_borrowed reads_u64 reads_kid reads_vec' reads_jws_alg reads_jwe_alg reads_jwe_enc : reads.

(** Wrong lengths of arrays. *)
Ltac short := split;
  [ let H := fresh in intros H; exfalso; revert H; cbn [raw_of map elem rbind end_seq close];
    repeat match goal with |- context [rbind (?f (raw_of ?x)) _] => destruct (f (raw_of x)); cbn [rbind elem end_seq close]; try discriminate end; discriminate
  | intros; exfalso; repeat match goal with H : _ /\ _ |- _ => destruct H end;
    match goal with H : req _ _ _ _ _ _ |- _ => let E := fresh in let L := fresh in
      apply req_other in H as [[? E]|(? & E & L)]; [discriminate|injection E as <-; discriminate] end ].
(** The fields of an array. *)
Ltac fields d :=
  repeat match goal with
  | |- context [req ?rd ?n (VArr ?vs) ?i ?k ?a] =>
      erewrite (req_arr fp d _ rd n vs i k a) by first [reflexivity | assumption | eauto with reads]
  | |- context [maybe ?rd ?n (VArr ?vs) ?i ?k ?a] =>
      erewrite (maybe_arr fp d _ rd n vs i k a) by first [reflexivity | assumption | eauto with reads]
  end; cbn [nth_error]; rewrite !ex_some;
  cbn [raw_of map elem rbind end_seq close];
  repeat match goal with |- context [rbind (?f (raw_of ?x)) _] => destruct (f (raw_of x)) as [?| |]; cbn [rbind elem end_seq close];
    [|split; [discriminate|intros; repeat match goal with H : _ /\ _ |- _ => destruct H end; discriminate]..] end;
  try (split; [discriminate|intros; repeat match goal with H : _ /\ _ |- _ => destruct H end; discriminate]).
Ltac done r := destruct r; cbn; split;
  [ let H := fresh in intros H; injection H; intros; subst; repeat split; reflexivity
  | let H := fresh in intros H; repeat match type of H with _ /\ _ => let K := fresh in destruct H as [K H]; injection K as -> end; injection H as ->; reflexivity ].
Lemma reads_recipient d : reads d de_recipient recipient_read.
Proof.
  revert d. apply reads_up. intros d w T r. unfold recipient_read, de_recipient.
  destruct w as [|b|n|s|l|l]; [notrec T..| |].
  - pose proof (tree_arr _ _ T) as M. destruct l as [|x1 [|x2 [|x3 l]]]; [short|short| |short].
    fields d. done r.
  - pose proof (tree_obj _ _ T) as M. clear T. rewrite raw_of_obj. step_of st Hst. rewrite ok_bind.
    assert (W : forall h e h' e', walk st (h, e) (mems l) None = Ok (h', e')
      <-> slot' de_kid_header (B "header") l h h' /\ slot' de_borrowed (B "encrypted_key") l e e') by walking M l Hst.
    clear Hst. split.
    + intros ([h e] & H & G). apply W in H. destruct H as [H1 H2]. destruct h as [h|]; [|discriminate]. destruct e as [e|]; [|discriminate].
      injection G as <-. cbn. split; (eapply (req_obj fp d); [eauto with reads|exact M|eassumption]).
    + destruct r as [h e]. cbn. intros [H1 H2].
      eapply (req_obj fp d) in H1; [|eauto with reads|exact M].
      eapply (req_obj fp d) in H2; [|eauto with reads|exact M].
      eexists (_, _). split; [eapply W; split; eassumption|reflexivity].
Qed.
Hint Resolve reads_recipient : reads.
Ltac robj d M := eapply (req_obj fp d); [eauto with reads|exact M|eassumption].
Ltac mobj d M := eapply (maybe_obj fp d); [eauto with reads|exact M|eexists; split; [eassumption|reflexivity]].
Ltac robjH d M H := eapply (req_obj fp d) in H; [|eauto with reads|exact M].
Ltac mobjH d M H o := eapply (maybe_obj fp d) in H; [|eauto with reads|exact M]; destruct H as (o & H & <-).
Lemma reads_jwe d : reads d (de_jwe) jwe_read.
Proof.
  revert d. apply reads_up. intros d w T r. unfold jwe_read, de_jwe.
  destruct w as [|b|n|s|l|l]; [notrec T..| |].
  - pose proof (tree_arr _ _ T) as M. destruct l as [|x1 [|x2 [|x3 [|x4 [|x5 [|x6 l]]]]]]; [short|short|short|short|short| |short].
    fields d. done r.
  - pose proof (tree_obj _ _ T) as M. clear T. rewrite raw_of_obj. step_of st Hst. rewrite ok_bind.
    assert (W : forall o1 o2 o3 o4 o5 o1' o2' o3' o4' o5', walk st ((o1, o2, o3, o4, o5)) (mems l) None = Ok ((o1', o2', o3', o4', o5'))
      <-> slot' de_borrowed (B "protected") l o1 o1' /\ slot' (de_vec de_recipient) (B "recipients") l o2 o2' /\ slot' de_borrowed (B "iv") l o3 o3' /\ slot' de_borrowed (B "ciphertext") l o4 o4' /\ slot' de_borrowed (B "tag") l o5 o5') by walking M l Hst.
    clear Hst. split.
    + intros ([[[[o1 o2] o3] o4] o5] & H & G). apply W in H. destruct H as (H1 & H2 & H3 & H4 & H5).
      destruct o1 as [o1|]; [|discriminate G]. cbn [need ok_or rbind] in G.
      destruct o2 as [o2|]; [|discriminate G]. cbn [need ok_or rbind] in G.
      destruct o3 as [o3|]; [|discriminate G]. cbn [need ok_or rbind] in G.
      destruct o4 as [o4|]; [|discriminate G]. cbn [need ok_or rbind] in G.
      destruct o5 as [o5|]; [|discriminate G]. cbn [need ok_or rbind] in G.
      injection G as <-. cbn. repeat match goal with |- _ /\ _ => split end; [robj d M|robj d M|robj d M|robj d M|robj d M].
    + destruct r as [o1 o2 o3 o4 o5]. cbn. intros (H1 & H2 & H3 & H4 & H5).
      robjH d M H1.
      robjH d M H2.
      robjH d M H3.
      robjH d M H4.
      robjH d M H5.
      exists (((Some o1), (Some o2), (Some o3), (Some o4), (Some o5))). split; [apply W; repeat match goal with |- _ /\ _ => split end; assumption|reflexivity].
Qed.
Hint Resolve reads_jwe : reads.
Lemma reads_signature d : reads d (de_jws_sig) signature_read.
Proof.
  revert d. apply reads_up. intros d w T r. unfold signature_read, de_jws_sig.
  destruct w as [|b|n|s|l|l]; [notrec T..| |].
  - pose proof (tree_arr _ _ T) as M. destruct l as [|x1 [|x2 [|x3 [|x4 l]]]]; [short|short|short| |short].
    fields d. done r.
  - pose proof (tree_obj _ _ T) as M. clear T. rewrite raw_of_obj. step_of st Hst. rewrite ok_bind.
    assert (W : forall o1 o2 o3 o1' o2' o3', walk st ((o1, o2, o3)) (mems l) None = Ok ((o1', o2', o3'))
      <-> slot' de_kid_header (B "header") l o1 o1' /\ slot' de_borrowed (B "protected") l o2 o2' /\ slot' de_borrowed (B "signature") l o3 o3') by walking M l Hst.
    clear Hst. split.
    + intros ([[o1 o2] o3] & H & G). apply W in H. destruct H as (H1 & H2 & H3).
      destruct o1 as [o1|]; [|discriminate G]. cbn [need ok_or rbind] in G.
      destruct o2 as [o2|]; [|discriminate G]. cbn [need ok_or rbind] in G.
      destruct o3 as [o3|]; [|discriminate G]. cbn [need ok_or rbind] in G.
      injection G as <-. cbn. repeat match goal with |- _ /\ _ => split end; [robj d M|robj d M|robj d M].
    + destruct r as [o1 o2 o3]. cbn. intros (H1 & H2 & H3).
      robjH d M H1.
      robjH d M H2.
      robjH d M H3.
      exists (((Some o1), (Some o2), (Some o3))). split; [apply W; repeat match goal with |- _ /\ _ => split end; assumption|reflexivity].
Qed.
Hint Resolve reads_signature : reads.
Lemma reads_jws d : reads d (de_jws) jws_read.
Proof.
  revert d. apply reads_up. intros d w T r. unfold jws_read, de_jws.
  destruct w as [|b|n|s|l|l]; [notrec T..| |].
  - pose proof (tree_arr _ _ T) as M. destruct l as [|x1 [|x2 [|x3 l]]]; [short|short| |short].
    fields d. done r.
  - pose proof (tree_obj _ _ T) as M. clear T. rewrite raw_of_obj. step_of st Hst. rewrite ok_bind.
    assert (W : forall o1 o2 o1' o2', walk st ((o1, o2)) (mems l) None = Ok ((o1', o2'))
      <-> slot' (de_vec de_jws_sig) (B "signatures") l o1 o1' /\ slot' de_borrowed (B "payload") l o2 o2') by walking M l Hst.
    clear Hst. split.
    + intros ([o1 o2] & H & G). apply W in H. destruct H as (H1 & H2).
      destruct o1 as [o1|]; [|discriminate G]. cbn [need ok_or rbind] in G.
      destruct o2 as [o2|]; [|discriminate G]. cbn [need ok_or rbind] in G.
      injection G as <-. cbn. repeat match goal with |- _ /\ _ => split end; [robj d M|robj d M].
    + destruct r as [o1 o2]. cbn. intros (H1 & H2).
      robjH d M H1.
      robjH d M H2.
      exists (((Some o1), (Some o2))). split; [apply W; repeat match goal with |- _ /\ _ => split end; assumption|reflexivity].
Qed.
Hint Resolve reads_jws : reads.
Lemma reads_jws_header d : reads d (de_jws_header) jws_header_read.
Proof.
  revert d. apply reads_up. intros d w T r. unfold jws_header_read, de_jws_header.
  destruct w as [|b|n|s|l|l]; [notrec T..| |].
  - pose proof (tree_arr _ _ T) as M. destruct l as [|x1 [|x2 [|x3 l]]]; [short|short| |short].
    fields d. done r.
  - pose proof (tree_obj _ _ T) as M. clear T. rewrite raw_of_obj. step_of st Hst. rewrite ok_bind.
    assert (W : forall o1 o2 o1' o2', walk st ((o1, o2)) (mems l) None = Ok ((o1', o2'))
      <-> slot' de_string (B "typ") l o1 o1' /\ slot' de_jws_alg (B "alg") l o2 o2') by walking M l Hst.
    clear Hst. split.
    + intros ([o1 o2] & H & G). apply W in H. destruct H as (H1 & H2).
      destruct o1 as [o1|]; [|discriminate G]. cbn [need ok_or rbind] in G.
      destruct o2 as [o2|]; [|discriminate G]. cbn [need ok_or rbind] in G.
      injection G as <-. cbn. repeat match goal with |- _ /\ _ => split end; [robj d M|robj d M].
    + destruct r as [o1 o2]. cbn. intros (H1 & H2).
      robjH d M H1.
      robjH d M H2.
      exists (((Some o1), (Some o2))). split; [apply W; repeat match goal with |- _ /\ _ => split end; assumption|reflexivity].
Qed.
Hint Resolve reads_jws_header : reads.
Lemma reads_token_header d : reads d (de_compact_header) token_header_read.
Proof.
  revert d. apply reads_up. intros d w T r. unfold token_header_read, de_compact_header.
  destruct w as [|b|n|s|l|l]; [notrec T..| |].
  - pose proof (tree_arr _ _ T) as M. destruct l as [|x1 [|x2 [|x3 [|x4 l]]]]; [short|short|short| |short].
    fields d. done r.
  - pose proof (tree_obj _ _ T) as M. clear T. rewrite raw_of_obj. step_of st Hst. rewrite ok_bind.
    assert (W : forall o1 o2 o3 o1' o2' o3', walk st ((o1, o2, o3)) (mems l) None = Ok ((o1', o2', o3'))
      <-> slot' de_borrowed (B "typ") l o1 o1' /\ slot' de_jws_alg (B "alg") l o2 o2' /\ slot' de_borrowed (B "kid") l o3 o3') by walking M l Hst.
    clear Hst. split.
    + intros ([[o1 o2] o3] & H & G). apply W in H. destruct H as (H1 & H2 & H3).
      destruct o1 as [o1|]; [|discriminate G]. cbn [need ok_or rbind] in G.
      destruct o2 as [o2|]; [|discriminate G]. cbn [need ok_or rbind] in G.
      destruct o3 as [o3|]; [|discriminate G]. cbn [need ok_or rbind] in G.
      injection G as <-. cbn. repeat match goal with |- _ /\ _ => split end; [robj d M|robj d M|robj d M].
    + destruct r as [o1 o2 o3]. cbn. intros (H1 & H2 & H3).
      robjH d M H1.
      robjH d M H2.
      robjH d M H3.
      exists (((Some o1), (Some o2), (Some o3))). split; [apply W; repeat match goal with |- _ /\ _ => split end; assumption|reflexivity].
Qed.
Hint Resolve reads_token_header : reads.
Lemma reads_jwe_header C d : fparse C = fp -> d < 127 -> reads (S d) (de_jwe_header C) jwe_header_read.
Proof.
  intros HC L. assert (E : reads d (de_epk C) value_read) by (unfold de_epk; rewrite HC; apply reads_value; exact L). intros w T r. unfold jwe_header_read, de_jwe_header.
  destruct w as [|b|n|s|l|l]; [notrec T..| |].
  - pose proof (tree_arr _ _ T) as M. destruct l as [|x1 [|x2 [|x3 [|x4 [|x5 [|x6 [|x7 [|x8 l]]]]]]]]; [short|short|short|short|short|short|short| |short].
    fields d. done r.
  - pose proof (tree_obj _ _ T) as M. clear T. rewrite raw_of_obj. step_of st Hst. rewrite ok_bind.
    assert (W : forall o1 o2 o3 o4 o5 o6 o7 o1' o2' o3' o4' o5' o6' o7', walk st ((o1, o2, o3, o4, o5, o6, o7)) (mems l) None = Ok ((o1', o2', o3', o4', o5', o6', o7'))
      <-> slot' (de_option de_string) (B "typ") l o1 o1' /\ slot' de_jwe_alg (B "alg") l o2 o2' /\ slot' de_jwe_enc (B "enc") l o3 o3' /\ slot' (de_option de_borrowed) (B "skid") l o4 o4' /\ slot' (de_option de_borrowed) (B "apu") l o5 o5' /\ slot' de_borrowed (B "apv") l o6 o6' /\ slot' (de_epk C) (B "epk") l o7 o7') by walking M l Hst.
    clear Hst. split.
    + intros ([[[[[[o1 o2] o3] o4] o5] o6] o7] & H & G). apply W in H. destruct H as (H1 & H2 & H3 & H4 & H5 & H6 & H7).
      destruct o2 as [o2|]; [|discriminate G]. cbn [need ok_or rbind] in G.
      destruct o3 as [o3|]; [|discriminate G]. cbn [need ok_or rbind] in G.
      destruct o6 as [o6|]; [|discriminate G]. cbn [need ok_or rbind] in G.
      destruct o7 as [o7|]; [|discriminate G]. cbn [need ok_or rbind] in G.
      injection G as <-. cbn. repeat match goal with |- _ /\ _ => split end; [mobj d M|robj d M|robj d M|mobj d M|mobj d M|robj d M|robj d M].
    + destruct r as [o1 o2 o3 o4 o5 o6 o7]. cbn. intros (H1 & H2 & H3 & H4 & H5 & H6 & H7).
      mobjH d M H1 o1'.
      robjH d M H2.
      robjH d M H3.
      mobjH d M H4 o4'.
      mobjH d M H5 o5'.
      robjH d M H6.
      robjH d M H7.
      exists ((o1', (Some o2), (Some o3), o4', o5', (Some o6), (Some o7))). split; [apply W; repeat match goal with |- _ /\ _ => split end; assumption|reflexivity].
Qed.
Hint Resolve reads_jwe_header : reads.
Lemma reads_prior C d : fparse C = fp -> reads (S d) (de_from_prior C) prior_read.
Proof.
  intros HC. assert (E : reads d (de_u64 (fparse C)) num_read) by (rewrite HC; apply reads_u64). intros w T r. unfold prior_read, de_from_prior, fp_step, de_ostr, de_ou64.
  destruct w as [|b|n|s|l|l]; [notrec T..| |].
  - pose proof (tree_arr _ _ T) as M. destruct l as [|x1 [|x2 [|x3 [|x4 [|x5 [|x6 [|x7 [|x8 l]]]]]]]]; [short|short|short|short|short|short|short| |short].
    fields d. done r.
  - pose proof (tree_obj _ _ T) as M. clear T. rewrite raw_of_obj. step_of st Hst. rewrite ok_bind.
    assert (W : forall o1 o2 o3 o4 o5 o6 o7 o1' o2' o3' o4' o5' o6' o7', walk st (mkFS o1 o2 o3 o4 o5 o6 o7) (mems l) None = Ok (mkFS o1' o2' o3' o4' o5' o6' o7')
      <-> slot' de_string (B "iss") l o1 o1' /\ slot' de_string (B "sub") l o2 o2' /\ slot' (de_option de_string) (B "aud") l o3 o3' /\ slot' (de_option (de_u64 (fparse C))) (B "exp") l o4 o4' /\ slot' (de_option (de_u64 (fparse C))) (B "nbf") l o5 o5' /\ slot' (de_option (de_u64 (fparse C))) (B "iat") l o6 o6' /\ slot' (de_option de_string) (B "jti") l o7 o7') by walking M l Hst.
    clear Hst. split.
    + intros ([o1 o2 o3 o4 o5 o6 o7] & H & G). apply W in H. destruct H as (H1 & H2 & H3 & H4 & H5 & H6 & H7).
      destruct o1 as [o1|]; [|discriminate G]. cbn [need ok_or rbind] in G.
      destruct o2 as [o2|]; [|discriminate G]. cbn [need ok_or rbind] in G.
      injection G as <-. cbn. repeat match goal with |- _ /\ _ => split end; [robj d M|robj d M|mobj d M|mobj d M|mobj d M|mobj d M|mobj d M].
    + destruct r as [o1 o2 o3 o4 o5 o6 o7]. cbn. intros (H1 & H2 & H3 & H4 & H5 & H6 & H7).
      robjH d M H1.
      robjH d M H2.
      mobjH d M H3 o3'.
      mobjH d M H4 o4'.
      mobjH d M H5 o5'.
      mobjH d M H6 o6'.
      mobjH d M H7 o7'.
      exists (mkFS (Some o1) (Some o2) o3' o4' o5' o6' o7'). split; [apply W; repeat match goal with |- _ /\ _ => split end; assumption|reflexivity].
Qed.
Hint Resolve reads_prior : reads.
Lemma reads_attachment d : reads d (de_adata fp) content_read -> reads (S d) (de_attachment fp) attachment_read.
Proof.
  intros E.  intros w T r. unfold attachment_read, de_attachment, att_step, de_ostr, de_ou64.
  destruct w as [|b|n|s|l|l]; [notrec T..| |].
  - pose proof (tree_arr _ _ T) as M. destruct l as [|x1 [|x2 [|x3 [|x4 [|x5 [|x6 [|x7 [|x8 [|x9 l]]]]]]]]]; [short|short|short|short|short|short|short|short| |short].
    fields d. done r.
  - pose proof (tree_obj _ _ T) as M. clear T. rewrite raw_of_obj. step_of st Hst. rewrite ok_bind.
    assert (W : forall o1 o2 o3 o4 o5 o6 o7 o8 o1' o2' o3' o4' o5' o6' o7' o8', walk st (mkAS o1 o2 o3 o4 o5 o6 o7 o8) (mems l) None = Ok (mkAS o1' o2' o3' o4' o5' o6' o7' o8')
      <-> slot' (de_adata fp) (B "data") l o1 o1' /\ slot' (de_option de_string) (B "id") l o2 o2' /\ slot' (de_option de_string) (B "description") l o3 o3' /\ slot' (de_option de_string) (B "filename") l o4 o4' /\ slot' (de_option de_string) (B "media_type") l o5 o5' /\ slot' (de_option de_string) (B "format") l o6 o6' /\ slot' (de_option (de_u64 fp)) (B "lastmod_time") l o7 o7' /\ slot' (de_option (de_u64 fp)) (B "byte_count") l o8 o8') by walking M l Hst.
    clear Hst. split.
    + intros ([o1 o2 o3 o4 o5 o6 o7 o8] & H & G). apply W in H. destruct H as (H1 & H2 & H3 & H4 & H5 & H6 & H7 & H8).
      destruct o1 as [o1|]; [|discriminate G]. cbn [need ok_or rbind] in G.
      injection G as <-. cbn. repeat match goal with |- _ /\ _ => split end; [robj d M|mobj d M|mobj d M|mobj d M|mobj d M|mobj d M|mobj d M|mobj d M].
    + destruct r as [o1 o2 o3 o4 o5 o6 o7 o8]. cbn. intros (H1 & H2 & H3 & H4 & H5 & H6 & H7 & H8).
      robjH d M H1.
      mobjH d M H2 o2'.
      mobjH d M H3 o3'.
      mobjH d M H4 o4'.
      mobjH d M H5 o5'.
      mobjH d M H6 o6'.
      mobjH d M H7 o7'.
      mobjH d M H8 o8'.
      exists (mkAS (Some o1) o2' o3' o4' o5' o6' o7' o8'). split; [apply W; repeat match goal with |- _ /\ _ => split end; assumption|reflexivity].
Qed.
Hint Resolve reads_attachment : reads.

(** ** Attachments *)
Lemma c_field_some k l w : c_field k l = Ok (Some w) <-> one l (B k) w.
Proof.
  unfold c_field. assert (N : forall l, filter (fun kv : bytes * value => beq (fst kv) (B k)) l = [] <-> none l (B k)).
  { induction l0 as [|[n v] l0 IH]; [split; auto; intros _ []|]. cbn [filter fst]. rewrite none_cons, <- IH.
    destruct (beq n (B k)) eqn:E; [apply beq_eq in E|apply beq_neq in E]; split; try tauto; try discriminate; tauto. }
  induction l as [|[n v] l IH].
  - cbn. split; [discriminate|]. intros H. now apply one_nil in H.
  - cbn [filter fst]. rewrite one_cons. destruct (beq n (B k)) eqn:E; [apply beq_eq in E; subst n|apply beq_neq in E].
    + specialize (N l). destruct (filter _ l) as [|[n' v'] l'].
      * split; [intros H; injection H as <-; left; repeat split; auto; now apply N|intros [(_ & -> & _)|[X _]]; congruence].
      * split; [discriminate|]. intros [(_ & _ & X)|[X _]]; [|congruence]. apply N in X. discriminate.
    + rewrite IH. split; [auto|]. intros [(X & _)|[_ X]]; [congruence|auto].
Qed.
Lemma c_field_none k l : c_field k l = Ok None <-> none l (B k).
Proof.
  unfold c_field. assert (N : forall l, filter (fun kv : bytes * value => beq (fst kv) (B k)) l = [] <-> none l (B k)).
  { induction l0 as [|[n v] l0 IH]; [split; auto; intros _ []|]. cbn [filter fst]. rewrite none_cons, <- IH.
    destruct (beq n (B k)) eqn:E; [apply beq_eq in E|apply beq_neq in E]; split; try tauto; try discriminate; tauto. }
  rewrite <- N. destruct (filter _ l) as [|[? ?] [|]]; split; auto; discriminate.
Qed.
Lemma present_obj l i k w : present 0 (VObj l) i k w <-> one l (B k) w.
Proof. unfold present. split; [intros [(l' & E & H)|(vs & E & _)]; [now injection E as <-|discriminate]|eauto]. Qed.
Lemma missing_obj l k : missing (VObj l) k <-> none l (B k).
Proof. unfold missing. split; [intros (l' & E & H); now injection E as <-|eauto]. Qed.
Lemma c_req {A} k l (f : value -> res A) rd a : (forall w a, f w = Ok a <-> rd w a) ->
  (let? o := c_field k l in c_need f o) = Ok a <-> req rd 0 (VObj l) 0 k a.
Proof.
  intros R. rewrite ok_bind. unfold req. split.
  - intros (o & H & G). destruct o as [w|]; [|discriminate]. apply c_field_some in H. exists w. split; [now apply present_obj|now apply R].
  - intros (w & P & H). apply present_obj, c_field_some in P. apply R in H. eauto.
Qed.
Lemma c_string_read w s : c_string w = Ok s <-> str_read w s.
Proof. unfold str_read. destruct w; cbn; split; try discriminate; intros H; injection H as <-; auto. Qed.
Lemma c_strings_read w l : c_strings w = Ok l <-> list_read str_read w l.
Proof.
  unfold list_read. destruct w as [|b|n|s|vs|vs]; cbn [c_strings]; try (split; [discriminate|intros (vs' & E & _); discriminate]).
  transitivity (Forall2 str_read vs l); [|split; [eauto|intros (vs' & E & H); now injection E as <-]].
  revert l. induction vs as [|v vs IH]; intros l; cbn.
  - split; [intros H; injection H as <-; constructor|inversion 1; auto].
  - split.
    + rewrite ok_bind. intros (s & H & G). rewrite ok_bind in G. destruct G as (m & K & G). injection G as <-. constructor; [now apply c_string_read|now apply IH].
    + inversion 1 as [|v' s vs' m Hs Hm]; subst. apply c_string_read in Hs. apply IH in Hm. rewrite Hs. cbn. rewrite Hm. reflexivity.
Qed.
Lemma c_jws_read l j : c_jws l = Ok j <-> with_jws (VObj l) j.
Proof.
  unfold c_jws, with_jws, maybe. rewrite ok_bind. split.
  - intros (o & H & G). destruct o as [w|].
    + apply c_field_some in H. destruct w; try discriminate; cbn in G; injection G as <-.
      * right. now apply present_obj.
      * exists (VStr s). rewrite present_obj. unfold str_read. repeat split; auto. discriminate.
    + injection G as <-. left. now apply missing_obj, c_field_none.
  - destruct j as [j|].
    + intros (w & H & N & ->). apply present_obj, c_field_some in H. exists (Some (VStr j)). auto.
    + intros [H|H]; [apply missing_obj, c_field_none in H; eauto|apply present_obj, c_field_some in H; eauto].
Qed.
Lemma de_base64_read l d : de_base64 l = Ok d <-> base64_read (VObj l) d.
Proof.
  unfold de_base64, base64_read. split.
  - rewrite ok_bind. intros (o & H & G). rewrite ok_bind in G. destruct G as (s & K & G). rewrite ok_bind in G. destruct G as (j & J & G).
    injection G as <-. exists s, j. repeat split; [|now apply c_jws_read]. apply (c_req "base64" l _ _ s c_string_read). rewrite H. exact K.
  - intros (s & j & -> & H & J). apply (c_req "base64" l _ _ s c_string_read) in H. apply ok_bind in H as (o & H & K).
    rewrite H. cbn [rbind]. rewrite K. cbn [rbind]. apply c_jws_read in J. now rewrite J.
Qed.
Lemma norm_read w b : Ok (norm w) = Ok b <-> value_read w b.
Proof. rewrite value_read_norm. split; [intros H; now injection H as <-|intros ->; auto]. Qed.
Lemma de_json_read l d : de_json l = Ok d <-> json_read (VObj l) d.
Proof.
  unfold de_json, json_read. split.
  - rewrite ok_bind. intros (o & H & G). rewrite ok_bind in G. destruct G as (s & K & G). rewrite ok_bind in G. destruct G as (j & J & G).
    injection G as <-. exists s, j. repeat split; [|now apply c_jws_read]. apply (c_req "json" l _ _ s norm_read). rewrite H. exact K.
  - intros (s & j & -> & H & J). apply (c_req "json" l _ _ s norm_read) in H. apply ok_bind in H as (o & H & K).
    rewrite H. cbn [rbind]. rewrite K. cbn [rbind]. apply c_jws_read in J. now rewrite J.
Qed.
Lemma de_links_read l d : de_links l = Ok d <-> links_read (VObj l) d.
Proof.
  unfold de_links, links_read. split.
  - rewrite ok_bind. intros (o & H & G). rewrite ok_bind in G. destruct G as (s & K & G). rewrite ok_bind in G. destruct G as (o' & H' & G).
    rewrite ok_bind in G. destruct G as (h & K' & G). rewrite ok_bind in G. destruct G as (j & J & G).
    injection G as <-. exists s, h, j. repeat split; [| |now apply c_jws_read].
    + apply (c_req "links" l _ _ s c_strings_read). rewrite H. exact K.
    + apply (c_req "hash" l _ _ h c_string_read). rewrite H'. exact K'.
  - intros (s & h & j & -> & H & H' & J). apply (c_req "links" l _ _ s c_strings_read) in H. apply ok_bind in H as (o & H & K).
    apply (c_req "hash" l _ _ h c_string_read) in H'. apply ok_bind in H' as (o' & H' & K').
    rewrite H. cbn [rbind]. rewrite K. cbn [rbind]. rewrite H'. cbn [rbind]. rewrite K'. cbn [rbind]. apply c_jws_read in J. now rewrite J.
Qed.
Lemma content_iff w d : de_adata_content w = Ok d <-> content_read w d.
Proof.
  unfold content_read. destruct w as [|b|n|s|l|l]; cbn [de_adata_content]; try (split; [discriminate|intros [[l' E] _]; discriminate]).
  setoid_rewrite <- de_base64_read. setoid_rewrite <- de_json_read. setoid_rewrite <- de_links_read.
  split.
  - intros H. split; [eauto|]. destruct (de_base64 l) as [a| |]; [injection H as <-; auto|right..].
    all: destruct (de_json l) as [a'| |]; [injection H as <-; left; split; auto; discriminate|right..].
    all: destruct (de_links l) as [a''| |]; try discriminate; injection H as <-; repeat split; auto; discriminate.
  - intros [_ [H|[[N H]|(N & N' & H)]]].
    + now rewrite H.
    + destruct (de_base64 l); [destruct (N a); auto|now rewrite H..].
    + destruct (de_base64 l); [destruct (N a); auto|..]; (destruct (de_json l); [destruct (N' a); auto|now rewrite H..]).
Qed.
Lemma reads_adata d : d < 125 -> reads d (de_adata fp) content_read.
Proof.
  intros L w T a. apply tree_wf in T as [W D]. unfold de_adata. rewrite (to_content_raw fp) by (auto; change (max_depth - 3) with 125; lia).
  cbn [rbind]. apply content_iff.
Qed.
End Read.
