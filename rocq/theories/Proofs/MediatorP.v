(** What a mediator gets to see. *)
From Verif.Model Require Import Prelude Utf8 Base64 Json Serde DidDoc Crypto Keys Effects Jws Jwe Message FromPrior Pack Routing Unpack.
From Verif.Spec Require Import Small Codec Events World Text Packing Mediator.
From Verif.Proofs Require Import Lib Base64P JsonP SerdeP CodecP SmallP TreeP Wp Errs NoPanic UnpackInv SealP TextP PackP RouteP HideP.

Section Peel.
Context (C : crypto) (h : option (list (bytes * value))) (alg : anon_alg).
Lemma headers_kept l : forall m, fold_left (fun m kv => mb_header (fst kv) (snd kv) m) l m
  = mkMsg (msg_id m) (msg_typ m) (msg_type m) (msg_body m) (msg_from m) (msg_to m) (msg_thid m) (msg_pthid m)
      (fold_left (fun l kv => amap_insert (fst kv) (snd kv) l) l (msg_extra m)) (msg_created m) (msg_expires m) (msg_from_prior m) (msg_attachments m).
Proof. induction l as [|[k v] l IH]; intros m; cbn [fold_left fst snd]; [now destruct m|]. rewrite IH. reflexivity. Qed.
Lemma forward_kept id next v : message_text (forward_message id next h v) = forward_text id next (kept_headers h) v.
Proof.
  unfold forward_message. rewrite headers_kept, message_written. unfold plain_text, forward_text, kept_headers.
  cbn [msg_id msg_typ msg_type msg_body msg_from msg_to msg_thid msg_pthid msg_extra msg_created msg_expires msg_from_prior msg_attachments mb_new mb_attachment app Text.entries].
  rewrite print_obj. cbn [map]. rewrite mtext_lit by reflexivity. unfold Text.entries. rewrite json_written. reflexivity.
Qed.
Lemma build_forwards msg next tr pt : exec (build_forward C msg next h) tr (Ok pt) <-> forwards C h msg next tr pt.
Proof.
  unfold build_forward, forwards. destruct (from_json _ msg) as [v| |] eqn:E; cbn [kind pbind bind random exec].
  - split.
    + intros (id & tr' & -> & -> & H). apply Ok_inj in H. subst pt. exists v, id. rewrite forward_kept. auto.
    + intros (v' & id & Ev & -> & ->). apply Ok_inj in Ev. subst v'. exists id, []. rewrite forward_kept. auto.
  - split; [intros [_ H]; discriminate H|intros (v & id & H & _); discriminate H].
  - split; [intros [_ H]; discriminate H|intros (v & id & H & _); discriminate H].
Qed.

Definition hops (rks : list bytes) (to : bytes) : list (bytes * bytes) := combine (rev rks) (rev (tl rks ++ [to])).
Lemma hops_cons r next rest to : hops (r :: next :: rest) to = hops (next :: rest) to ++ [(r, next)].
Proof.
  unfold hops. change (tl (r :: next :: rest) ++ [to]) with (next :: (rest ++ [to])). change (tl (next :: rest)) with rest.
  change (rev (r :: next :: rest)) with (rev (next :: rest) ++ [r]). change (rev (next :: rest ++ [to])) with (rev (rest ++ [to]) ++ [next]).
  assert (L : List.length (rev (next :: rest)) = List.length (rev (rest ++ [to]))) by (rewrite !rev_length, app_length; cbn; lia).
  revert L. generalize (rev (next :: rest)) (rev (rest ++ [to])). intros a. induction a as [|x a IH]; intros [|y b] L; cbn in L; try discriminate; [reflexivity|].
  cbn [app combine]. now rewrite IH by congruence.
Qed.
Lemma loop_app l1 l2 : forall msg tr r, exec (wrap_loop C msg h (l1 ++ l2) alg) tr (Ok r) <->
  exists tr1 tr2 mid, tr = tr1 ++ tr2 /\ exec (wrap_loop C msg h l1 alg) tr1 (Ok mid) /\ exec (wrap_loop C mid h l2 alg) tr2 (Ok r).
Proof.
  induction l1 as [|[to next] l1 IH]; intros msg tr r; cbn [app wrap_loop].
  - split; [intros H; exists [], tr, msg; cbn; auto|]. intros (t1 & t2 & mid & -> & [-> E] & H). apply Ok_inj in E. now subst mid.
  - split.
    + intros H. apply exec_pbind_Ok in H as (t1 & t2 & m & -> & H1 & H2). apply exec_pbind_Ok in H2 as (t3 & t4 & [m2 kids] & -> & H2 & H3).
      apply IH in H3 as (t5 & t6 & mid & -> & H3 & H4). exists (t1 ++ t3 ++ t5), t6, mid. split; [now rewrite !app_assoc|]. split; [|exact H4].
      eapply exec_then; [exact H1|]. eapply exec_then; [exact H2|]. exact H3.
    + intros (ta & tb & mid & -> & H & H4). apply exec_pbind_Ok in H as (t1 & t2 & m & -> & H1 & H2). apply exec_pbind_Ok in H2 as (t3 & t4 & [m2 kids] & -> & H2 & H3).
      rewrite <- !app_assoc. eapply exec_then; [exact H1|]. eapply exec_then; [exact H2|]. apply IH. exists t4, tb, mid. auto.
Qed.
(** The layer of the first routing key is put on last. *)
Lemma wrap_one_more msg to r next rest tr text : exec (wrap_in_forward C msg h to (r :: next :: rest) alg) tr (Ok text) <->
  exists tr1 tr2 mid, tr = tr1 ++ tr2 /\ exec (wrap_in_forward C msg h to (next :: rest) alg) tr1 (Ok mid)
    /\ exec (wrap_in_forward C mid h next [r] alg) tr2 (Ok text).
Proof.
  unfold wrap_in_forward. change (combine (rev (r :: next :: rest)) (rev ((next :: rest) ++ [to]))) with (hops (r :: next :: rest) to).
  change (combine (rev (next :: rest)) (rev (rest ++ [to]))) with (hops (next :: rest) to). rewrite hops_cons. cbn [rev app combine]. apply loop_app.
Qed.
Lemma wrap_single msg to r tr text : exec (wrap_in_forward C msg h to [r] alg) tr (Ok text) <->
  exists tr1 tr2 pt kids, tr = tr1 ++ tr2 /\ forwards C h msg to tr1 pt /\ exec (anoncrypt C r pt alg) tr2 (Ok (text, kids)).
Proof.
  unfold wrap_in_forward. cbn [rev app combine wrap_loop]. split.
  - intros H. apply exec_pbind_Ok in H as (t1 & t2 & m & -> & H1 & H2). apply exec_pbind_Ok in H2 as (t3 & t4 & [m2 kids] & -> & H2 & [-> H3]).
    apply Ok_inj in H3. subst m2. exists t1, t3, m, kids. rewrite app_nil_r. split; [reflexivity|]. split; [now apply build_forwards|exact H2].
  - intros (t1 & t2 & pt & kids & -> & H1 & H2). apply build_forwards in H1. eapply exec_then; [exact H1|]. rewrite <- (app_nil_r t2). eapply exec_then; [exact H2|]. cbn. auto.
Qed.
Lemma wrap_first msg to r rest tr text : exec (wrap_in_forward C msg h to (r :: rest) alg) tr (Ok text) <->
  exists tr1 tr2 pt kids, tr = tr1 ++ tr2 /\ for_first C h alg msg to (r :: rest) tr1 pt /\ exec (anoncrypt C r pt alg) tr2 (Ok (text, kids)).
Proof.
  destruct rest as [|next rest]; [apply wrap_single|]. rewrite wrap_one_more. unfold for_first. split.
  - intros (t1 & t2 & mid & -> & H1 & H2). apply wrap_single in H2 as (t3 & t4 & pt & kids & -> & H2 & H3). exists (t1 ++ t3), t4, pt, kids. rewrite app_assoc.
    split; [reflexivity|]. split; [|exact H3]. exists t1, t3, mid. auto.
  - intros (ta & t4 & pt & kids & -> & (t1 & t3 & mid & -> & H1 & H2) & H3). exists t1, (t3 ++ t4), mid. rewrite app_assoc. split; [reflexivity|]. split; [exact H1|].
    apply wrap_single. exists t3, t4, pt, kids. auto.
Qed.
End Peel.

Section Blind.
Context (C : crypto) (h : option (list (bytes * value))) (alg : anon_alg).
Lemma mediator_view msg to r1 r2 rest tr text : exec (wrap_in_forward C msg h to (r1 :: r2 :: rest) alg) tr (Ok text) ->
  exists tr1 tr2 tr3 pt outer, tr = tr1 ++ tr2 ++ tr3 /\ for_first C h alg msg to (r2 :: rest) tr1 pt
    /\ for_first C h alg msg to (r1 :: r2 :: rest) (tr1 ++ tr2) outer
    /\ forall e msg' to' rest' tr1' pt', for_first (with_aead C e) h alg msg' to' (r2 :: rest') tr1' pt' ->
      (forall ce k n aad, e ce k n aad pt' = aead_enc C ce k n aad pt) ->
      for_first (with_aead C e) h alg msg' to' (r1 :: r2 :: rest') (tr1' ++ tr2) outer
      /\ ((forall ce k n aad, e ce k n aad outer = aead_enc C ce k n aad outer) ->
         exec (wrap_in_forward (with_aead C e) msg' h to' (r1 :: r2 :: rest') alg) (tr1' ++ tr2 ++ tr3) (Ok text)).
Proof.
  intros H. apply wrap_one_more in H as (ta & tb & mid & -> & H1 & H2). pose proof H1 as H0. apply wrap_first in H1 as (t1 & t2 & pt & kids & -> & F & A).
  apply wrap_single in H2 as (t3 & t4 & p1 & k1 & -> & F1 & A1). exists t1, (t2 ++ t3), t4, pt, p1. split; [now rewrite <- !app_assoc|]. split; [exact F|]. split.
  { exists (t1 ++ t2), t3, mid. rewrite app_assoc. auto. }
  intros e msg' to' rest' tr1' pt' F' E1.
  assert (W : exec (wrap_in_forward (with_aead C e) msg' h to' (r2 :: rest') alg) (tr1' ++ t2) (Ok mid)).
  { apply wrap_first. exists tr1', t2, pt', kids. split; [reflexivity|]. split; [exact F'|]. now apply (anoncrypt_peq C e r2 pt pt' alg E1). }
  split.
  - exists (tr1' ++ t2), t3, mid. rewrite app_assoc. auto.
  - intros E2. apply wrap_one_more. exists (tr1' ++ t2), (t3 ++ t4), mid. split; [now rewrite <- !app_assoc|]. split; [exact W|].
    apply wrap_single. exists t3, t4, p1, k1. split; [reflexivity|]. split; [exact F1|]. now apply (anoncrypt_peq C e r1 p1 p1 alg).
Qed.
Lemma network_view msg to r rest tr text : exec (wrap_in_forward C msg h to (r :: rest) alg) tr (Ok text) ->
  exists tr1 tr2 pt, tr = tr1 ++ tr2 /\ for_first C h alg msg to (r :: rest) tr1 pt
    /\ forall e msg' h' to' rest' tr1' pt', for_first (with_aead C e) h' alg msg' to' (r :: rest') tr1' pt' ->
      (forall ce k n aad, e ce k n aad pt' = aead_enc C ce k n aad pt) ->
      exec (wrap_in_forward (with_aead C e) msg' h' to' (r :: rest') alg) (tr1' ++ tr2) (Ok text).
Proof.
  intros H. apply wrap_first in H as (t1 & t2 & pt & kids & -> & F & A). exists t1, t2, pt. split; [reflexivity|]. split; [exact F|].
  intros e msg' h' to' rest' tr1' pt' F' E1. apply wrap_first. exists tr1', t2, pt', kids. split; [reflexivity|]. split; [exact F'|]. now apply (anoncrypt_peq C e r pt pt' alg E1).
Qed.
End Blind.
