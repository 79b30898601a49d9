(** Small components: DID splitting, example resolvers, builders, bindings. *)
From Verif.Model Require Import Prelude Utf8 Json Serde DidDoc Crypto Keys Effects Message FromPrior Pack Unpack Bindings.
From Verif.Proofs Require Import Lib.
From Verif.Spec Require Import Small.

(** ** Splitting *)
Lemma split_once_none c s : split_once c s = None <-> ~ In c s.
Proof.
  induction s as [|x s IH]; cbn; [tauto|]. destruct (Ascii.eqb_spec x c).
  - subst. split; [congruence|tauto].
  - destruct (split_once c s) as [[a b]|]; split; try congruence; intuition congruence.
Qed.
Lemma split_once_some c s a b : split_once c s = Some (a, b) <-> s = a ++ c :: b /\ ~ In c a.
Proof.
  split.
  - revert a b; induction s as [|x s IH]; intros a b; cbn; [discriminate|]. destruct (Ascii.eqb_spec x c).
    + injection 1 as <- <-. subst. auto.
    + destruct (split_once c s) as [[a' b']|]; [|discriminate]. injection 1 as <- <-.
      destruct (IH a' b' eq_refl) as [-> N]. split; auto. cbn. tauto.
  - intros [-> N]. induction a as [|x a IH]; cbn.
    + destruct (Ascii.eqb_spec c c); [|congruence]. reflexivity.
    + destruct (Ascii.eqb_spec x c); [subst; destruct N; now left|]. rewrite IH; auto. intros I; apply N; now right.
Qed.
Lemma did_or_url_none s : ~ In "#"%char s <-> did_or_url s = (s, None).
Proof.
  unfold did_or_url. rewrite <- split_once_none. destruct (split_once "#" s) as [[a b]|]; split; try discriminate; reflexivity.
Qed.
Lemma did_or_url_some s d u : did_or_url s = (d, Some u) <->
  u = s /\ exists f, s = d ++ "#"%char :: f /\ ~ In "#"%char d.
Proof.
  unfold did_or_url. destruct (split_once "#" s) as [[a b]|] eqn:E.
  - apply split_once_some in E as [E N]. split.
    + injection 1 as <- <-. eauto.
    + intros (-> & f & H & N'). assert (F : split_once "#" s = Some (d, f)) by (apply split_once_some; auto).
      assert (G : split_once "#" s = Some (a, b)) by (apply split_once_some; auto). congruence.
  - split; [congruence|]. intros (_ & f & H & N).
    assert (F : split_once "#" s = Some (d, f)) by (apply split_once_some; auto). congruence.
Qed.
Lemma split_length c s : List.length (split c s) >= 1.
Proof. induction s as [|x s IH]; cbn; [lia|]. destruct (Ascii.eqb x c); cbn; [lia|]. destruct (split c s); cbn in *; lia. Qed.
Lemma split_cons c s : exists p ps, split c s = p :: ps.
Proof. pose proof (split_length c s). destruct (split c s); cbn in *; [lia|eauto]. Qed.
Lemma split_app c a s : ~ In c a -> exists p ps, split c s = p :: ps /\ split c (a ++ s) = (a ++ p) :: ps.
Proof.
  induction a as [|x a IH]; intros N; cbn in *.
  - destruct (split_cons c s) as (p & ps & ->). eauto.
  - destruct IH as (p & ps & E & ->); [tauto|]. destruct (Ascii.eqb_spec x c); [tauto|]. eauto.
Qed.
Lemma split_many c s : 2 <= List.length (split c s) -> exists a b, s = a ++ c :: b.
Proof.
  induction s as [|x s IH]; cbn; [lia|]. destruct (Ascii.eqb_spec x c).
  - intros _. subst. exists [], s. auto.
  - destruct (split c s) as [|p ps] eqn:E; cbn; [lia|]. intros H. destruct IH as (a & b & ->); [cbn; lia|].
    exists (x :: a), b. auto.
Qed.
Lemma split_hd c s p ps : split c s = p :: ps -> s = p /\ ps = [] \/ exists t, s = p ++ c :: t /\ ps = split c t.
Proof.
  revert p ps; induction s as [|x s IH]; intros p ps; cbn.
  - injection 1 as <- <-. auto.
  - destruct (Ascii.eqb_spec x c).
    + injection 1 as <- <-. subst. right. exists s. auto.
    + destruct (split_cons c s) as (p' & ps' & E). rewrite E. injection 1 as <- <-.
      destruct (IH _ _ E) as [[-> ->]|(t & -> & ->)]; auto. right. exists t. auto.
Qed.
Lemma is_did_spec s : is_did s = true <-> exists a b, s = B "did:" ++ a ++ ":"%char :: b.
Proof.
  unfold is_did. split.
  - intros H. apply andb_prop in H as [L H]. apply Nat.leb_le in L.
    destruct (split ":" s) as [|p ps] eqn:E; [discriminate|]. apply beq_eq in H. subst p.
    destruct (split_hd _ _ _ _ E) as [[-> ->]|(t & -> & ->)]; [cbn in L; lia|].
    destruct (split_many ":" t) as (a & b & ->); [cbn in L; lia|]. exists a, b. reflexivity.
  - intros (a & b & ->). cbn [B list_ascii_of_string app].
    change (split ":" ("d" :: "i" :: "d" :: ":" :: a ++ ":" :: b)%char) with (B "did" :: split ":" (a ++ ":" :: b)%char).
    cbn match. change (beq (B "did") (B "did")) with true. rewrite andb_true_r. apply Nat.leb_le. cbn [List.length]. clear.
    assert (2 <= List.length (split ":" (a ++ ":" :: b)%char)); [|lia].
    induction a as [|x a IH]; cbn.
    + pose proof (split_length ":" b). lia.
    + destruct (Ascii.eqb x ":"); cbn; [lia|]. destruct (split ":" (a ++ ":" :: b)%char); cbn in *; lia.
Qed.
Lemma key_id_is_did d f : is_did d = true -> ~ In "#"%char d ->
  is_did (d ++ "#"%char :: f) = true /\ did_or_url (d ++ "#"%char :: f) = (d, Some (d ++ "#"%char :: f)).
Proof.
  intros H N. split.
  - apply is_did_spec in H as (a & b & ->). apply is_did_spec. exists a, (b ++ "#"%char :: f).
    now rewrite <- !app_assoc.
  - apply did_or_url_some. eauto.
Qed.

(** ** Filters *)
Lemma filter_sublist {A} (f : A -> bool) l : sublist (filter f l) l.
Proof. induction l as [|x l IH]; cbn; [constructor|]. destruct (f x); now constructor. Qed.
Lemma find_first_first {A} (f : A -> bool) l x :
  find_first f l = Some x <-> first_with (fun y => f y = true) l x.
Proof.
  split.
  - induction l as [|y l IH]; cbn; [congruence|]. destruct (f y) eqn:E.
    + injection 1 as ->. exists [], l. repeat split; auto.
    + intros H. destruct (IH H) as (l1 & l2 & -> & F & N). exists (y :: l1), l2. repeat split; auto.
      intros z [<-|I]; [congruence|auto].
  - intros (l1 & l2 & -> & F & N). induction l1 as [|y l1 IH]; cbn; [now rewrite F|].
    destruct (f y) eqn:E; [destruct (N y); [now left|auto]|]. apply IH. intros; apply N; now right.
Qed.
Lemma first_with_ext {A} (P Q : A -> Prop) l x : (forall y, P y <-> Q y) -> first_with P l x -> first_with Q l x.
Proof.
  intros E (l1 & l2 & H & F & N). exists l1, l2. repeat split; auto; [now apply E|]. intros y I J. apply (N y I), E, J.
Qed.

(** ** Example resolvers *)
Lemma example_resolve_some known did d : example_resolve known did = Ok (Some d) <-> first_with (fun x => doc_id x = did) known d.
Proof.
  unfold example_resolve. split.
  - injection 1 as H. apply find_first_first in H. revert H. apply first_with_ext. intros; apply beq_eq.
  - intros H. f_equal. apply find_first_first. revert H. apply first_with_ext. intros; symmetry; apply beq_eq.
Qed.
Lemma example_resolve_none known did : example_resolve known did = Ok None <-> forall d, In d known -> doc_id d <> did.
Proof.
  unfold example_resolve. split.
  - injection 1 as H. intros d I. apply beq_neq. eapply (find_first_none _ _ H); auto.
  - intros H. f_equal. destruct (find_first _ known) eqn:E; auto. apply find_first_some in E as [I E].
    apply beq_eq in E. destruct (H _ I E).
Qed.
Lemma example_get_some known id s : example_get_secret known id = Ok (Some s) <-> first_with (fun x => sec_id x = id) known s.
Proof.
  unfold example_get_secret. split.
  - injection 1 as H. apply find_first_first in H. revert H. apply first_with_ext. intros; apply beq_eq.
  - intros H. f_equal. apply find_first_first. revert H. apply first_with_ext. intros; symmetry; apply beq_eq.
Qed.
Lemma example_find known ids : exists l, example_find_secrets known ids = Ok l /\ sublist l ids
  /\ (forall x, In x l <-> In x ids /\ exists s, In s known /\ sec_id s = x)
  /\ (forall x, In x l <-> In x ids /\ exists s, example_get_secret known x = Ok (Some s))
  /\ (forall x, count_occ (list_eq_dec ascii_dec) l x = 0 \/ count_occ (list_eq_dec ascii_dec) l x = count_occ (list_eq_dec ascii_dec) ids x).
Proof.
  eexists. split; [reflexivity|]. split; [apply filter_sublist|].
  assert (G : forall x, is_some (find_first (fun s => beq (sec_id s) x) known) = true <-> exists s, In s known /\ sec_id s = x).
  { intros x. destruct (find_first (fun s => beq (sec_id s) x) known) eqn:E; cbn; split; intros H; try congruence; auto.
    - apply find_first_some in E as [I E]. apply beq_eq in E. eauto.
    - destruct H as (s & I & <-). pose proof (find_first_none _ _ E s I) as F. cbn in F. now rewrite beq_refl in F. }
  split; [|split].
  - intros x. rewrite filter_In, G. tauto.
  - intros x. rewrite filter_In. unfold example_get_secret.
    destruct (find_first (fun s => beq (sec_id s) x) known); cbn; split; intros [I H]; split; eauto; try congruence.
    destruct H as (s & H). congruence.
  - intros x. induction ids as [|y ids IH]; cbn [filter count_occ]; auto.
    destruct (is_some (find_first (fun s => beq (sec_id s) y) known)) eqn:E; cbn [count_occ].
    + destruct (list_eq_dec ascii_dec y x).
      * subst. destruct IH as [IH|IH]; [|auto]. right. rewrite IH. f_equal.
        destruct (in_dec (list_eq_dec ascii_dec) x ids) as [I|I].
        -- exfalso. rewrite <- count_occ_not_In in IH. apply IH. apply filter_In. auto.
        -- symmetry. now apply count_occ_not_In.
      * auto.
    + destruct (list_eq_dec ascii_dec y x); auto. subst. left.
      apply count_occ_not_In. rewrite filter_In. intros [_ F]. congruence.
Qed.

(** ** Builder *)
Definition upd_last {A} (b : option A) (a : option A) : option A := match b with Some x => Some x | None => a end.
Definition upd_app {A} (a : option (list A)) (b : option (list A)) : option (list A) :=
  match a, b with Some x, Some y => Some (x ++ y) | Some x, None => Some x | None, b => b end.
Lemma upd_app_assoc {A} (a b c : option (list A)) : upd_app (upd_app a b) c = upd_app a (upd_app b c).
Proof. destruct a, b, c; cbn; auto. now rewrite app_assoc. Qed.

Lemma fold_last {S O A} (g : S -> option A) (op : S -> O -> S) (f : O -> option A) :
  (forall s o, g (op s o) = upd_last (f o) (g s)) ->
  forall l s, g (fold_left op l s) = upd_last (last_set f l) (g s).
Proof.
  intros H. induction l as [|o l IH]; intros s; cbn; auto. rewrite IH, H.
  destruct (last_set f l); cbn; auto.
Qed.
Lemma fold_app {S O A} (g : S -> option (list A)) (op : S -> O -> S) (f : O -> option (list A)) :
  (forall s o, g (op s o) = upd_app (g s) (f o)) ->
  forall l s, g (fold_left op l s) = upd_app (g s) ((fix go l := match l with [] => None | o :: l' => upd_app (f o) (go l') end) l).
Proof.
  intros H. induction l as [|o l IH]; intros s; cbn; [now destruct (g s)|]. rewrite IH, H. apply upd_app_assoc.
Qed.
Lemma appended_eq {A} (f : bop -> option (list A)) l :
  appended f l = (fix go l := match l with [] => None | o :: l' => upd_app (f o) (go l') end) l.
Proof. induction l as [|o l IH]; cbn; auto. now rewrite IH. Qed.
Lemma fold_const {S O A} (g : S -> A) (op : S -> O -> S) : (forall s o, g (op s o) = g s) ->
  forall l s, g (fold_left op l s) = g s.
Proof. intros H. induction l as [|o l IH]; intros s; cbn; auto. now rewrite IH, H. Qed.
Lemma upd_last_none {A} (o : option A) : upd_last o None = o. Proof. now destruct o. Qed.

Lemma build_spec id t b ops : let m := build id t b ops in
  msg_id m = id /\ msg_typ m = B "application/didcomm-plain+json" /\ msg_type m = t /\ msg_body m = b
  /\ msg_to m = appended set_to ops /\ msg_from m = last_set set_from ops
  /\ msg_thid m = last_set set_thid ops /\ msg_pthid m = last_set set_pthid ops
  /\ msg_created m = last_set set_created ops /\ msg_expires m = last_set set_expires ops
  /\ msg_from_prior m = last_set set_from_prior ops /\ msg_attachments m = appended set_attachments ops
  /\ (forall k, amap_get k (msg_extra m) = last_set (set_header k) ops)
  /\ NoDup (map fst (msg_extra m)).
Proof.
  cbn zeta. unfold build.
  repeat match goal with |- _ /\ _ => split end;
    try (rewrite (fold_const _ build_op); [reflexivity|intros ? []; reflexivity]);
    try (rewrite (fold_last _ build_op ltac:(first [exact set_from | exact set_thid])); fail).
  - rewrite appended_eq, (fold_app msg_to build_op set_to); [reflexivity|]. intros m []; cbn; try reflexivity;
      destruct (msg_to m); reflexivity.
  - rewrite (fold_last msg_from build_op set_from); [apply upd_last_none|]. intros m []; reflexivity.
  - rewrite (fold_last msg_thid build_op set_thid); [apply upd_last_none|]. intros m []; reflexivity.
  - rewrite (fold_last msg_pthid build_op set_pthid); [apply upd_last_none|]. intros m []; reflexivity.
  - rewrite (fold_last msg_created build_op set_created); [apply upd_last_none|]. intros m []; reflexivity.
  - rewrite (fold_last msg_expires build_op set_expires); [apply upd_last_none|]. intros m []; reflexivity.
  - rewrite (fold_last msg_from_prior build_op set_from_prior); [apply upd_last_none|]. intros m []; reflexivity.
  - rewrite appended_eq, (fold_app msg_attachments build_op set_attachments); [reflexivity|]. intros m []; cbn; try reflexivity;
      destruct (msg_attachments m); reflexivity.
  - intros k. rewrite (fold_last (fun m => amap_get k (msg_extra m)) build_op (set_header k)); [apply upd_last_none|].
    intros m []; cbn; try reflexivity. rewrite amap_get_insert.
    destruct (beq_spec k k0) as [E|E], (list_eq_dec ascii_dec k k0) as [F|F]; try reflexivity; [destruct (F E)|destruct (E F)].
  - assert (G : forall l m, NoDup (map fst (msg_extra m)) -> NoDup (map fst (msg_extra (fold_left build_op l m)))).
    { induction l as [|o l IH]; intros m H; cbn; auto. apply IH. destruct o; cbn; auto.
      clear -H. induction (msg_extra m) as [|[k' v'] x IH]; cbn in *; [repeat constructor; auto|].
      inversion H; subst. destruct (beq_spec k k'); cbn; [subst; now constructor|].
      constructor; auto. rewrite amap_insert_keys. intros [->|I]; auto. }
    apply G. constructor.
Qed.

Lemma abuild_spec d ops : let a := fold_left abuild_op ops (ab_new d) in
  att_data a = with_jws d (last_set (fun o => match o with AJws x => Some x | _ => None end) ops)
  /\ att_id a = last_set (fun o => match o with AId x => Some x | _ => None end) ops
  /\ att_description a = last_set (fun o => match o with ADescription x => Some x | _ => None end) ops
  /\ att_filename a = last_set (fun o => match o with AFilename x => Some x | _ => None end) ops
  /\ att_media_type a = last_set (fun o => match o with AMediaType x => Some x | _ => None end) ops
  /\ att_format a = last_set (fun o => match o with AFormat x => Some x | _ => None end) ops
  /\ att_lastmod_time a = last_set (fun o => match o with ALastmod x => Some x | _ => None end) ops
  /\ att_byte_count a = last_set (fun o => match o with AByteCount x => Some x | _ => None end) ops.
Proof.
  cbn zeta. repeat match goal with |- _ /\ _ => split end.
  - assert (G : forall l a, att_data (fold_left abuild_op l a) =
      with_jws (att_data a) (last_set (fun o => match o with AJws x => Some x | _ => None end) l)).
    { induction l as [|o l IH]; intros a; cbn [fold_left last_set]; auto. rewrite IH.
      destruct (last_set _ l) as [j|]; destruct o; cbn; auto; destruct (att_data a); reflexivity. }
    apply G.
  - rewrite (fold_last att_id abuild_op (fun o => match o with AId x => Some x | _ => None end)); [apply upd_last_none|]. intros ? []; reflexivity.
  - rewrite (fold_last att_description abuild_op (fun o => match o with ADescription x => Some x | _ => None end)); [apply upd_last_none|]. intros ? []; reflexivity.
  - rewrite (fold_last att_filename abuild_op (fun o => match o with AFilename x => Some x | _ => None end)); [apply upd_last_none|]. intros ? []; reflexivity.
  - rewrite (fold_last att_media_type abuild_op (fun o => match o with AMediaType x => Some x | _ => None end)); [apply upd_last_none|]. intros ? []; reflexivity.
  - rewrite (fold_last att_format abuild_op (fun o => match o with AFormat x => Some x | _ => None end)); [apply upd_last_none|]. intros ? []; reflexivity.
  - rewrite (fold_last att_lastmod_time abuild_op (fun o => match o with ALastmod x => Some x | _ => None end)); [apply upd_last_none|]. intros ? []; reflexivity.
  - rewrite (fold_last att_byte_count abuild_op (fun o => match o with AByteCount x => Some x | _ => None end)); [apply upd_last_none|]. intros ? []; reflexivity.
Qed.

Lemma fbuild_spec iss sub ops : fold_left fbuild_op ops (fpb_new iss sub) =
  mkFP iss sub
    (last_set (fun o => match o with FAud x => Some x | _ => None end) ops)
    (last_set (fun o => match o with FExp x => Some x | _ => None end) ops)
    (last_set (fun o => match o with FNbf x => Some x | _ => None end) ops)
    (last_set (fun o => match o with FIat x => Some x | _ => None end) ops)
    (last_set (fun o => match o with FJti x => Some x | _ => None end) ops).
Proof.
  assert (G : forall l a b c d e, fold_left fbuild_op l (mkFP iss sub a b c d e) = mkFP iss sub
    (upd_last (last_set (fun o => match o with FAud x => Some x | _ => None end) l) a)
    (upd_last (last_set (fun o => match o with FExp x => Some x | _ => None end) l) b)
    (upd_last (last_set (fun o => match o with FNbf x => Some x | _ => None end) l) c)
    (upd_last (last_set (fun o => match o with FIat x => Some x | _ => None end) l) d)
    (upd_last (last_set (fun o => match o with FJti x => Some x | _ => None end) l) e)).
  { induction l as [|o l IH]; intros; [reflexivity|].
    cbn [fold_left last_set]. destruct o;
      unfold fbuild_op, fpb_aud, fpb_exp, fpb_nbf, fpb_iat, fpb_jti;
      cbn [fp_iss fp_sub fp_aud fp_exp fp_nbf fp_iat fp_jti];
      rewrite IH; f_equal; match goal with |- context [last_set ?f l] => destruct (last_set f l) end; reflexivity. }
  unfold fpb_new. rewrite G. now rewrite !upd_last_none.
Qed.

(** ** Bindings *)
Lemma from_js_name k : k <> SecretNotFound -> from_js (JsErr (js_name k)) = k.
Proof. destruct k; intros H; try reflexivity. congruence. Qed.
Lemma js_name_inj k k' : js_name k = js_name k' -> k = k'.
Proof. destruct k, k'; vm_compute; congruence. Qed.

Lemma js_find_ok ids ans l : js_find_secrets ids ans = Ok l -> exists arr, ans = inr (Some arr) /\ sublist l ids
  /\ forall x, In x l <-> In x ids /\ In (Some x) arr.
Proof.
  destruct ans as [t|[arr|]]; cbn; try congruence. injection 1 as <-. exists arr. split; auto. split; [apply filter_sublist|].
  intros x. rewrite filter_In, existsb_exists. split.
  - intros (I & f & J & E). apply beq_eq in E. subst. split; auto. apply in_flat_map in J as ([s|] & J & K); cbn in K; try tauto.
    destruct K as [<-|[]]. auto.
  - intros [I J]. split; auto. exists x. split; [|apply beq_refl]. apply in_flat_map. exists (Some x). cbn. auto.
Qed.
Lemma ffi_find_ok ids ans l : ffi_find_secrets ids ans = Ok l -> exists arr, ans = Ok arr /\ sublist l ids
  /\ forall x, In x l <-> In x ids /\ In x arr.
Proof.
  unfold ffi_find_secrets. intros H. apply rbind_Ok in H as (arr & K & H). apply kind_Ok in K. injection H as <-.
  exists arr. split; auto. split; [apply filter_sublist|]. intros x. rewrite filter_In, existsb_exists. split.
  - intros (I & f & J & E). apply beq_eq in E. now subst.
  - intros [I J]. split; auto. exists x. split; auto. apply beq_refl.
Qed.

(** Callbacks: after the sender is gone, nothing changes. *)
Lemma cb_dead {A} (l : list (cb_op A)) : forall s, cb_sender s = false ->
  Forall (fun x => x = Err InvalidState) (fst (cb_run s l)) /\ cb_value (snd (cb_run s l)) = cb_value s
  /\ cb_sender (snd (cb_run s l)) = false.
Proof.
  induction l as [|[r| |] l IH]; intros s H; cbn [cb_run].
  - cbn. auto.
  - unfold cb_call. rewrite H. specialize (IH s H). destruct (cb_run s l) as [xs s']. cbn in *. intuition.
  - apply (IH (cb_cancel s)). exact H.
  - destruct (IH (cb_drop s)) as (F & V & S); auto.
Qed.
Lemma cb_calls_only {A} (r : res A) (rs : list (res A)) :
  let (outs, s) := cb_run cb_new (map CCall (r :: rs)) in
  outs = Ok tt :: map (fun _ => Err InvalidState) rs /\ cb_get s = Some r.
Proof.
  cbn [map cb_run cb_call cb_new cb_sender cb_receiver cb_value].
  assert (G : forall v rc, cb_run (@mkCB A false rc v) (map CCall rs) = (map (fun _ => Err InvalidState) rs, mkCB false rc v)).
  { induction rs as [|x rs IH]; intros v rc; cbn [map cb_run cb_call cb_sender]; auto. now rewrite IH. }
  rewrite G. auto.
Qed.
Lemma cb_at_most_once {A} (l : list (cb_op A)) : let (outs, s) := cb_run cb_new l in
  (outs = map (fun _ => Err InvalidState) (cb_answers l) /\ cb_value s = None
             /\ (cb_sender s = true -> cb_get s = None /\ cb_answers l = [])
             /\ (cb_sender s = false -> cb_get s = Some (Err InvalidState)))
  \/ (exists r rest, cb_answers l = r :: rest /\ outs = Ok tt :: map (fun _ => Err InvalidState) rest
                     /\ cb_get s = Some r).
Proof.
  assert (D : forall (l : list (cb_op A)) s, cb_sender s = false ->
    fst (cb_run s l) = map (fun _ => Err InvalidState) (cb_answers l)).
  { clear. induction l as [|[r| |] l IH]; intros s H; cbn [cb_run].
    - reflexivity.
    - unfold cb_call. rewrite H. specialize (IH s H). destruct (cb_run s l). cbn in *. now rewrite IH.
    - rewrite (IH (cb_cancel s)) by auto. reflexivity.
    - now rewrite (IH (cb_drop s)) by auto. }
  enough (G : forall s : cb_state A, cb_sender s = true -> cb_value s = None ->
    let (outs, s) := cb_run s l in
    (outs = map (fun _ => Err InvalidState) (cb_answers l) /\ cb_value s = None
             /\ (cb_sender s = true -> cb_get s = None /\ cb_answers l = [])
             /\ (cb_sender s = false -> cb_get s = Some (Err InvalidState)))
    \/ (exists r rest, cb_answers l = r :: rest /\ outs = Ok tt :: map (fun _ => Err InvalidState) rest
                     /\ cb_get s = Some r)) by (apply G; reflexivity).
  induction l as [|[r| |] l IH]; intros s S V.
  - cbn. left. unfold cb_get. rewrite S, V. repeat split; auto; congruence.
  - cbn [cb_run]. unfold cb_call. rewrite S. destruct (cb_receiver s) eqn:RC.
    + pose proof (cb_dead l (mkCB false true (Some r)) eq_refl) as (_ & K & Z).
      pose proof (D l (mkCB false true (Some r)) eq_refl) as E. destruct (cb_run _ l) as [xs s']. cbn in *.
      right. exists r, (cb_answers l). rewrite E. unfold cb_get. now rewrite K.
    + pose proof (cb_dead l (mkCB false false (cb_value s)) eq_refl) as (_ & K & Z).
      pose proof (D l (mkCB false false (cb_value s)) eq_refl) as E. destruct (cb_run _ l) as [xs s']. cbn in *.
      left. rewrite E. unfold cb_get. rewrite K, V, Z. repeat split; auto; congruence.
  - cbn [cb_run]. specialize (IH (cb_cancel s) S V). destruct (cb_run (cb_cancel s) l) as [xs s']. exact IH.
  - cbn [cb_run]. pose proof (cb_dead l (cb_drop s) eq_refl) as (_ & K & Z).
    pose proof (D l (cb_drop s) eq_refl) as E. destruct (cb_run _ l) as [xs s']. cbn in *.
    left. rewrite E. unfold cb_get. rewrite K, V, Z. repeat split; auto; congruence.
Qed.

(** Options *)
Lemma pack_default_obj fp text : parse text = (RObj [] None, None) -> js_pack_options fp text = Ok default_pack_options.
Proof. intros H. unfold js_pack_options, from_json. now rewrite H. Qed.
Lemma unpack_default_obj text : parse text = (RObj [] None, None) -> js_unpack_options text = Ok (mkUO false false).
Proof. intros H. unfold js_unpack_options, from_json. now rewrite H. Qed.

Lemma last_set_app {O A} (f : O -> option A) a b : last_set f (a ++ b) = upd_last (last_set f b) (last_set f a).
Proof. induction a as [|o a IH]; cbn; [now rewrite upd_last_none|]. rewrite IH. destruct (last_set f b), (last_set f a); reflexivity. Qed.
Lemma appended_app {A} (f : bop -> option (list A)) a b : appended f (a ++ b) = upd_app (appended f a) (appended f b).
Proof.
  rewrite !appended_eq. induction a as [|o a IH]; [reflexivity|]. cbn [app]. rewrite IH. symmetry. apply upd_app_assoc.
Qed.
Lemma last_set_swap {O A} (f : O -> option A) a x y b : f x = None \/ f y = None ->
  last_set f (a ++ x :: y :: b) = last_set f (a ++ y :: x :: b).
Proof.
  intros H. rewrite !last_set_app. cbn. destruct (last_set f b); [reflexivity|].
  destruct H as [H|H]; rewrite H; [destruct (f y)|destruct (f x)]; reflexivity.
Qed.
Lemma appended_swap {A} (f : bop -> option (list A)) a x y b : f x = None \/ f y = None ->
  appended f (a ++ x :: y :: b) = appended f (a ++ y :: x :: b).
Proof.
  intros H. rewrite !appended_app. f_equal. cbn. destruct H as [H|H]; rewrite H; [destruct (f y)|destruct (f x)]; reflexivity.
Qed.
Lemma build_commute id t b l o1 o2 l' : field_of o1 <> field_of o2 ->
  same_message (build id t b (l ++ o1 :: o2 :: l')) (build id t b (l ++ o2 :: o1 :: l')).
Proof.
  intros H. unfold same_message.
  destruct (build_spec id t b (l ++ o1 :: o2 :: l')) as (? & ? & ? & ? & E1 & E2 & E3 & E4 & E5 & E6 & E7 & E8 & E9 & _).
  destruct (build_spec id t b (l ++ o2 :: o1 :: l')) as (? & ? & ? & ? & F1 & F2 & F3 & F4 & F5 & F6 & F7 & F8 & F9 & _).
  repeat match goal with |- _ /\ _ => split end; [etransitivity; [|symmetry]; eassumption ..| | | | | | | | |intros k];
  rewrite ?E1, ?E2, ?E3, ?E4, ?E5, ?E6, ?E7, ?E8, ?E9, ?F1, ?F2, ?F3, ?F4, ?F5, ?F6, ?F7, ?F8, ?F9;
  try (apply last_set_swap || apply appended_swap); destruct o1, o2; cbn in *; auto; try (exfalso; now apply H).
  destruct (list_eq_dec ascii_dec k k0), (list_eq_dec ascii_dec k k1); auto. subst. exfalso; now apply H.
Qed.

Lemma white_ws w s : white w -> skip_ws (w ++ s) = skip_ws s.
Proof.
  induction 1 as [|c w I W IH]; [reflexivity|]. cbn [app skip_ws].
  assert (E : is_ws c = true).
  { unfold is_ws. cbn in I. rewrite <- (ascii_N_embedding c). destruct I as [<-|[<-|[<-|[<-|[]]]]]; reflexivity. }
  now rewrite E.
Qed.

Lemma parse_empty_obj w1 w2 w3 : white w1 -> white w2 -> white w3 ->
  parse (w1 ++ "{"%char :: w2 ++ "}"%char :: w3) = (RObj [] None, None).
Proof.
  intros A1 A2 A3. unfold parse.
  assert (L : exists f, List.length (w1 ++ "{"%char :: w2 ++ "}"%char :: w3) + List.length (w1 ++ "{"%char :: w2 ++ "}"%char :: w3) = S f).
  { rewrite app_length. cbn. rewrite !Nat.add_succ_r. eauto. }
  destruct L as (f & ->).
  cbn [pval]. rewrite white_ws by auto. cbn [skip_ws]. change (is_ws "{") with false. cbn match.
  change (is_quote "{") with false. cbn match. rewrite Ascii.eqb_refl. cbn [pobj]. rewrite white_ws by auto.
  cbn [skip_ws]. change (is_ws "}") with false. cbn match. rewrite Ascii.eqb_refl.
  rewrite <- (app_nil_r w3), white_ws by auto. reflexivity.
Qed.
Lemma empty_pack_options fp w1 w2 w3 : white w1 -> white w2 -> white w3 ->
  js_pack_options fp (w1 ++ "{"%char :: w2 ++ "}"%char :: w3) = Ok default_pack_options.
Proof. intros. apply pack_default_obj, parse_empty_obj; auto. Qed.
Lemma empty_unpack_options w1 w2 w3 : white w1 -> white w2 -> white w3 -> exists o,
  js_unpack_options (w1 ++ "{"%char :: w2 ++ "}"%char :: w3) = Ok o
  /\ uo_all_keys o = uo_all_keys default_unpack_options.
Proof. intros. eexists. split; [apply unpack_default_obj, parse_empty_obj; auto|reflexivity]. Qed.
