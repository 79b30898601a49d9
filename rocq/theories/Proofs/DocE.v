(** Which errors reading documents and secrets can give, and the calls of the wasm layer. *)
From Verif.Model Require Import Prelude Utf8 Base64 Json Serde DidDoc Crypto Keys Effects Jws Jwe Message FromPrior Pack Routing Unpack Bindings DocJson.
From Verif.Spec Require Import Codec Small Names World Wire Doc.
From Verif.Proofs Require Import Lib JsonP JsonDec SerdeP Errs RoundP SigningP WorldP WireP ReadP WireU DocP.

Section DocE.
Variable K : errkind -> Prop.
Variable J : jerr -> Prop.
Hypothesis KM : K Malformed.
Hypothesis KJ : forall e, J e -> K (jkind e).
Ltac e := repeat (intros; cbv beta iota; lazymatch goal with
  | |- errs K (Ok _) => exact I
  | |- errs K (Err Malformed) => exact KM
  | |- errs K (rbind (elem _ _ _) _) => apply (errs_elem K J KM KJ); auto
  | |- errs K (rbind _ _) => apply (errs_bind K)
  | |- errs K (need _) => apply (errs_need K KM)
  | |- errs K (ok_or _ _) => apply (errs_ok_or K); auto
  | |- errs K (rd_str _) => apply (errs_rd K J KJ); auto
  | |- errs K (close _ _) => apply (errs_close K J KJ); auto
  | |- errs K (skip _) => apply (errs_skip K J KJ); auto
  | |- errs K (once _ _ _) => apply (errs_once K J KM); auto
  | |- errs K (de_string _) => apply (errs_string K J KM KJ); auto
  | |- errs K (de_vec _ _) => apply (errs_vec K J KM KJ); auto
  | |- errs K (to_content _ _ _) => apply (errs_content K J KM KJ); auto
  | |- errs K (end_seq _ _) => apply (errs_end K J KM KJ); auto
  | |- errs K (mismatch _) => apply (errs_mismatch K J KM KJ); auto
  | |- errs K (walk _ _ _ _) => apply (errs_walk K J KJ); auto
  | |- errs K (match ?x with _ => _ end) => destruct x
  | |- errs K ((match ?x with _ => _ end) _ _) => destruct x
  | |- errs K _ => progress auto
  end).
Lemma errs_type : forall r, clean J r -> errs K (de_unit_enum vmtype_of r).
Proof.
  intros r C. unfold de_unit_enum. destruct r; try now apply (errs_mismatch K J KM KJ).
  - cbn in C. e.
  - apply clean_obj in C as [C1 C2]. destruct l as [|[k v] l].
    + destruct tail; [apply KJ; exact C2|]. exact KM.
    + inversion C1 as [|? ? [D1 D2] D3]; subst. cbn in D1, D2. e.
Qed.
Lemma errs_strings v : errs K (c_strings v).
Proof. destruct v; try exact KM. cbn. apply errs_rmap. apply Forall_forall. intros x _. destruct x; try exact KM. exact I. Qed.
Lemma errs_field k l : errs K (c_field k l).
Proof. unfold c_field. e. Qed.
Lemma errs_cneed {A} (f : value -> res A) o : (forall v, errs K (f v)) -> errs K (c_need f o).
Proof. intros F. destruct o; cbn; auto. Qed.
Lemma errs_cstring v : errs K (c_string v). Proof. destruct v; try exact KM. exact I. Qed.
Lemma errs_material a b c l : errs K (c_material a b c l).
Proof. unfold c_material. e. Qed.
Hint Resolve errs_type errs_strings errs_field errs_cneed errs_cstring errs_material : core.
Lemma errs_kind l : errs K (c_service_kind l).
Proof. unfold c_service_kind, c_messaging, c_accept, c_routing_keys. e. Qed.
Hint Resolve errs_kind : core.
Lemma errs_vm fp : forall r, clean J r -> errs K (de_vm fp r).
Proof. intros r C. unfold de_vm. destruct r; try now apply (errs_mismatch K J KM KJ). apply clean_obj in C as [? ?]. e. unfold vm_step. e. Qed.
Lemma errs_service fp : forall r, clean J r -> errs K (de_service fp r).
Proof. intros r C. unfold de_service. destruct r; try now apply (errs_mismatch K J KM KJ). apply clean_obj in C as [? ?]. e. unfold service_step. e. Qed.
Lemma errs_secret fp : forall r, clean J r -> errs K (de_secret fp r).
Proof. intros r C. unfold de_secret. destruct r; try now apply (errs_mismatch K J KM KJ). apply clean_obj in C as [? ?]. e. unfold secret_step. e. Qed.
Lemma errs_doc fp : forall r, clean J r -> errs K (de_doc fp r).
Proof.
  pose proof (errs_vm fp). pose proof (errs_service fp).
  intros r C. unfold de_doc. destruct r; try (now apply (errs_mismatch K J KM KJ)); [apply clean_arr in C as [? ?]|apply clean_obj in C as [? ?]]; e.
Qed.
Lemma errs_opt {A} (f : raw -> res A) : (forall r, clean J r -> errs K (f r)) -> forall r, clean J r -> errs K (de_option f r).
Proof. intros F r C. apply (errs_option K J); auto. Qed.
End DocE.

Lemma doc_str_errs fp s : errs json_kind (from_json (de_option (de_doc fp)) s).
Proof. apply from_json_errs, errs_opt, errs_doc; [exact jm|exact jkind_ok]. Qed.
Lemma secret_str_errs fp s : errs json_kind (from_json (de_option (de_secret fp)) s).
Proof. apply from_json_errs, errs_opt, errs_secret; [exact jm|exact jkind_ok]. Qed.
Lemma kind_total {A} (r : res A) k : errs json_kind r -> kind k r = Err k \/ exists a, kind k r = Ok a /\ r = Ok a.
Proof. destruct r; cbn; intros H; eauto. destruct H. Qed.

(** What the resolver adapters give. *)
Lemma resolve_answer fp v : json_tree fp 127 v ->
  (v = VNull /\ js_resolve fp (inr (print v)) = Ok None)
  \/ (exists d, doc_read v d /\ js_resolve fp (inr (print v)) = Ok (Some d))
  \/ (v <> VNull /\ (forall d, ~ doc_read v d) /\ js_resolve fp (inr (print v)) = Err InvalidState).
Proof.
  intros T. pose proof (fun o => answer_read fp (de_doc fp) doc_read v o (reads_doc fp) T) as R. cbn [js_resolve].
  destruct (kind_total _ InvalidState (doc_str_errs fp (print v))) as [E|(o & E & _)]; rewrite E in *.
  - right. right. split; [|split; auto].
    + intros ->. now apply (R None) in E || (specialize (R None); cbn in R; destruct R as [_ R]; discriminate (R eq_refl)).
    + intros d D. destruct (R (Some d)) as [_ R']. discriminate R'. split; auto. intros ->.
      destruct D as [D _]. apply req_other in D as [[l X]|(vs & X & _)]; discriminate X.
  - destruct (R o) as [R' _]. specialize (R' eq_refl). destruct o as [d|]; [|auto]. right. left. exists d. split; [tauto|auto].
Qed.
Lemma secret_answer fp v : json_tree fp 127 v ->
  (v = VNull /\ js_get_secret fp (inr (print v)) = Ok None)
  \/ (exists s, secret_read v s /\ js_get_secret fp (inr (print v)) = Ok (Some s))
  \/ (v <> VNull /\ (forall s, ~ secret_read v s) /\ js_get_secret fp (inr (print v)) = Err InvalidState).
Proof.
  intros T. pose proof (fun o => answer_read fp (de_secret fp) secret_read v o (reads_secret fp 126 ltac:(lia)) T) as R. cbn [js_get_secret].
  destruct (kind_total _ InvalidState (secret_str_errs fp (print v))) as [E|(o & E & _)]; rewrite E in *.
  - right. right. split; [|split; auto].
    + intros ->. specialize (R None); cbn in R; destruct R as [_ R]; discriminate (R eq_refl).
    + intros d D. destruct (R (Some d)) as [_ R']. discriminate R'. split; auto. intros ->. destruct D as [[l X] _]. discriminate X.
  - destruct (R o) as [R' _]. specialize (R' eq_refl). destruct o as [d|]; [|auto]. right. left. exists d. split; [tauto|auto].
Qed.

(** The calls. *)
Lemma js_unpack_exec C fuel text opts tr x : exec (js_unpack C fuel text opts) tr x ->
  match js_unpack_options opts with
  | Ok o => exists y, exec (unpack C fuel text o) tr y
      /\ x = match y with
             | Some (Ok (m, md)) => Some (Ok (m, print (unpack_metadata_tree md)))
             | Some (Err k) => Some (Err k) | Some Panic => Some Panic | None => None
             end
  | Err k => tr = [] /\ x = Some (Err k)
  | Panic => tr = [] /\ x = Some Panic
  end.
Proof.
  unfold js_unpack. destruct (js_unpack_options opts) as [o|k|]; try (intros H; exact H).
  rewrite exec_bind. intros (t1 & t2 & y & -> & H1 & H2). apply exec_Ret in H2 as [-> ->]. rewrite app_nil_r. eauto.
Qed.
Lemma js_pack_exec C m to from sign_by opts tr x : exec (js_pack_encrypted C m to from sign_by opts) tr x ->
  match js_pack_options (fparse C) opts with
  | Ok o => exists y, exec (pack_encrypted C m to from sign_by o) tr y
      /\ x = match y with
             | Ok (t, md) => Ok (t, print (pack_metadata_tree md))
             | Err k => Err k | Panic => Panic
             end
  | Err k => tr = [] /\ x = Err k
  | Panic => tr = [] /\ x = Panic
  end.
Proof.
  unfold js_pack_encrypted. intros H. apply exec_Ret_Err in H. destruct (js_pack_options (fparse C) opts) as [o|k|]; try exact H.
  unfold pbind in H. rewrite exec_bind in H. destruct H as (t1 & t2 & y & -> & H1 & H2). exists y.
  destruct y as [[t md]|k|]; apply exec_Ret in H2 as [-> ->]; rewrite app_nil_r; auto.
Qed.
Lemma js_sign_exec C m by_ tr x : exec (js_pack_signed C m by_) tr x ->
  exists y, exec (pack_signed C m by_) tr y
      /\ x = match y with
             | Ok (t, k) => Ok (t, print (VObj [(B "sign_by_kid", VStr k)]))
             | Err k => Err k | Panic => Panic
             end.
Proof.
  unfold js_pack_signed, pbind. intros H. rewrite exec_bind in H. destruct H as (t1 & t2 & y & -> & H1 & H2). exists y.
  destruct y as [[t k]|k|]; apply exec_Ret in H2 as [-> ->]; rewrite app_nil_r; auto.
Qed.

(** Members with other names. *)
Lemma one_skip l1 l2 k w n v : k <> n -> (one (l1 ++ (k, w) :: l2) n v <-> one (l1 ++ l2) n v).
Proof.
  intros N. induction l1 as [|[k' w'] l1 IH]; cbn [app]; rewrite !one_cons.
  - tauto.
  - rewrite IH. unfold none. rewrite !map_app, !in_app_iff. cbn. tauto.
Qed.
Lemma req_skip {A} (rd : value -> A -> Prop) n l1 l2 k w i name a : k <> B name ->
  (req rd n (VObj (l1 ++ (k, w) :: l2)) i name a <-> req rd n (VObj (l1 ++ l2)) i name a).
Proof.
  intros N. unfold req, present. split; intros (v & [(l & E & O)|(vs & E & _)] & R); try discriminate; injection E as <-; exists v; (split; [|exact R]); left; eexists; (split; [reflexivity|]);
    [rewrite one_skip in O by auto|rewrite one_skip by auto]; exact O.
Qed.
Lemma doc_skip l1 l2 k w d : ~ In k (map B ["id"; "keyAgreement"; "authentication"; "verificationMethod"; "service"]%string) ->
  (doc_read (VObj (l1 ++ (k, w) :: l2)) d <-> doc_read (VObj (l1 ++ l2)) d).
Proof.
  intros N. unfold doc_read. cbn [map] in N. rewrite !req_skip by (intros ->; apply N; cbn [In]; tauto). tauto.
Qed.
Lemma secret_half w w' d : is_object w' ->
  (forall A (rd : value -> A -> Prop) n a, In n ["id"; "type"; "privateKeyJwk"; "privateKeyMultibase"; "privateKeyBase58"]%string -> (req rd 0 w 0 n a <-> req rd 0 w' 0 n a)) ->
  secret_read w d -> secret_read w' d.
Proof.
  intros O X (_ & H1 & H2 & M). split; [exact O|]. split; [apply X; cbn; auto|]. split; [apply X; cbn; auto|].
  destruct M as [(v & E & R)|(N & M)]; [left; exists v; split; auto; apply X; cbn; auto|]. right.
  split; [intros v R; apply X in R; [|cbn; auto]; now apply (N v)|].
  destruct M as [(v & E & R)|(N' & v & E & R)]; [left; exists v; split; auto; apply X; cbn; auto|]. right.
  split; [intros v' R'; apply X in R'; [|cbn; auto]; now apply (N' v')|]. exists v. split; auto. apply X; cbn; auto 9.
Qed.
Lemma secret_skip l1 l2 k w d : ~ In k (map B ["id"; "type"; "privateKeyJwk"; "privateKeyMultibase"; "privateKeyBase58"]%string) ->
  (secret_read (VObj (l1 ++ (k, w) :: l2)) d <-> secret_read (VObj (l1 ++ l2)) d).
Proof.
  intros N. cbn [map] in N.
  assert (X : forall A (rd : value -> A -> Prop) n a, In n ["id"; "type"; "privateKeyJwk"; "privateKeyMultibase"; "privateKeyBase58"]%string ->
    (req rd 0 (VObj (l1 ++ (k, w) :: l2)) 0 n a <-> req rd 0 (VObj (l1 ++ l2)) 0 n a)).
  { intros A rd n a I. apply req_skip. intros ->. apply N. cbn in I. cbn [In]. repeat destruct I as [<-|I]; tauto. }
  split; apply secret_half; try (eexists; reflexivity); auto. intros. symmetry. auto.
Qed.
Lemma doc_read_fun fp v d d' : json_tree fp 127 v -> doc_read v d -> doc_read v d' -> d = d'.
Proof. intros T A B. apply (reads_doc fp v T) in A, B. rewrite A in B. now injection B. Qed.
Lemma secret_read_fun fp v d d' : json_tree fp 127 v -> secret_read v d -> secret_read v d' -> d = d'.
Proof. intros T A B. apply (reads_secret fp 126 ltac:(lia) v T) in A, B. rewrite A in B. now injection B. Qed.
Lemma resolve_skip fp l1 l2 k w : ~ In k (map B ["id"; "keyAgreement"; "authentication"; "verificationMethod"; "service"]%string) ->
  json_tree fp 127 (VObj (l1 ++ (k, w) :: l2)) -> json_tree fp 127 (VObj (l1 ++ l2)) ->
  js_resolve fp (inr (print (VObj (l1 ++ (k, w) :: l2)))) = js_resolve fp (inr (print (VObj (l1 ++ l2)))).
Proof.
  intros N T1 T2. destruct (resolve_answer fp _ T1) as [[E _]|[(d & R & ->)|(_ & R & ->)]]; [discriminate| |];
  destruct (resolve_answer fp _ T2) as [[E _]|[(d' & R' & ->)|(_ & R' & ->)]]; try discriminate; auto; rewrite ?doc_skip in R by auto.
  - do 2 f_equal. eapply doc_read_fun; eauto.
  - now destruct (R' d).
  - destruct (R d'). now apply doc_skip.
Qed.
Lemma secret_answer_skip fp l1 l2 k w : ~ In k (map B ["id"; "type"; "privateKeyJwk"; "privateKeyMultibase"; "privateKeyBase58"]%string) ->
  json_tree fp 127 (VObj (l1 ++ (k, w) :: l2)) -> json_tree fp 127 (VObj (l1 ++ l2)) ->
  js_get_secret fp (inr (print (VObj (l1 ++ (k, w) :: l2)))) = js_get_secret fp (inr (print (VObj (l1 ++ l2)))).
Proof.
  intros N T1 T2. destruct (secret_answer fp _ T1) as [[E _]|[(d & R & ->)|(_ & R & ->)]]; [discriminate| |];
  destruct (secret_answer fp _ T2) as [[E _]|[(d' & R' & ->)|(_ & R' & ->)]]; try discriminate; auto; rewrite ?secret_skip in R by auto.
  - do 2 f_equal. eapply secret_read_fun; eauto.
  - now destruct (R' d).
  - destruct (R d'). now apply secret_skip.
Qed.

(** Round trips. *)
Lemma doc_reread fp d : doc_ok fp d -> exists t, doc_text d = Ok t /\ doc_from_str fp t = Ok d.
Proof.
  intros H. destruct (doc_written fp d H) as (t & E & T & R). exists (print t). unfold doc_text. rewrite E. split; [reflexivity|].
  now apply (read_as fp 127 _ _ _ _ (reads_doc fp)).
Qed.
Lemma secret_reread fp s : secret_ok fp s -> secret_from_str fp (secret_text s) = Ok s.
Proof. intros H. destruct (secret_written fp s H) as (T & R). now apply (read_as fp 127 _ _ _ _ (reads_secret fp 126 ltac:(lia))). Qed.
Lemma prior_reread C p : prior_fits p -> js_from_prior_new C (js_from_prior_value p) = Ok p.
Proof.
  intros F. unfold js_from_prior_new, js_from_prior_value. rewrite from_json_print by now apply prior_print.
  destruct F as (_ & _ & _ & _ & H). rewrite de_from_prior_raw; [reflexivity|]. destruct H as (H1 & H2 & H3). repeat split; now apply opt_u64.
Qed.

(** The routing keys that are seen. *)
Lemma one_fun l k v v' : one l k v -> one l k v' -> v = v'.
Proof.
  induction l as [|[k' w] l IH]; [now intros ?%one_nil|]. rewrite !one_cons.
  intros [(E1 & E2 & E3)|[E1 E2]] [(D1 & D2 & D3)|[D1 D2]]; try congruence. auto.
Qed.
Lemma routing_seen w s e m ks : service_read w s -> present 0 w 0 "serviceEndpoint" e -> present 0 e 0 "routingKeys" (VArr (map VStr ks)) ->
  svc_kind s = DIDCommMessaging m -> ms_routing_keys m = ks.
Proof.
  intros ([l ->] & _ & K) P1 P2 E. rewrite E in K. destruct K as (_ & e' & P1' & [l' ->] & _ & _ & R).
  apply present_obj in P1, P1'. rewrite (one_fun _ _ _ _ P1 P1') in P2. apply present_obj in P2.
  destruct R as [(v & P & vs & -> & F)|[M _]].
  - apply present_obj in P. pose proof (one_fun _ _ _ _ P P2) as X. injection X as ->. clear -F. 
    revert F. generalize (ms_routing_keys m). induction ks as [|k ks IH]; intros l F; inversion F; subst; auto. f_equal; [|auto]. unfold str_read in *. congruence.
  - apply missing_obj in M. apply one_in in P2. destruct M. apply in_map_iff. now exists (B "routingKeys", VArr (map VStr ks)).
Qed.
