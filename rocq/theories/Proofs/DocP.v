(** DID documents and secrets are read by the names of their members, and what is
    written is read back. *)
From Verif.Model Require Import Prelude Utf8 Base64 Json Serde DidDoc Crypto Keys Effects Jws Jwe Message FromPrior Bindings DocJson.
From Verif.Spec Require Import Codec Small Names World Wire Doc.
From Verif.Proofs Require Import Lib Base64P JsonP JsonDec SerdeP CodecP NamesP WireP ReadP.

Lemma c_req' {A} k l (f : value -> res A) rd a : (forall w a, f w = Ok a <-> rd w a) ->
  (let? o := c_field k l in c_need f o) = Ok a <-> req rd 0 (VObj l) 0 k a.
Proof. exact (c_req (fun _ => None) k l f rd a). Qed.
Lemma c_field_some' k l w : c_field k l = Ok (Some w) <-> one l (B k) w. Proof. exact (c_field_some (fun _ => None) k l w). Qed.
Lemma c_field_none' k l : c_field k l = Ok None <-> none l (B k). Proof. exact (c_field_none (fun _ => None) k l). Qed.
Lemma c_field_rest k names l : existsb (beq (B k)) names = false ->
  c_field k (filter (fun kv => negb (existsb (beq (fst kv)) names)) l) = c_field k l.
Proof.
  intros N. unfold c_field. replace (filter (fun kv => beq (fst kv) (B k)) (filter _ l)) with (filter (fun kv : bytes * value => beq (fst kv) (B k)) l); auto.
  induction l as [|[n v] l IH]; auto. cbn [filter fst]. destruct (beq n (B k)) eqn:E.
  - assert (n = B k) by (now apply beq_eq). subst n. rewrite N. cbn [negb filter fst]. now rewrite E, IH.
  - destruct (existsb (beq n) names); cbn [negb filter fst]; auto. now rewrite E.
Qed.
Lemma material_rest a b c names l : existsb (beq (B a)) names = false -> existsb (beq (B b)) names = false -> existsb (beq (B c)) names = false ->
  c_material a b c (filter (fun kv => negb (existsb (beq (fst kv)) names)) l) = c_material a b c l.
Proof. intros H1 H2 H3. unfold c_material. now rewrite !c_field_rest. Qed.
Lemma c_material_read a b c l m : c_material a b c l = Ok m <-> material_read a b c (VObj l) m.
Proof.
  unfold c_material, material_read.
  setoid_rewrite <- (fun v => c_req' a l _ _ v norm_read). setoid_rewrite <- (fun s => c_req' b l _ _ s c_string_read).
  setoid_rewrite <- (fun s => c_req' c l _ _ s c_string_read).
  destruct (let? o := c_field a l in c_need (fun v => Ok (norm v)) o) as [v| |].
  1: split; [intros E; injection E as <-; eauto|intros [(v' & -> & E)|[N _]]; [now injection E as ->|now destruct (N v)]].
  all: destruct (let? o := c_field b l in c_need c_string o) as [s| |].
  1,4: split; [intros E; injection E as <-; right; split; [discriminate|eauto]
              |intros [(v' & -> & E)|[_ [(s' & -> & E)|[N _]]]]; [discriminate|now injection E as ->|now destruct (N s)]].
  all: destruct (let? o := c_field c l in c_need c_string o) as [s| |];
    (split; [intros E; first [discriminate | injection E as <-; right; split; [discriminate|right; split; [discriminate|eauto]]]
           |intros [(v' & -> & E)|[_ [(s' & -> & E)|[_ (s' & -> & E)]]]]; try discriminate; now injection E as ->]).
Qed.

Lemma accept_read l o : c_accept l = Ok o <-> maybe (list_read str_read) 0 (VObj l) 0 "accept" o.
Proof.
  unfold c_accept, maybe. rewrite ok_bind. split.
  - intros (x & H & G). destruct x as [w|].
    + apply c_field_some' in H. destruct w; try discriminate; cbn in G.
      * injection G as <-. right. now apply present_obj.
      * apply ok_bind in G as (s & G & E). injection E as <-. exists (VArr l0). rewrite present_obj. repeat split; auto; [discriminate|].
        now apply c_strings_read.
    + injection G as <-. left. now apply missing_obj, c_field_none'.
  - destruct o as [o|].
    + intros (w & H & N & R). apply present_obj, c_field_some' in H. exists (Some w). split; auto. apply c_strings_read in R.
      destruct w; try discriminate. cbn [c_strings] in *. now rewrite R.
    + intros [H|H]; [apply missing_obj, c_field_none' in H; eauto|apply present_obj, c_field_some' in H; eauto].
Qed.
Lemma routing_read l r : c_routing_keys l = Ok r <-> req (list_read str_read) 0 (VObj l) 0 "routingKeys" r \/ missing (VObj l) "routingKeys" /\ r = [].
Proof.
  unfold c_routing_keys, req. rewrite ok_bind. split.
  - intros (x & H & G). destruct x as [w|].
    + left. apply c_field_some' in H. exists w. rewrite present_obj. split; auto. now apply c_strings_read.
    + right. injection G as <-. split; auto. now apply missing_obj, c_field_none'.
  - intros [(w & H & R)|[H ->]].
    + apply present_obj, c_field_some' in H. apply c_strings_read in R. eauto.
    + apply missing_obj, c_field_none' in H. eauto.
Qed.
Lemma c_messaging_read l s : c_messaging l = Ok s <-> messaging_read (VObj l) s.
Proof.
  unfold c_messaging, messaging_read. rewrite <- accept_read, <- routing_read, <- (c_req' "uri" l _ _ _ c_string_read). rewrite !ok_bind.
  split.
  - intros (o & H1 & H). apply ok_bind in H as (u & H2 & H). apply ok_bind in H as (a & H3 & H). apply ok_bind in H as (r & H4 & H).
    injection H as <-. cbn. split; [now exists l|]. eauto.
  - intros (_ & (o & H1 & H2) & H3 & H4). exists o. split; auto. rewrite H2. cbn [rbind]. rewrite H3. cbn [rbind]. rewrite H4. now destruct s.
Qed.
Lemma service_rest names l : existsb (beq (B "type")) names = false -> existsb (beq (B "serviceEndpoint")) names = false ->
  c_service_kind (filter (fun kv => negb (existsb (beq (fst kv)) names)) l) = c_service_kind l.
Proof. intros H1 H2. unfold c_service_kind. now rewrite !c_field_rest. Qed.
Lemma c_service_read l k : c_service_kind l = Ok k <-> match k with
  | DIDCommMessaging m => req str_read 0 (VObj l) 0 "type" (B "DIDCommMessaging") /\ req messaging_read 0 (VObj l) 0 "serviceEndpoint" m
  | OtherService v => req str_read 0 (VObj l) 0 "type" (B "Other") /\ req (fun e v => is_object e /\ value_read e v) 0 (VObj l) 0 "serviceEndpoint" v
  end.
Proof.
  unfold c_service_kind. split.
  - intros H. apply ok_bind in H as (o & H1 & H). apply ok_bind in H as (t & H2 & H). apply ok_bind in H as (e & H3 & H).
    assert (T : req str_read 0 (VObj l) 0 "type" t) by (apply (c_req' "type" l _ _ _ c_string_read); rewrite H1; exact H2).
    destruct e as [e|]; [|discriminate]. destruct e as [| | | | |m]; try discriminate. apply c_field_some', (present_obj l 0) in H3.
    destruct (beq t (B "DIDCommMessaging")) eqn:E1; [apply beq_eq in E1; subst t|].
    + apply ok_bind in H as (s & H & E). injection E as <-. split; auto. exists (VObj m). split; auto. now apply c_messaging_read.
    + destruct (beq t (B "Other")) eqn:E2; [apply beq_eq in E2; subst t|discriminate]. injection H as <-. split; auto.
      exists (VObj m). split; auto. split; [now exists m|]. now apply value_read_norm.
  - destruct k as [s|v]; intros [T (e & P & R)]; apply (c_req' "type" l _ _ _ c_string_read) in T; apply ok_bind in T as (o & H1 & H2);
      rewrite H1; cbn [rbind]; rewrite H2; cbn [rbind]; apply present_obj, c_field_some' in P; rewrite P; cbn [rbind].
    + destruct R as [[m ->] R]. assert (R' : messaging_read (VObj m) s) by (split; [now exists m|exact R]).
      apply c_messaging_read in R'. rewrite R'. reflexivity.
    + destruct R as [[m ->] R]. apply value_read_norm in R. now subst v.
Qed.

Lemma typename_in n t : In (n, t) type_names -> vmtype_of (B n) = Some t.
Proof. cbn [type_names In]. intros H. repeat destruct H as [H|H]; try (injection H as <- <-; reflexivity). destruct H. Qed.
Lemma typename_of s t : vmtype_of s = Some t -> exists n, In (n, t) type_names /\ s = B n.
Proof.
  unfold vmtype_of. intros H.
  repeat match type of H with context [if beq s (B ?x) then _ else _] => let E := fresh in
    destruct (beq s (B x)) eqn:E; [apply beq_eq in E; subst s; injection H as <-; exists x; split; [cbn; tauto|reflexivity]|clear E] end.
  discriminate.
Qed.

Section DocP.
Context (fp : bytes -> option bytes).
Notation reads := (reads fp).
Notation mems_ok := (mems_ok fp).
Notation slot' f := (slot (fun v => f (raw_of v))).

Lemma reads_type d : reads d (de_unit_enum vmtype_of) type_read.
Proof.
  intros w T t. unfold type_read. pose proof (wf_of _ _ _ T) as W. destruct w as [|b|n|s|l|l]; try (split; [discriminate|intros (n' & _ & [E|E]); discriminate]).
  - change (raw_of (VNum n)) with (num_raw n). destruct (num_is fp n W) as (? & ? & ? & E & _). rewrite E.
    split; [discriminate|intros (n' & _ & [X|X]); discriminate].
  - cbn [raw_of de_unit_enum rd_str rbind]. split.
    + destruct (vmtype_of s) as [t'|] eqn:E; [|discriminate]. intros H. injection H as <-. apply typename_of in E as (n & I & ->). eauto.
    + intros (n & I & [E|E]); [|discriminate]. injection E as ->. now rewrite (typename_in n t).
  - rewrite raw_of_obj. destruct l as [|[k v] l]; [split; [discriminate|intros (n & _ & [E|E]); discriminate]|].
    cbn [mems map fst snd de_unit_enum rd_str rbind]. split.
    + destruct (vmtype_of k) as [t'|] eqn:E; [|discriminate]. cbn [ok_or rbind]. intros H.
      assert (V : v = VNull).
      { apply (raw_null fp); [|destruct (raw_of v) as [|?|? ? ?|? [?|?]|? ?|? ?|? ?] eqn:R; auto; exfalso; cbn in H; discriminate]. apply wfv_obj in W. inversion W; subst. tauto. }
      subst v. cbn [raw_of] in H. destruct l; [|discriminate]. injection H as <-. apply typename_of in E as (n & I & ->). eauto.
    + intros (n & I & [E|E]); [discriminate|]. injection E as -> -> ->. rewrite (typename_in n t) by auto. reflexivity.
Qed.

(** The members that are buffered. *)
Definition rest (names : list bytes) (l : members) : members := filter (fun kv => negb (existsb (beq (fst kv)) names)) l.
Lemma rest_hit names k v l : In k names -> rest names ((k, v) :: l) = rest names l.
Proof. intros I. unfold rest. cbn [filter fst]. replace (existsb (beq k) names) with true; auto. symmetry. apply existsb_exists. exists k. split; auto. now apply beq_eq. Qed.
Lemma rest_miss names k v l : ~ In k names -> rest names ((k, v) :: l) = (k, v) :: rest names l.
Proof.
  intros I. unfold rest. cbn [filter fst]. destruct (existsb (beq k) names) eqn:E; auto. apply existsb_exists in E as (n & J & E).
  apply beq_eq in E. now subst n.
Qed.

Ltac buffered M names k :=
  match goal with |- context [to_content ?f ?D (raw_of ?v)] =>
    rewrite (to_content_raw fp) by (auto; unfold max_depth in *; cbn; lia) end.
Lemma vm_walk d l : mems_ok d l -> d < 125 -> forall i t c x i' t' c' x',
  walk (vm_step fp) (i, t, c, x) (mems l) None = Ok (i', t', c', x')
  <-> slot' de_string (B "id") l i i' /\ slot' (de_unit_enum vmtype_of) (B "type") l t t' /\ slot' de_string (B "controller") l c c'
      /\ x' = x ++ rest [B "id"; B "type"; B "controller"] l.
Proof.
  intros M L. induction l as [|[k v] l IH]; intros.
  - cbn [walk mems map close rest filter]. rewrite !slot_nil, app_nil_r. split.
    + intros H. injection H; intros; subst; repeat split; reflexivity.
    + intros; repeat match goal with H : _ /\ _ |- _ => destruct H end; subst; reflexivity.
  - pose proof (M k v (or_introl eq_refl)) as [_ J]. apply tree_wf in J as [_ D].
    apply mems_tail in M as [W M]. specialize (IH M). cbn [walk mems map fst snd rd_str rbind]. change (map _ l) with (mems l). cbn [vm_step].
    repeat match goal with |- context [if beq k (B ?s) then _ else _] =>
      let E := fresh "E" in destruct (beq k (B s)) eqn:E; [apply beq_eq in E; subst k|apply beq_neq in E] end.
    4: { rewrite rest_miss by (cbn [In]; intuition). repeat (rewrite slot_miss by assumption).
      rewrite (to_content_raw fp) by (auto; change (max_depth - 3) with 125; lia). cbn [rbind]. rewrite IH, <- app_assoc. cbn [app]. tauto. }
    all: rewrite rest_hit by (cbn; tauto); repeat first [rewrite slot_hit | rewrite slot_miss by first [assumption | easy]];
      match goal with |- context [once ?o ?f ?x] => destruct (once o f x) as [?| |] end;
      cbn [rbind]; rewrite ?ex_ok, ?ex_err, ?ex_panic; first [apply IH|split; [discriminate|tauto]].
Qed.
Lemma service_walk d l : mems_ok d l -> d < 125 -> forall i x i' x',
  walk (service_step fp) (i, x) (mems l) None = Ok (i', x')
  <-> slot' de_string (B "id") l i i' /\ x' = x ++ rest [B "id"] l.
Proof.
  intros M L. induction l as [|[k v] l IH]; intros.
  - cbn [walk mems map close rest filter]. rewrite !slot_nil, app_nil_r. split.
    + intros H. injection H; intros; subst; repeat split; reflexivity.
    + intros; repeat match goal with H : _ /\ _ |- _ => destruct H end; subst; reflexivity.
  - pose proof (M k v (or_introl eq_refl)) as [_ J]. apply tree_wf in J as [_ D].
    apply mems_tail in M as [W M]. specialize (IH M). cbn [walk mems map fst snd rd_str rbind]. change (map _ l) with (mems l). cbn [service_step].
    repeat match goal with |- context [if beq k (B ?s) then _ else _] =>
      let E := fresh "E" in destruct (beq k (B s)) eqn:E; [apply beq_eq in E; subst k|apply beq_neq in E] end.
    2: { rewrite rest_miss by (cbn [In]; intuition). repeat (rewrite slot_miss by assumption).
      rewrite (to_content_raw fp) by (auto; change (max_depth - 3) with 125; lia). cbn [rbind]. rewrite IH, <- app_assoc. cbn [app]. tauto. }
    all: rewrite rest_hit by (cbn; tauto); repeat first [rewrite slot_hit | rewrite slot_miss by first [assumption | easy]];
      match goal with |- context [once ?o ?f ?x] => destruct (once o f x) as [?| |] end;
      cbn [rbind]; rewrite ?ex_ok, ?ex_err, ?ex_panic; first [apply IH|split; [discriminate|tauto]].
Qed.
Lemma secret_walk d l : mems_ok d l -> d < 127 -> forall i t x i' t' x',
  walk (secret_step fp) (i, t, x) (mems l) None = Ok (i', t', x')
  <-> slot' de_string (B "id") l i i' /\ slot' (de_unit_enum vmtype_of) (B "type") l t t' /\ x' = x ++ rest [B "id"; B "type"] l.
Proof.
  intros M L. induction l as [|[k v] l IH]; intros.
  - cbn [walk mems map close rest filter]. rewrite !slot_nil, app_nil_r. split.
    + intros H. injection H; intros; subst; repeat split; reflexivity.
    + intros; repeat match goal with H : _ /\ _ |- _ => destruct H end; subst; reflexivity.
  - pose proof (M k v (or_introl eq_refl)) as [_ J]. apply tree_wf in J as [_ D].
    apply mems_tail in M as [W M]. specialize (IH M). cbn [walk mems map fst snd rd_str rbind]. change (map _ l) with (mems l). cbn [secret_step].
    repeat match goal with |- context [if beq k (B ?s) then _ else _] =>
      let E := fresh "E" in destruct (beq k (B s)) eqn:E; [apply beq_eq in E; subst k|apply beq_neq in E] end.
    3: { rewrite rest_miss by (cbn [In]; intuition). repeat (rewrite slot_miss by assumption).
      rewrite (to_content_raw fp) by (auto; change (max_depth - 1) with 127; lia). cbn [rbind]. rewrite IH, <- app_assoc. cbn [app]. tauto. }
    all: rewrite rest_hit by (cbn; tauto); repeat first [rewrite slot_hit | rewrite slot_miss by first [assumption | easy]];
      match goal with |- context [once ?o ?f ?x] => destruct (once o f x) as [?| |] end;
      cbn [rbind]; rewrite ?ex_ok, ?ex_err, ?ex_panic; first [apply IH|split; [discriminate|tauto]].
Qed.

Hint Resolve reads_string reads_type reads_vec' : reads.
Ltac notobj T := split; [try discriminate|intros [[? E] _]; discriminate];
  match goal with |- context [raw_of (VNum ?n)] => change (raw_of (VNum n)) with (num_raw n);
    let E := fresh in destruct (num_is fp n (wf_of _ _ _ T)) as (? & ? & ? & E & _); rewrite E; discriminate end.
Lemma reads_vm d : d < 125 -> reads (S d) (de_vm fp) vm_read.
Proof.
  intros L w T r. unfold vm_read, de_vm. destruct w as [|b|n|s|l|l]; try notobj T.
  pose proof (tree_obj _ _ _ T) as M. clear T. rewrite raw_of_obj. rewrite ok_bind. rewrite <- c_material_read.
  split.
  - intros ([[[i t] c] x] & H & G). apply (vm_walk d) in H; auto. destruct H as (H1 & H2 & H3 & ->).
    destruct i as [i|]; [|discriminate G]. destruct t as [t|]; [|discriminate G]. destruct c as [c|]; [|discriminate G]. cbn [need ok_or rbind app] in G.
    unfold rest in G. rewrite material_rest in G by reflexivity. apply ok_bind in G as (m & G & E). injection E as <-. cbn.
    split; [now exists l|]. repeat match goal with |- _ /\ _ => split end; auto; (eapply (req_obj fp d); [eauto with reads|exact M|eassumption]).
  - destruct r as [i t c m]. cbn. intros (_ & H1 & H2 & H3 & H4).
    eapply (req_obj fp d) in H1; [|eauto with reads|exact M]. eapply (req_obj fp d) in H2; [|eauto with reads|exact M].
    eapply (req_obj fp d) in H3; [|eauto with reads|exact M].
    exists (Some i, Some t, Some c, rest [B "id"; B "type"; B "controller"] l). split; [apply (vm_walk d); auto|].
    cbn [need ok_or rbind]. unfold rest. rewrite material_rest by reflexivity. now rewrite H4.
Qed.
Lemma reads_secret d : d < 127 -> reads (S d) (de_secret fp) secret_read.
Proof.
  intros L w T r. unfold secret_read, de_secret. destruct w as [|b|n|s|l|l]; try notobj T.
  pose proof (tree_obj _ _ _ T) as M. clear T. rewrite raw_of_obj. rewrite ok_bind. rewrite <- c_material_read.
  split.
  - intros ([[i t] x] & H & G). apply (secret_walk d) in H; auto. destruct H as (H1 & H2 & ->).
    destruct i as [i|]; [|discriminate G]. destruct t as [t|]; [|discriminate G]. cbn [need ok_or rbind app] in G.
    unfold rest in G. rewrite material_rest in G by reflexivity. apply ok_bind in G as (m & G & E). injection E as <-. cbn.
    split; [now exists l|]. repeat match goal with |- _ /\ _ => split end; auto; (eapply (req_obj fp d); [eauto with reads|exact M|eassumption]).
  - destruct r as [i t m]. cbn. intros (_ & H1 & H2 & H4).
    eapply (req_obj fp d) in H1; [|eauto with reads|exact M]. eapply (req_obj fp d) in H2; [|eauto with reads|exact M].
    exists (Some i, Some t, rest [B "id"; B "type"] l). split; [apply (secret_walk d); auto|].
    cbn [need ok_or rbind]. unfold rest. rewrite material_rest by reflexivity. now rewrite H4.
Qed.
Lemma reads_service d : d < 125 -> reads (S d) (de_service fp) service_read.
Proof.
  intros L w T r. unfold service_read, de_service. destruct w as [|b|n|s|l|l]; try notobj T.
  pose proof (tree_obj _ _ _ T) as M. clear T. rewrite raw_of_obj. rewrite ok_bind. rewrite <- c_service_read.
  split.
  - intros ([i x] & H & G). apply (service_walk d) in H; auto. destruct H as (H1 & ->).
    destruct i as [i|]; [|discriminate G]. cbn [need ok_or rbind app] in G.
    unfold rest in G. rewrite service_rest in G by reflexivity. apply ok_bind in G as (m & G & E). injection E as <-. cbn.
    split; [now exists l|]. split; auto. eapply (req_obj fp d); [eauto with reads|exact M|eassumption].
  - destruct r as [i k]. cbn. intros (_ & H1 & H4). eapply (req_obj fp d) in H1; [|eauto with reads|exact M].
    exists (Some i, rest [B "id"] l). split; [apply (service_walk d); auto|].
    cbn [need ok_or rbind]. unfold rest. rewrite service_rest by reflexivity. now rewrite H4.
Qed.
Ltac slots := repeat first [rewrite slot_hit | rewrite slot_miss by first [assumption | easy]].
Ltac walking M l Hst :=
  let IH := fresh "IH" in let k := fresh "k" in let v := fresh "v" in let W := fresh "W" in
  induction l as [|[k v] l IH]; intros;
  [ cbn [walk mems map close]; rewrite !slot_nil; split;
    [ let H := fresh in intros H; injection H; intros; subst; repeat split; reflexivity
    | intros; repeat match goal with H : _ /\ _ |- _ => destruct H end; subst; reflexivity ]
  | apply mems_tail in M as [W M]; specialize (IH M);
    cbn [walk mems map fst snd rd_str rbind]; change (map _ l) with (mems l); rewrite Hst; cbv iota beta;
    repeat match goal with |- context [if beq k (B ?s) then _ else _] =>
      let E := fresh "E" in destruct (beq k (B s)) eqn:E; [apply beq_eq in E; subst k|apply beq_neq in E] end;
    slots;
    [ .. | rewrite (skip_raw fp) by assumption; cbn [rbind]; apply IH ];
    match goal with |- context [once ?o ?f ?x] => destruct (once o f x) as [?| |] end;
    cbn [rbind]; rewrite ?ex_ok, ?ex_err, ?ex_panic; first [apply IH|split; [discriminate|tauto]] ].
Ltac step_of st Hst :=
  match goal with |- context [walk ?f ?s0 (mems _) None] => set (st := f);
    assert (Hst : forall s k v, st s k v = ltac:(let t := eval cbv beta in (f s k v) in exact t)) by reflexivity; clearbody st end.
Ltac notrec T := first
  [ split; [discriminate|]
  | match goal with |- context [raw_of (VNum ?n)] => change (raw_of (VNum n)) with (num_raw n);
      let E := fresh in destruct (num_is fp n (wf_of _ _ _ T)) as (? & ? & ? & E & _); rewrite E; split; [discriminate|] end ];
  intros; exfalso; repeat match goal with H : _ /\ _ |- _ => destruct H end;
  match goal with H : req _ _ _ _ _ _ |- _ => let E := fresh in apply req_other in H as [[? E]|(? & E & _)]; discriminate end.

(** Wrong lengths of arrays. *)
Ltac short := split;
  [ let H := fresh in intros H; exfalso; revert H; cbn [raw_of map elem rbind end_seq close];
    repeat match goal with |- context [rbind (?f (raw_of ?x)) _] => destruct (f (raw_of x)); cbn [rbind elem end_seq close]; try discriminate end; discriminate
  | intros; exfalso; repeat match goal with H : _ /\ _ |- _ => destruct H end;
    match goal with H : req _ _ _ _ _ _ |- _ => let E := fresh in let L := fresh in
      apply req_other in H as [[? E]|(? & E & L)]; [discriminate|injection E as <-; discriminate] end ].
(** The fields of an array. *)
Ltac fields d :=
  repeat match goal with
  | |- context [req ?rd ?n (VArr ?vs) ?i ?k ?a] =>
      erewrite (req_arr fp d _ rd n vs i k a) by first [reflexivity | assumption | eauto with reads]
  | |- context [maybe ?rd ?n (VArr ?vs) ?i ?k ?a] =>
      erewrite (maybe_arr fp d _ rd n vs i k a) by first [reflexivity | assumption | eauto with reads]
  end; cbn [nth_error]; rewrite !ex_some;
  cbn [raw_of map elem rbind end_seq close];
  repeat match goal with |- context [rbind (?f (raw_of ?x)) _] => destruct (f (raw_of x)) as [?| |]; cbn [rbind elem end_seq close];
    [|split; [discriminate|intros; repeat match goal with H : _ /\ _ |- _ => destruct H end; discriminate]..] end;
  try (split; [discriminate|intros; repeat match goal with H : _ /\ _ |- _ => destruct H end; discriminate]).
Ltac done r := destruct r; cbn; split;
  [ let H := fresh in intros H; injection H; intros; subst; repeat split; reflexivity
  | let H := fresh in intros H; repeat match type of H with _ /\ _ => let K := fresh in destruct H as [K H]; injection K as -> end; injection H as ->; reflexivity ].
Ltac robj d M := eapply (req_obj fp d); [eauto with reads|exact M|eassumption].
Ltac mobj d M := eapply (maybe_obj fp d); [eauto with reads|exact M|eexists; split; [eassumption|reflexivity]].
Ltac robjH d M H := eapply (req_obj fp d) in H; [|eauto with reads|exact M].
Ltac mobjH d M H o := eapply (maybe_obj fp d) in H; [|eauto with reads|exact M]; destruct H as (o & H & <-).

Lemma reads_doc : reads 127 (de_doc fp) doc_read.
Proof.
  assert (R1 : reads 126 (de_vec (de_vm fp)) (list_read vm_read)) by (apply reads_vec, reads_vm; lia).
  assert (R2 : reads 126 (de_vec (de_service fp)) (list_read service_read)) by (apply reads_vec, reads_service; lia).
  set (d := 126) in *. change 127 with (S d). clearbody d.
  intros w T r. unfold doc_read, de_doc. destruct w as [|b|n|s|l|l]; [notrec T..| |].
  - pose proof (tree_arr _ _ _ T) as M. destruct l as [|x1 [|x2 [|x3 [|x4 [|x5 [|x6 l]]]]]]; [short|short|short|short|short| |short].
    fields d. done r.
  - pose proof (tree_obj _ _ _ T) as M. clear T. rewrite raw_of_obj. step_of st Hst. rewrite ok_bind.
    assert (W : forall o1 o2 o3 o4 o5 o1' o2' o3' o4' o5', walk st ((o1, o2, o3, o4, o5)) (mems l) None = Ok ((o1', o2', o3', o4', o5'))
      <-> slot' de_string (B "id") l o1 o1' /\ slot' (de_vec de_string) (B "keyAgreement") l o2 o2' /\ slot' (de_vec de_string) (B "authentication") l o3 o3'
        /\ slot' (de_vec (de_vm fp)) (B "verificationMethod") l o4 o4' /\ slot' (de_vec (de_service fp)) (B "service") l o5 o5') by walking M l Hst.
    clear Hst. split.
    + intros ([[[[o1 o2] o3] o4] o5] & H & G). apply W in H. destruct H as (H1 & H2 & H3 & H4 & H5).
      destruct o1 as [o1|]; [|discriminate G]. cbn [need ok_or rbind] in G.
      destruct o2 as [o2|]; [|discriminate G]. cbn [need ok_or rbind] in G.
      destruct o3 as [o3|]; [|discriminate G]. cbn [need ok_or rbind] in G.
      destruct o4 as [o4|]; [|discriminate G]. cbn [need ok_or rbind] in G.
      destruct o5 as [o5|]; [|discriminate G]. cbn [need ok_or rbind] in G.
      injection G as <-. cbn. repeat match goal with |- _ /\ _ => split end; [robj d M|robj d M|robj d M|robj d M|robj d M].
    + destruct r as [o1 o2 o3 o4 o5]. cbn. intros (H1 & H2 & H3 & H4 & H5).
      robjH d M H1. robjH d M H2. robjH d M H3. robjH d M H4. robjH d M H5.
      exists (((Some o1), (Some o2), (Some o3), (Some o4), (Some o5))). split; [apply W; repeat match goal with |- _ /\ _ => split end; assumption|reflexivity].
Qed.

(** *** What is written *)
Ltac tree := repeat first
  [ apply jt_null | apply jt_bool | apply jt_str; [assumption || reflexivity] | assumption ].
Lemma in_pairs {A B} (l : list (A * B)) P : Forall (fun kv => P (fst kv) (snd kv)) l -> forall k x, In (k, x) l -> P k x.
Proof. intros F k x I. rewrite Forall_forall in F. exact (F _ I). Qed.
Lemma jt_obj' d l : Forall (fun kv => utf8 (fst kv) = true /\ json_tree fp d (snd kv)) l -> json_tree fp (S d) (VObj l).
Proof. intros F. constructor. exact (in_pairs l (fun k x => utf8 k = true /\ json_tree fp d x) F). Qed.
Lemma jt_strs d l : all_utf8 l -> json_tree fp (S d) (VStrs l).
Proof. intros U. constructor. intros x I. apply in_map_iff in I as (s & <- & I). constructor. auto. Qed.
Lemma req_here {A} (rd : value -> A -> Prop) n i k w l a : none l (B k) -> rd w a -> req rd n (VObj ((B k, w) :: l)) i k a.
Proof. intros N R. exists w. split; auto. left. exists ((B k, w) :: l). split; auto. apply one_cons. auto. Qed.
Lemma req_there {A} (rd : value -> A -> Prop) n i k n' w l a : n' <> B k -> req rd n (VObj l) i k a -> req rd n (VObj ((n', w) :: l)) i k a.
Proof.
  intros N (v & [(l' & E & O)|(vs & E & _)] & R); [|discriminate]. injection E as <-. exists v. split; auto. left. eexists. split; eauto.
  apply one_cons. auto.
Qed.
Lemma req_not {A} (rd : value -> A -> Prop) l i k a : none l (B k) -> ~ req rd 0 (VObj l) i k a.
Proof. intros N (w & P & _). apply present_obj, one_in in P. apply N, in_map_iff. exists (B k, w). auto. Qed.
Lemma strs_read l : list_read str_read (VStrs l) l.
Proof. exists (map VStr l). split; auto. induction l; constructor; auto. reflexivity. Qed.
Ltac absent := unfold none; cbn; let H := fresh in intros H; repeat destruct H as [H|H]; try discriminate H; try exact H.
Ltac fld := repeat (apply req_there; [discriminate|]); apply req_here; [absent|].
Lemma name_in t : In (match t with JsonWebKey2020 => "JsonWebKey2020" | X25519KeyAgreementKey2019 => "X25519KeyAgreementKey2019"
  | Ed25519VerificationKey2018 => "Ed25519VerificationKey2018" | EcdsaSecp256k1VerificationKey2019 => "EcdsaSecp256k1VerificationKey2019"
  | X25519KeyAgreementKey2020 => "X25519KeyAgreementKey2020" | Ed25519VerificationKey2020 => "Ed25519VerificationKey2020" | OtherType => "Other" end%string, t) type_names.
Proof. destruct t; cbn; tauto. Qed.
Lemma type_written t : type_read (VStr (vmtype_name t)) t /\ utf8 (vmtype_name t) = true.
Proof. split; [|now destruct t]. eexists. split; [apply name_in|]. left. now destruct t. Qed.
Lemma jt_le d d' v : d <= d' -> json_tree fp d v -> json_tree fp d' v.
Proof. induction 1; auto. intros T. apply tree_up. auto. Qed.

Lemma material_written d a b c l m : none l (B a) -> none l (B b) -> none l (B c) -> B b <> B a -> B c <> B a -> B c <> B b -> utf8 (B a) = true -> utf8 (B b) = true -> utf8 (B c) = true ->
  material_ok fp d m -> material_read a b c (VObj (l ++ [material_member a b c m])) m
  /\ utf8 (fst (material_member a b c m)) = true /\ json_tree fp d (snd (material_member a b c m)).
Proof.
  intros Na Nb Nc N1 N2 N3 Ua Ub Uc M.
  assert (X : forall {A} (rd : value -> A -> Prop) k w x, none l (B k) -> rd w x -> req rd 0 (VObj (l ++ [(B k, w)])) 0 k x).
  { intros A rd k w x N R. exists w. split; auto. left. eexists. split; [reflexivity|]. exists l, []. repeat split; auto. intros []. }
  assert (Y : forall {A} (rd : value -> A -> Prop) k k' w x, none l (B k) -> B k' <> B k -> ~ req rd 0 (VObj (l ++ [(B k', w)])) 0 k x).
  { intros A rd k k' w x N E. apply req_not. unfold none. rewrite map_app, in_app_iff. cbn. intuition. }
  destruct m as [v|s|s]; cbn [material_member material_ok fst snd] in *.
  - split; [|tauto]. left. exists v. split; auto. apply X; tauto.
  - split; [|split; [auto|now constructor]]. right. split; [intros v; apply Y; auto|]. left. exists s. split; auto. apply X; auto. reflexivity.
  - split; [|split; [auto|now constructor]]. right. split; [intros v; apply Y; auto|]. right. split; [intros v; apply Y; auto|]. exists s. split; auto. apply X; auto. reflexivity.
Qed.
Lemma vm_written m : vm_ok fp m -> json_tree fp 125 (vm_tree m) /\ vm_read (vm_tree m) m.
Proof.
  intros (U1 & U2 & M). destruct m as [i t c x]. cbn in U1, U2, M. destruct (type_written t) as [TR TU]. unfold vm_tree. cbn [vm_id vm_type vm_controller vm_material].
  apply (material_written 124 "publicKeyJwk" "publicKeyMultibase" "publicKeyBase58" [(B "id", VStr i); (B "type", VStr (vmtype_name t)); (B "controller", VStr c)]) in M;
    try reflexivity; try discriminate; try absent.
  cbn [app] in M. destruct M as (M1 & M2 & M3). split.
  - apply jt_obj'. repeat constructor; auto.
  - unfold vm_read. cbn [vm_id vm_type vm_controller vm_material]. split; [eexists; reflexivity|].
    destruct x; repeat split; auto; fld; auto; reflexivity.
Qed.
Lemma secret_written s : secret_ok fp s -> json_tree fp 127 (secret_tree s) /\ secret_read (secret_tree s) s.
Proof.
  intros (U1 & M). destruct s as [i t x]. cbn in U1, M. destruct (type_written t) as [TR TU]. unfold secret_tree. cbn [sec_id sec_type sec_material].
  apply (material_written 126 "privateKeyJwk" "privateKeyMultibase" "privateKeyBase58" [(B "id", VStr i); (B "type", VStr (vmtype_name t))]) in M;
    try reflexivity; try discriminate; try absent.
  cbn [app] in M. destruct M as (M1 & M2 & M3). split.
  - apply jt_obj'. repeat constructor; auto.
  - unfold secret_read. cbn [sec_id sec_type sec_material]. split; [eexists; reflexivity|].
    destruct x; repeat split; auto; fld; auto; reflexivity.
Qed.
Lemma messaging_written s : utf8 (ms_uri s) = true -> (forall l, ms_accept s = Some l -> all_utf8 l) -> all_utf8 (ms_routing_keys s) ->
  json_tree fp 124 (messaging_tree s) /\ messaging_read (messaging_tree s) s.
Proof.
  destruct s as [u a r]. cbn. intros U A R. unfold messaging_tree, messaging_read. cbn [ms_uri ms_accept ms_routing_keys]. split.
  - apply jt_obj'. constructor; [split; [reflexivity|now constructor]|]. apply Forall_app. split.
    + destruct a as [a|]; [|constructor]. constructor; [|constructor]. split; [reflexivity|]. apply jt_strs. auto.
    + constructor; [|constructor]. split; [reflexivity|]. now apply jt_strs.
  - split; [eexists; reflexivity|]. destruct a as [a|]; cbn [opt_member app].
    + repeat split; [fld; reflexivity| |left; fld; apply strs_read].
      cbn [maybe]. exists (VStrs a). repeat split; [|discriminate|apply strs_read]. apply present_obj. apply one_cons. right. split; [discriminate|].
      apply one_cons. left. repeat split. absent.
    + repeat split; [fld; reflexivity| |left; fld; apply strs_read]. left. apply missing_obj. absent.
Qed.
Lemma service_written s : service_ok fp s -> exists t, service_tree s = Ok t /\ json_tree fp 125 t /\ service_read t s.
Proof.
  intros (U & K). destruct s as [i [m|v]]; cbn in U, K.
  - destruct K as (K1 & K2 & K3). destruct (messaging_written m K1 K2 K3) as [T R]. eexists. split; [reflexivity|]. split.
    + apply jt_obj'. constructor; [split; [reflexivity|now constructor]|]. constructor; [split; [reflexivity|now constructor]|].
      constructor; [split; [reflexivity|exact T]|constructor].
    + split; [eexists; reflexivity|]. cbn [svc_id svc_kind]. repeat split; fld; try reflexivity. exact R.
  - destruct K as ((l & ->) & T & R). eexists. split; [reflexivity|]. split.
    + apply jt_obj'. constructor; [split; [reflexivity|now constructor]|]. constructor; [split; [reflexivity|now constructor]|].
      constructor; [split; [reflexivity|exact T]|constructor].
    + split; [eexists; reflexivity|]. cbn [svc_id svc_kind]. repeat split; fld; try reflexivity. split; [now exists l|exact R].
Qed.
Lemma doc_written x : doc_ok fp x -> exists t, doc_tree x = Ok t /\ json_tree fp 127 t /\ doc_read t x.
Proof.
  intros H. unfold doc_ok in H. destruct x as [i ka au vm se]. cbn [doc_id doc_key_agreement doc_authentication doc_verification_method doc_service] in *. destruct H as (U & A1 & A2 & V & S). unfold doc_tree. cbn [doc_id doc_key_agreement doc_authentication doc_verification_method doc_service].
  assert (X : exists ts, rmap service_tree se = Ok ts /\ (forall t, In t ts -> json_tree fp 125 t) /\ Forall2 service_read ts se).
  { clear - S. induction se as [|s se IH]; [exists []; repeat split; [intros t []|constructor]|].
    destruct (service_written s (S s (or_introl eq_refl))) as (t & E & T & R). destruct IH as (ts & E' & T' & R'); [intros y I; apply S; now right|].
    exists (t :: ts). cbn. rewrite E. cbn. rewrite E'. cbn. repeat split; auto. intros y [<-|I]; auto. }
  destruct X as (ts & E & T & R). rewrite E. cbn [rbind]. eexists. split; [reflexivity|]. split.
  - apply jt_obj'. constructor; [split; [reflexivity|now constructor]|]. constructor; [split; [reflexivity|now apply jt_strs]|].
    constructor; [split; [reflexivity|now apply jt_strs]|].
    constructor; [split; [reflexivity|constructor; intros y I; apply in_map_iff in I as (m & <- & I); now apply vm_written, V]|].
    constructor; [split; [reflexivity|now constructor]|constructor].
  - unfold doc_read. cbn [doc_id doc_key_agreement doc_authentication doc_verification_method doc_service]. repeat split; fld; try apply strs_read; try reflexivity.
    + exists (map vm_tree vm). split; auto. clear - V. induction vm as [|m vm IH]; constructor; [apply vm_written, V; now left|apply IH; intros y I; apply V; now right].
    + exists ts. auto.
Qed.
End DocP.

(** ** The wasm layer *)
From Verif.Model Require Import Pack Routing Unpack.
From Verif.Proofs Require Import WireU.
Section Js.
Lemma maybe_here {A} (rd : value -> A -> Prop) n i k (f : A -> value) l o : none l (B k) -> (forall a, f a <> VNull /\ rd (f a) a) ->
  maybe rd n (VObj ((B k, opt_tree f o) :: l)) i k o.
Proof.
  intros N R. destruct o as [a|]; cbn [opt_tree maybe].
  - exists (f a). split; [|apply R]. left. eexists. split; [reflexivity|]. apply one_cons. auto.
  - right. left. eexists. split; [reflexivity|]. apply one_cons. auto.
Qed.
Lemma present_there n k i n' w l v : n' <> B k -> present n (VObj l) i k v -> present n (VObj ((n', w) :: l)) i k v.
Proof. intros N [(l' & E & O)|(vs & E & _)]; [|discriminate]. injection E as <-. left. eexists. split; eauto. apply one_cons. auto. Qed.
Lemma maybe_there {A} (rd : value -> A -> Prop) n i k n' w l o : n' <> B k -> maybe rd n (VObj l) i k o -> maybe rd n (VObj ((n', w) :: l)) i k o.
Proof.
  intros N. destruct o as [a|]; cbn.
  - intros (v & P & R). exists v. split; auto. now apply present_there.
  - intros [M|P]; [|right; now apply present_there]. left. apply missing_obj in M. apply missing_obj, none_cons. auto.
Qed.
Lemma maybe_some {A} (rd : value -> A -> Prop) n i k w l a : none l (B k) -> w <> VNull -> rd w a -> maybe rd n (VObj ((B k, w) :: l)) i k (Some a).
Proof. intros N W R. exists w. repeat split; auto. left. eexists. split; [reflexivity|]. apply one_cons. auto. Qed.
Lemma maybe_none {A} (rd : value -> A -> Prop) n i k l : none l (B k) -> maybe rd n (VObj l) i k None.
Proof. intros N. left. now apply missing_obj. Qed.
Ltac absent := unfold none; cbn; let H := fresh in intros H; repeat destruct H as [H|H]; try discriminate H; try exact H.
Ltac fld := repeat (apply req_there; [discriminate|]); apply req_here; [absent|].
Ltac mfld := repeat (apply maybe_there; [discriminate|]); apply maybe_here; [absent|].
Lemma prior_shown p : prior_read (from_prior_tree p) p.
Proof.
  destruct p as [i s a e n t j]. unfold from_prior_tree, prior_read.
  cbn [fp_iss fp_sub fp_aud fp_exp fp_nbf fp_iat fp_jti].
  destruct a, e, n, t, j; cbn [opt_member app]; repeat split;
    first [ fld; reflexivity
          | repeat (apply maybe_there; [discriminate|]); apply maybe_some; [absent|discriminate|reflexivity]
          | apply maybe_none; absent ].
Qed.
Lemma metadata_written md : metadata_shown (unpack_metadata_tree md) md.
Proof.
  destruct md as [b1 b2 b3 b4 b5 o1 o2 o3 o4 o5 o6 o7 o8 o9]. unfold unpack_metadata_tree, metadata_shown.
  cbn [um_encrypted um_authenticated um_non_repudiation um_anonymous_sender um_re_wrapped um_encrypted_from_kid um_encrypted_to_kids um_sign_from
    um_from_prior_issuer_kid um_enc_alg_auth um_enc_alg_anon um_sign_alg um_signed_message um_from_prior].
  repeat match goal with |- _ /\ _ => split end; try (fld; reflexivity); mfld; intros a; split; try discriminate; try reflexivity.
  - apply strs_read.
  - exists (auth_alg_name a). destruct a. split; reflexivity.
  - exists (anon_alg_name a). destruct a; split; reflexivity.
  - exists (sign_alg_name a). destruct a; split; reflexivity.
  - apply prior_shown.
Qed.
Lemma packing_written md : packing_shown (pack_metadata_tree md) md.
Proof.
  destruct md as [s f b t]. unfold pack_metadata_tree, packing_shown. cbn [pm_service pm_from_kid pm_sign_by_kid pm_to_kids].
  repeat match goal with |- _ /\ _ => split end; try (fld; apply strs_read); mfld; intros a; split; try discriminate; try reflexivity.
  destruct a as [i e]. unfold messaging_shown. cbn [smd_id smd_endpoint]. split; fld; reflexivity.
Qed.

Lemma answer_read {A} fp (f : raw -> res A) rd v o : (forall w, json_tree fp 127 w -> forall a, f (raw_of w) = Ok a <-> rd w a) -> json_tree fp 127 v ->
  (kind InvalidState (from_json (de_option f) (print v)) = Ok o <-> match o with None => v = VNull | Some a => v <> VNull /\ rd v a end).
Proof.
  intros R T. rewrite <- (read_as fp 127 (de_option f) (opt_read rd) v o (reads_option fp 127 f rd R) T).
  destruct (from_json (de_option f) (print v)); cbn; split; auto; discriminate.
Qed.
End Js.
