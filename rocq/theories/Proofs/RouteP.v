(** Services, argument checks, key selection failures. *)
From Verif.Model Require Import Prelude Utf8 Base64 Json Serde DidDoc Crypto Keys Effects Jws Jwe Message FromPrior Pack Routing Unpack.
From Verif.Spec Require Import Small Codec Events World Packing.
From Verif.Proofs Require Import Lib Base64P JsonP SerdeP CodecP SmallP Wp Errs NoPanic UnpackInv SealP RoundP PackP.

(** ** Services *)
Lemma accepts_usable s ms : svc_kind s = DIDCommMessaging ms -> (accepts_v2 ms = true <-> usable s ms).
Proof.
  intros K. unfold accepts_v2, usable, didcomm_v2. destruct (ms_accept ms) as [[|a l]|] eqn:A.
  - split; auto.
  - rewrite bmem_In. split.
    + intros H. split; auto. right; right. eauto.
    + intros (_ & [X|[X|(l' & X & I)]]); try discriminate. injection X as <-. exact I.
  - split; auto.
Qed.
Lemma usable_fun s ms ms' : usable s ms -> usable s ms' -> ms = ms'.
Proof. intros [E _] [E' _]. congruence. Qed.
Lemma first_service_some l id ms : first_service l = Some (id, ms) <->
  exists s, first_with (fun s => exists ms, usable s ms) l s /\ usable s ms /\ id = svc_id s.
Proof.
  induction l as [|s l IH]; cbn [first_service].
  - split; [discriminate|]. intros (s & (l1 & l2 & E & _) & _). destruct l1; discriminate.
  - assert (SK : forall P : Prop, ~ (exists ms, usable s ms) ->
      ((exists s0, first_with (fun s => exists ms, usable s ms) l s0 /\ usable s0 ms /\ id = svc_id s0) <->
       (exists s0, first_with (fun s => exists ms, usable s ms) (s :: l) s0 /\ usable s0 ms /\ id = svc_id s0))).
    { intros _ N. split; intros (s0 & (l1 & l2 & E & U & F) & X).
      - exists s0. split; auto. exists (s :: l1), l2. cbn. rewrite E. split; auto. split; auto. intros y [<-|I]; auto.
      - exists s0. split; auto. destruct l1 as [|z l1]; cbn in E; injection E as <- E; [tauto|]. exists l1, l2. split; auto. split; auto. intros; apply F; now right. }
    destruct (svc_kind s) as [m0|v] eqn:K.
    + destruct (accepts_v2 m0) eqn:A.
      * apply (accepts_usable s m0 K) in A. split.
        -- injection 1 as <- <-. exists s. split; auto. exists [], l. split; [reflexivity|]. split; [eauto|]. intros y [].
        -- intros (s0 & (l1 & l2 & E & U & F) & U' & ->). destruct l1 as [|z l1]; cbn in E; injection E as -> E.
           ++ now rewrite (usable_fun _ _ _ A U').
           ++ destruct (F z (or_introl eq_refl)); eauto.
      * rewrite IH. apply (SK True). intros (ms' & U). assert (ms' = m0) by (destruct U as [E _]; congruence). subst. apply (accepts_usable s m0 K) in U. congruence.
    + rewrite IH. apply (SK True). intros (ms' & [E _]). congruence.
Qed.
Lemma first_service_none l : first_service l = None <-> forall s ms, In s l -> ~ usable s ms.
Proof.
  induction l as [|s l IH]; cbn [first_service]; [split; auto; intros _ s ms []|].
  destruct (svc_kind s) as [m0|v] eqn:K.
  - destruct (accepts_v2 m0) eqn:A.
    + split; [discriminate|]. intros H. apply (accepts_usable s m0 K) in A. destruct (H s m0); auto. now left.
    + rewrite IH. split; intros H s' ms I.
      * destruct I as [<-|I]; auto. intros U. assert (ms = m0) by (destruct U as [E _]; congruence). subst. apply (accepts_usable s m0 K) in U. congruence.
      * apply H. now right.
  - rewrite IH. split; intros H s' ms I; [|apply H; now right]. destruct I as [<-|I]; auto. intros [E _]. congruence.
Qed.

(** What find_service returns when the directory is [dir]. *)
Lemma find_service_Ok did sid tr r : exec (find_service did sid) tr (Ok r) ->
  exists doc, tr = [Ev (OResolve did) (Ok (Some doc))] /\
    match r with
    | Some (id, ms) => chosen doc sid id ms
    | None => sid = None /\ forall s ms, In s (doc_service doc) -> ~ usable s ms
    end.
Proof.
  unfold find_service. intros H. step H. step H. ok. exists a0. destruct sid as [i|].
  - step H. destruct (svc_kind a) as [ms|v] eqn:K; [|destruct H; discriminate]. destruct (accepts_v2 ms) eqn:A; [|destruct H; discriminate].
    step H. apply Ok_inj in H. subst r. split; auto. ok. cbn. exists a. split.
    + apply find_first_first in E. revert E. apply first_with_ext. intros; apply beq_eq.
    + split; auto. now apply (accepts_usable _ _ K).
  - step H. apply Ok_inj in H. subst r. split; auto. destruct (first_service _) as [[id ms]|] eqn:F.
    + now apply first_service_some.
    + split; auto. now apply first_service_none.
Qed.
Lemma find_service_found dir own did sid doc tr r : exec (find_service did sid) tr r -> Forall (answers dir own) tr -> dir did = Some doc ->
  (forall id ms, chosen doc sid id ms -> r = Ok (Some (id, ms)))
  /\ (sid = None -> (forall s ms, In s (doc_service doc) -> ~ usable s ms) -> r = Ok None).
Proof.
  unfold find_service, resolve. intros H A D. rewrite exec_Do_bind in H. destruct H as (x & tr' & -> & H). inversion A as [|? ? A0 A1]; subst. cbn in A0. subst x.
  rewrite D in H. cbn [pbind bind ok_or] in H. split.
  - intros id ms CH. destruct sid as [i|]; cbn in CH.
    + destruct CH as (s & FW & U & ->). assert (F : find_first (fun s => beq (svc_id s) i) (doc_service doc) = Some s).
      { apply find_first_first. revert FW. apply first_with_ext. intros; symmetry; apply beq_eq. }
      rewrite F in H. cbn [ok_or] in H. cbv beta iota in H. pose proof U as [K _]. rewrite K in H. apply (accepts_usable _ _ K) in U. rewrite U in H. apply H.
    + assert (F : first_service (doc_service doc) = Some (id, ms)) by now apply first_service_some. rewrite F in H. apply H.
  - intros -> N. assert (F : first_service (doc_service doc) = None) by now apply first_service_none. rewrite F in H. apply H.
Qed.

(** The services from the outermost one to the recipient's own. *)
Inductive chain_is (to : bytes) (sid : option bytes) : list event -> list (bytes * messaging_service) -> Prop :=
| chain_none did doc : did_part to did -> sid = None -> (forall s ms, In s (doc_service doc) -> ~ usable s ms) ->
    chain_is to sid [Ev (OResolve did) (Ok (Some doc))] []
| chain_direct did doc id ms : did_part to did -> chosen doc sid id ms -> ~ did_text (ms_uri ms) ->
    chain_is to sid [Ev (OResolve did) (Ok (Some doc))] [(id, ms)]
| chain_mediated did doc id ms mdoc mid mms : did_part to did -> chosen doc sid id ms -> did_text (ms_uri ms) ->
    chosen mdoc None mid mms -> ~ did_text (ms_uri mms) ->
    chain_is to sid [Ev (OResolve did) (Ok (Some doc)); Ev (OResolve (ms_uri ms)) (Ok (Some mdoc))] [(mid, mms); (id, ms)].

Lemma not_did_text s : is_did s = false -> ~ did_text s.
Proof. intros E D. apply is_did_text in D. congruence. Qed.
Lemma services_chain_Ok to sid tr chain : exec (services_chain to sid) tr (Ok chain) -> chain_is to sid tr chain.
Proof.
  unfold services_chain. destruct (did_or_url to) as [did u] eqn:DU. apply did_part_spec in DU. intros H. step H.
  apply find_service_Ok in K as (doc & -> & R). destruct a as [[id ms]|].
  - cbn [snd chain_loop] in H. destruct (is_did (ms_uri ms)) eqn:D.
    + cbn [List.length Nat.ltb Nat.leb] in H. step H. apply find_service_Ok in K as (mdoc & -> & R'). step H. ok. destruct a0 as [mid mms].
      cbn [snd chain_loop] in H. destruct (is_did (ms_uri mms)) eqn:D'; [cbn in H; destruct H; discriminate|].
      step H. apply Ok_inj in H. subst chain. cbn. apply is_did_text in D. eapply chain_mediated; eauto using not_did_text.
    + step H. apply Ok_inj in H. subst chain. eapply chain_direct; eauto using not_did_text.
  - step H. apply Ok_inj in H. subst. destruct R. eapply chain_none; eauto.
Qed.
Lemma find_service_one did sid tr r : exec (find_service did sid) tr r -> exists x, tr = [Ev (OResolve did) x].
Proof.
  unfold find_service, resolve. intros H. rewrite exec_Do_bind in H. destruct H as (x & tr' & -> & H). exists x.
  enough (tr' = []) by congruence. destruct x as [[doc|]| |]; try apply H. cbn [pbind bind ok_or] in H. destruct sid as [i|]; [|apply H].
  destruct (find_first _ _) as [s|]; [|apply H]. cbn [ok_or] in H. cbv beta iota in H. destruct (svc_kind s) as [ms|]; [destruct (accepts_v2 ms)|]; apply H.
Qed.
Lemma services_chain_short to sid tr r : exec (services_chain to sid) tr r ->
  exists did, did_part to did /\ exists x, tr = [Ev (OResolve did) x] \/ exists y uri, did_text uri /\ tr = [Ev (OResolve did) x; Ev (OResolve uri) y].
Proof.
  unfold services_chain. destruct (did_or_url to) as [did u] eqn:DU. apply did_part_spec in DU. intros H. exists did. split; auto.
  unfold pbind in H. apply exec_bind in H as (t1 & t2 & x0 & -> & H1 & H2). apply find_service_one in H1 as (x & ->). exists x.
  destruct x0 as [[[id ms]|]| |]; try (destruct H2 as [-> _]; now left).
  cbn [snd chain_loop] in H2. destruct (is_did (ms_uri ms)) eqn:D; [|destruct H2 as [-> _]; now left]. right.
  cbn [List.length Nat.ltb Nat.leb] in H2. unfold pbind in H2 at 1. apply exec_bind in H2 as (t1 & t3 & x1 & -> & H1 & H2). apply find_service_one in H1 as (y & ->).
  exists y, (ms_uri ms). split; [now apply is_did_text|]. enough (t3 = []) by (subst; reflexivity).
  destruct x1 as [[[mid mms]|]| |]; try apply H2. cbn in H2. destruct (is_did (ms_uri mms)); apply H2.
Qed.

(** Against a directory. *)
Lemma did_part_fun s d d' : did_part s d -> did_part s d' -> d = d'.
Proof. intros H H'. apply did_part_inv in H as (u & E), H' as (u' & E'). congruence. Qed.
Lemma chosen_fun doc sid id ms id' ms' : chosen doc sid id ms -> chosen doc sid id' ms' -> id = id' /\ ms = ms'.
Proof.
  destruct sid as [i|]; intros (s & F & U & ->) (s' & F' & U' & ->); pose proof (first_with_fun _ _ _ _ F F'); subst s'; split; auto; eapply usable_fun; eauto.
Qed.
Lemma none_chosen doc id ms : (forall s ms, In s (doc_service doc) -> ~ usable s ms) -> ~ chosen doc None id ms.
Proof. intros N (s & (l1 & l2 & E & _) & U & _). eapply N; [|exact U]. rewrite E. apply in_or_app. right. now left. Qed.
Lemma route_fun dir to sid q q' : route dir to sid q -> route dir to sid q' -> q = q'.
Proof.
  intros H H'.
  destruct H as [d doc P D SN N|d doc id ms P D CH ND|d doc id ms mdoc mid mms P D CH ND DM CM NM];
  destruct H' as [d' doc' P' D' SN' N'|d' doc' id' ms' P' D' CH' ND'|d' doc' id' ms' mdoc' mid' mms' P' D' CH' ND' DM' CM' NM'];
    pose proof (did_part_fun _ _ _ P P'); subst d'; rewrite D in D'; injection D' as <-; subst;
    try (exfalso; eapply none_chosen; eassumption); auto; destruct (chosen_fun _ _ _ _ _ _ CH CH'); subst; auto; try contradiction.
  rewrite DM in DM'. injection DM' as <-. destruct (chosen_fun _ _ _ _ _ _ CM CM'); subst; auto.
Qed.
Definition chain_route (chain : list (bytes * messaging_service)) : option (bytes * bytes * list bytes) :=
  match chain with
  | [] => None
  | f :: rest => Some (fst (last chain f), ms_uri (snd f), map (fun s => ms_uri (snd s)) rest ++ ms_routing_keys (snd (last chain f)))
  end.
Lemma chain_routed dir own to sid tr chain : chain_is to sid tr chain -> Forall (answers dir own) tr -> route dir to sid (chain_route chain).
Proof.
  intros H A. destruct H; inversion A as [|? ? A0 A1]; subst; cbn in A0; injection A0 as A0; symmetry in A0.
  - eapply route_none; eauto.
  - cbn. eapply route_direct; eauto.
  - inversion A1 as [|? ? A2 A3]; subst. cbn in A2. injection A2 as A2. symmetry in A2. cbn. eapply route_mediated; eauto.
Qed.
Lemma services_chain_total dir own to sid did doc tr r : exec (services_chain to sid) tr r -> Forall (answers dir own) tr ->
  did_part to did -> dir did = Some doc ->
  (forall q, route dir to sid q -> exists chain, r = Ok chain /\ chain_route chain = q)
  /\ (forall id ms, chosen doc sid id ms -> did_text (ms_uri ms) ->
        (dir (ms_uri ms) = None -> r = Err DIDNotResolved)
        /\ forall mdoc, dir (ms_uri ms) = Some mdoc ->
             ((forall s m, In s (doc_service mdoc) -> ~ usable s m) -> r = Err InvalidState)
             /\ forall mid mms, chosen mdoc None mid mms -> did_text (ms_uri mms) -> r = Err InvalidState).
Proof.
  intros H A DP D. unfold services_chain in H. destruct (did_part_inv _ _ DP) as (u & DU). rewrite DU in H.
  unfold pbind in H. apply exec_bind in H as (t1 & t2 & x & -> & H1 & H2). apply Forall_app in A as [A1 A2].
  destruct (find_service_found _ _ _ _ _ _ _ H1 A1 D) as [F1 F2].
  assert (M : forall id ms, chosen doc sid id ms -> did_text (ms_uri ms) -> exists t3 t4 y, exec (find_service (ms_uri ms) None) t3 y /\ Forall (answers dir own) t3
     /\ exec (match y with Ok s => let! s := Ret (ok_or InvalidState s) in chain_loop 1 [s; (id, ms)] (snd s) | Err k => Ret (Err k) | Panic => Ret Panic end) t4 r).
  { intros id ms CH DT. rewrite (F1 _ _ CH) in H2. cbn [snd chain_loop] in H2. apply is_did_text in DT. rewrite DT in H2.
    cbn [List.length Nat.ltb Nat.leb] in H2. unfold pbind in H2 at 1. apply exec_bind in H2 as (t3 & t4 & y & -> & H3 & H4).
    apply Forall_app in A2 as [A3 A4]. exists t3, t4, y. auto. }
  split.
  - intros q R. destruct R as [did' doc' DP' D' SN N|did' doc' id ms DP' D' CH ND|did' doc' id ms mdoc mid mms DP' D' CH ND DM CM NM];
      pose proof (did_part_fun _ _ _ DP DP'); subst did'; rewrite D in D'; injection D' as <-.
    + rewrite (F2 SN N) in H2. destruct H2 as [_ ->]. exists []. auto.
    + rewrite (F1 _ _ CH) in H2. cbn [snd chain_loop] in H2. destruct (is_did (ms_uri ms)) eqn:X; [apply is_did_text in X; contradiction|].
      destruct H2 as [_ ->]. eexists. split; [reflexivity|]. reflexivity.
    + destruct (M _ _ CH ND) as (t3 & t4 & y & E1 & A3 & E2). destruct (find_service_found _ _ _ _ _ _ _ E1 A3 DM) as [F3 _].
      rewrite (F3 _ _ CM) in E2. cbn [ok_or pbind bind snd chain_loop] in E2. destruct (is_did (ms_uri mms)) eqn:X; [apply is_did_text in X; contradiction|].
      destruct E2 as [_ ->]. eexists. split; [reflexivity|]. reflexivity.
  - intros id ms CH DT. destruct (M _ _ CH DT) as (t3 & t4 & y & E1 & A3 & E2). split.
    + intros DN. unfold find_service, resolve in E1. rewrite exec_Do_bind in E1. destruct E1 as (z & t5 & -> & E1). inversion A3 as [|? ? B0 B1]; subst. cbn in B0. subst z.
      rewrite DN in E1. destruct E1 as [_ ->]. apply E2.
    + intros mdoc DM. destruct (find_service_found _ _ _ _ _ _ _ E1 A3 DM) as [F3 F4]. split.
      * intros N. rewrite (F4 eq_refl N) in E2. apply E2.
      * intros mid mms CM DT'. rewrite (F3 _ _ CM) in E2. cbn [ok_or pbind bind snd chain_loop] in E2. apply is_did_text in DT'. rewrite DT' in E2. apply E2.
Qed.

(** ** Argument checks *)
Lemma negb_did s : negb (is_did s) = true <-> ~ did_text s.
Proof. rewrite Bool.negb_true_iff. split; [apply not_did_text|]. intros N. destruct (is_did s) eqn:E; auto. apply is_did_text in E. contradiction. Qed.
Lemma validate_cases m to from sign_by : validate_pack_encrypted m to from sign_by = Ok tt /\ ~ refused m to from sign_by
  \/ validate_pack_encrypted m to from sign_by = Err IllegalArgument /\ refused m to from sign_by.
Proof.
  unfold validate_pack_encrypted, refused.
  destruct (negb (is_did to)) eqn:E1; [right; split; auto; left; now apply negb_did|].
  destruct (match from with Some f => negb (is_did f) | None => false end) eqn:E2.
  { right. split; auto. right; left. destruct from as [f|]; [|discriminate]. exists f. split; auto. now apply negb_did. }
  destruct (match sign_by with Some s => negb (is_did s) | None => false end) eqn:E3.
  { right. split; auto. do 2 right; left. destruct sign_by as [f|]; [|discriminate]. exists f. split; auto. now apply negb_did. }
  destruct (match msg_to m with Some l => negb (bmem (fst (did_or_url to)) l) | None => false end) eqn:E4.
  { right. split; auto. do 3 right; left. destruct (msg_to m) as [l|]; [|discriminate]. destruct (did_or_url to) as [did u] eqn:DU. exists did, l.
    split; [eapply did_part_spec; eauto|]. split; auto. intros I. apply bmem_In in I. cbn [fst] in E4. rewrite I in E4. discriminate. }
  destruct (match from, msg_from m with Some f, Some mf => negb (beq (fst (did_or_url f)) mf) | _, _ => false end) eqn:E5.
  { right. split; auto. do 4 right. destruct from as [f|]; [|discriminate]. destruct (msg_from m) as [mf|]; [|discriminate].
    destruct (did_or_url f) as [did u] eqn:DU. exists f, did, mf. split; auto. split; [eapply did_part_spec; eauto|]. split; auto.
    intros ->. cbn [fst] in E5. rewrite beq_refl in E5. discriminate. }
  left. split; auto. intros [H|[(f & -> & H)|[(s & -> & H)|[(did & l & D & ML & N)|(f & did & mf & -> & D & MF & N)]]]].
  - apply negb_did in H. congruence.
  - apply negb_did in H. congruence.
  - apply negb_did in H. congruence.
  - rewrite ML in E4. apply did_part_inv in D as (u & D). rewrite D in E4. cbn [fst] in E4. apply Bool.negb_false_iff, bmem_In in E4. contradiction.
  - rewrite MF in E5. apply did_part_inv in D as (u & D). rewrite D in E5. cbn [fst] in E5. apply Bool.negb_false_iff, beq_eq in E5. congruence.
Qed.

Section Args.
Context (C : crypto).
Lemma parse_compact_errs s : parse_compact s = Panic \/ parse_compact s = Err Malformed \/ exists x, parse_compact s = Ok x.
Proof.
  unfold parse_compact. destruct (split "." s) as [|h [|p [|g [|x l]]]]; auto. destruct (b64dec h) as [b|]; cbn [ok_or rbind]; auto.
  destruct (from_json de_compact_header b); cbn; eauto.
Qed.
Lemma early_prior jwt r : exec (from_prior_unpack C jwt) [] r -> r = Err Malformed \/ r = Panic.
Proof.
  unfold from_prior_unpack. intros H. rewrite exec_Ret_Err in H. destruct (parse_compact_errs jwt) as [E|[E|(pc & E)]]; rewrite E in H.
  - destruct H as [_ ->]; auto.
  - destruct H as [_ ->]; auto.
  - cbv zeta in H. destruct (negb (beq _ _)); [destruct H as [_ ->]; auto|]. destruct (did_or_url _) as [did u].
    destruct (negb (is_some u)); [destruct H as [_ ->]; auto|]. unfold resolve in H. rewrite exec_Do_bind in H. destruct H as (x & tr' & E' & _). discriminate.
Qed.
Lemma early_plaintext m r : exec (pack_plaintext C m) [] r -> r = Ok (message_text m) \/ r = Err Malformed \/ r = Panic.
Proof.
  unfold pack_plaintext. destruct (msg_from_prior m) as [jwt|].
  - intros H. unfold pbind in H at 1. apply exec_bind in H as (t1 & t2 & x & E & H1 & H2). symmetry in E. apply app_eq_nil in E as [-> ->].
    unfold pbind in H1. apply exec_bind in H1 as (t1 & t2 & y & E & H0 & H1). symmetry in E. apply app_eq_nil in E as [-> ->].
    apply early_prior in H0 as [-> | ->]; cbn in H1; destruct H1 as [_ ->]; cbn in H2; destruct H2 as [_ ->]; auto.
  - intros H. cbn in H. destruct H as [_ ->]; auto.
Qed.
Lemma pack_signed_asks m by_ r : is_did by_ = true -> ~ exec (pack_signed C m by_) [] r.
Proof.
  intros D H. unfold pack_signed in H. rewrite D in H. cbn [negb] in H. destruct (did_or_url by_) as [did u]. unfold resolve in H. rewrite exec_Do_bind in H.
  destruct H as (x & tr' & E' & _). discriminate.
Qed.
Lemma anoncrypt_asks to msg alg r : ~ exec (anoncrypt C to msg alg) [] r.
Proof.
  intros H. unfold anoncrypt in H. destruct (did_or_url to) as [did u]. unfold resolve in H. rewrite exec_Do_bind in H. destruct H as (x & tr' & E' & _). discriminate.
Qed.
Lemma authcrypt_asks to f msg au an pr r : ~ exec (authcrypt C to f msg au an pr) [] r.
Proof.
  intros H. unfold authcrypt in H. destruct (did_or_url to) as [did u]. unfold resolve in H. rewrite exec_Do_bind in H. destruct H as (x & tr' & E' & _). discriminate.
Qed.
Ltac cut H t1 t2 x H1 H2 := unfold pbind in H at 1; apply exec_bind in H as (t1 & t2 & x & ? & H1 & H2).
Lemma pack_refuses m to from sign_by o tr r : exec (pack_encrypted C m to from sign_by o) tr r ->
  (refused m to from sign_by -> tr = [] /\ r = Err IllegalArgument)
  /\ (tr = [] -> r = Err IllegalArgument -> refused m to from sign_by).
Proof.
  intros H. unfold pack_encrypted in H. rewrite exec_Ret_Err in H. destruct (validate_cases m to from sign_by) as [[E N]|[E R]]; rewrite E in H; [|auto].
  split; [contradiction|]. intros -> ->. exfalso. clear N.
  assert (SB : forall s, sign_by = Some s -> is_did s = true).
  { intros s ->. unfold validate_pack_encrypted in E. destruct (negb (is_did to)); [discriminate|]. destruct (match from with Some f => negb (is_did f) | None => false end); [discriminate|].
    destruct (negb (is_did s)) eqn:X; [discriminate|]. now apply Bool.negb_false_iff in X. }
  cut H t1 t2 x H1 H2. symmetry in H. apply app_eq_nil in H as [-> ->]. destruct sign_by as [s|].
  - cut H1 t1 t2 y H3 H4. symmetry in H. apply app_eq_nil in H as [-> ->]. eapply pack_signed_asks; eauto.
  - cut H1 t1 t2 y H3 H4. symmetry in H. apply app_eq_nil in H as [-> ->]. apply early_plaintext in H3 as [-> | [-> | ->]].
    + destruct H4 as [_ ->]. cbv iota beta in H2. cut H2 t1 t2 z H5 H6. symmetry in H. apply app_eq_nil in H as [-> ->].
      destruct from as [f|]; cut H5 t1 t2 w H7 H8; symmetry in H; apply app_eq_nil in H as [-> ->]; [eapply authcrypt_asks; eauto|eapply anoncrypt_asks; eauto].
    + destruct H4 as [_ ->]. destruct H2 as [_ H2]. discriminate.
    + destruct H4 as [_ ->]. destruct H2 as [_ H2]. discriminate.
Qed.
End Args.

(** ** Key selection *)
Lemma picked_fun {A} (P : A -> Prop) l l1 : picked P l l1 -> forall l2, picked P l l2 -> l1 = l2.
Proof. induction 1; intros l2 H2; inversion H2; subst; auto; try contradiction. f_equal; auto. Qed.
Lemma wanted_fun to l k1 k2 : wanted to l k1 -> wanted to l k2 -> k1 = k2.
Proof. intros [[H P]|[H ->]] [[H' P']|[H' ->]]; try contradiction; auto. eapply picked_fun; eauto. Qed.
Lemma wanted_select to did u l kids : did_or_url to = (did, u) -> wanted to l kids -> select_kids u l = kids.
Proof. intros D W. eapply wanted_fun; [eapply select_wanted; eauto|exact W]. Qed.
Lemma find_vm_entry e doc kid : (exists a, on_curve doc a kid) -> exists vm, find_vm e doc kid = Ok vm.
Proof.
  intros (a & vm & F & _). exists vm. unfold find_vm.
  assert (X : find_first (fun v => beq (vm_id v) kid) (doc_verification_method doc) = Some vm); [|now rewrite X].
  apply find_first_first. revert F. apply first_with_ext. intros; symmetry; apply beq_eq.
Qed.
Lemma rmap_total {A B} (f : A -> res B) l : (forall x, In x l -> exists y, f x = Ok y) -> exists l', rmap f l = Ok l'.
Proof.
  induction l as [|x l IH]; intros H; [exists []; auto|]. destruct (H x (or_introl eq_refl)) as (y & E). destruct IH as (l' & E'); [intros; apply H; now right|].
  exists (y :: l'). cbn. rewrite E. cbn. rewrite E'. reflexivity.
Qed.

Section Select.
Context (C : crypto) (dir : bytes -> option diddoc) (own : bytes -> option secret).
Let A := answers dir own.

Lemma unsigned_plain m : msg_from_prior m = None -> pack_plaintext C m = Ret (Ok (message_text m)).
Proof. intros E. unfold pack_plaintext. rewrite E. reflexivity. Qed.
Lemma pack_auth_fails m to f o e : msg_from_prior m = None -> ~ refused m to (Some f) None ->
  safe A (authcrypt C to f (message_text m) (po_enc_alg_auth o) (po_enc_alg_anon o) (po_protect_sender o)) (fun r => r = Err e) ->
  safe A (pack_encrypted C m to (Some f) None o) (fun r => r = Err e).
Proof.
  intros MP NR S. unfold pack_encrypted. destruct (validate_cases m to (Some f) None) as [[E _]|[_ R]]; [|contradiction]. rewrite E.
  rewrite (unsigned_plain m MP). cbn [pbind bind]. change (safe A (pbind (pbind (authcrypt C to f (message_text m) (po_enc_alg_auth o) (po_enc_alg_anon o) (po_protect_sender o))
     (fun '(msg, fk, tk) => Ret (Ok (msg, Some fk, tk)))) (fun '(msg, from_kid, to_kids) => let! w := wrap_if_needed C msg to o in
        match w with Some (fwd, sm) => Ret (Ok (fwd, mkPM (Some sm) from_kid None to_kids)) | None => Ret (Ok (msg, mkPM None from_kid None to_kids)) end)) (fun r => r = Err e)).
  eapply safe_bind with (R := fun r => r = Err e); [eapply safe_bind; [exact S|]|]; intros x ->; cbn; reflexivity.
Qed.
Lemma auth_incompatible to f msg au an pr did doc fdid fdoc asked all :
  did_part to did -> dir did = Some doc -> did_part f fdid -> dir fdid = Some fdoc ->
  wanted f (doc_key_agreement fdoc) asked -> wanted to (doc_key_agreement doc) all ->
  asked <> [] -> all <> [] -> holds_one own asked -> described fdoc asked -> described doc all ->
  (forall k k' a, In k asked -> own k <> None -> on_curve fdoc a k -> In k' all -> on_curve doc a k' -> a = KUnsupported) ->
  safe A (authcrypt C to f msg au an pr) (fun r => r = Err NoCompatibleCrypto).
Proof.
  intros DT DD DF DFD WA WL NA NL HO DA DL NP. unfold authcrypt. destruct (did_part_inv _ _ DT) as (u & U), (did_part_inv _ _ DF) as (u' & U'). rewrite U, U'.
  apply safe_resolve. rewrite DD. apply (safe_ret _ _ doc); [reflexivity|]. apply safe_resolve. rewrite DFD. apply (safe_ret _ _ fdoc); [reflexivity|].
  rewrite (wanted_select _ _ _ _ _ U' WA), (wanted_select _ _ _ _ _ U WL). destruct asked as [|a0 asked0] eqn:EA; [contradiction|]. cbv iota. rewrite <- EA in *.
  apply safe_find. intros found FO. pose proof (found_some _ _ _ HO FO) as NF. destruct found as [|f0 found0] eqn:EF; [contradiction|]. cbv iota. rewrite <- EF in *.
  destruct (rmap_total (find_vm Malformed fdoc) found) as (fkeys & FK). { intros x I. apply find_vm_entry, DA. now apply FO. }
  apply (safe_ret _ _ fkeys); [exact FK|]. destruct all as [|b0 all0] eqn:EL; [contradiction|]. cbv iota. rewrite <- EL in *.
  destruct (rmap_total (find_vm Malformed doc) all) as (keys & TK). { intros x I. now apply find_vm_entry, DL. }
  apply (safe_ret _ _ keys); [exact TK|]. cbn [pbind bind].
  destruct (find_first _ _) as [vm|] eqn:FF; [|reflexivity]. exfalso.
  apply find_first_some in FF as [I X]. apply filter_In in I as [I S]. apply existsb_exists in X as (t & IT & X). apply kalg_eqb_eq in X.
  apply entries in FK, TK. destruct (Forall2_In_r _ _ _ _ FK I) as (k & IK & VK & FW). destruct (Forall2_In_r _ _ _ _ TK IT) as (k' & IK' & VK' & FW').
  apply FO in IK as [IK (sec & OS)]. assert (Y : vm_key_alg vm = KUnsupported).
  { eapply (NP k k'); eauto; [congruence| |]; eapply on_curve_entry; eauto. }
  unfold supported in S. rewrite Y in S. discriminate.
Qed.

(** Encryption succeeds when a usable key comes first. *)
Definition imported (ka : kalg) (k : key C) : Prop := exists v, from_jwk C ka v = Some k.
Lemma vm_imported vm a k : vm_key_pair C vm = Ok (a, k) -> imported a k.
Proof.
  assert (J : forall b v, jwk_key C b v = Ok (a, k) -> imported a k).
  { intros b v. unfold jwk_key. destruct (from_jwk C b v) as [x|] eqn:E; [|discriminate]. cbn. intros H. injection H as <- <-. now exists v. }
  unfold vm_key_pair. destruct (vm_type vm), (vm_material vm); try discriminate.
  1: destruct (jwk_alg v) eqn:E; try discriminate; apply J.
  all: match goal with |- rbind ?x _ = _ -> _ => destruct x as [d| |]; [|discriminate|discriminate] end; cbn [rbind]; apply J.
Qed.
Lemma jwe_works ce d ka msg alg enc sender rs : sealing_works C -> agreement ka -> Forall (fun r => imported ka (snd r)) rs ->
  (d = Kdf1pu -> exists n s, sender = Some (n, s) /\ forall e epk p apu apv tag, key_gen C ka e = Some epk -> imported ka p ->
     ecdh_1pu C ka epk s p (jwe_alg_str alg) apu apv tag false <> None) ->
  safe A (jwe_encrypt C ce d ka msg alg enc sender rs) (fun r => exists t, r = Ok t).
Proof.
  intros (G1 & G2 & G3 & G4 & G5 & G6) AG IM SE. rewrite Forall_forall in IM. unfold jwe_encrypt, random. cbv zeta.
  intros e1 _. cbn [pbind bind]. destruct (cek_gen C ce e1) as [cek|] eqn:X; [|now apply G1 in X]. cbn [ok_or].
  intros e2 _. cbn [pbind bind]. destruct (key_gen C ka e2) as [epk|] eqn:X2; [|now apply G2 in X2]. cbn [ok_or].
  destruct (to_jwk_public C ka epk) as [jwk|] eqn:X3; [|exfalso; eapply G3; eauto]. cbn [ok_or]. intros e3 _. cbn [pbind bind].
  match goal with |- context [aead_enc C ce cek ?n ?a msg] => destruct (aead_enc C ce cek n a msg) as [[ct tag]|] eqn:X4; [|exfalso; eapply G4; eauto] end. cbn [ok_or].
  match goal with |- context [rmap ?f rs] => assert (W : exists rcs, rmap f rs = Ok rcs) end.
  { apply rmap_total. intros r I. apply IM in I as (v & I). unfold wrap_one.
    assert (D : forall al apu apv, al = jwe_alg_str alg -> exists kw, derive_key C d ka epk (option_map snd sender) (snd r) al apu apv tag false = Ok kw).
    { intros al apu apv ->. unfold derive_key. destruct d.
      - destruct (ecdh_es _ _ _ _ _ _ _ _) as [kw|] eqn:E; [|exfalso; eapply G6; eauto]. cbn. eauto.
      - destruct (SE eq_refl) as (n & s & -> & SW). cbn [option_map snd]. destruct (ecdh_1pu _ _ _ _ _ _ _ _ _ _) as [kw|] eqn:E; [cbn; eauto|].
        exfalso. eapply SW; eauto. now exists v. }
    match goal with |- context [derive_key C d ka epk _ _ ?al ?apu ?apv tag false] => destruct (D al apu apv eq_refl) as (kw & ->) end. cbn [rbind].
    destruct (kw_wrap C kw cek) as [w|] eqn:E'; [|exfalso; eapply G5; eauto]. cbn. eauto. }
  destruct W as (rcs & ->). cbn. eauto.
Qed.
Lemma encrypt_works ka alg msg rs : sealing_works C -> agreement ka -> Forall (fun r => imported ka (snd r)) rs ->
  safe A (anon_encrypt C ka alg msg rs) (fun r => exists t, r = Ok t).
Proof. intros SW AG IM. unfold anon_encrypt. destruct alg; apply jwe_works; auto; discriminate. Qed.
Lemma rs_imported ka vms rs : rmap (vm_recipient C ka) vms = Ok rs -> Forall (fun r => imported ka (snd r)) rs.
Proof.
  revert rs. induction vms as [|vm vms IH]; intros rs; cbn [rmap].
  - intros H. injection H as <-. constructor.
  - unfold vm_recipient at 1, vm_as, as_alg. destruct (kalg_eqb (vm_key_alg vm) ka); [|discriminate].
    destruct (vm_key_pair C vm) as [[a k]| |] eqn:K; try discriminate. cbn [rbind]. destruct (kalg_eqb a ka) eqn:E; [|discriminate]. cbn [rbind].
    destruct (rmap _ vms) as [l| |]; try discriminate. cbn [rbind]. intros H. injection H as <-. constructor; auto. cbn. apply kalg_eqb_eq in E. subst a. eapply vm_imported; eauto.
Qed.
Lemma anon_works to msg alg did doc all k0 ka : sealing_works C ->
  did_part to did -> dir did = Some doc -> wanted to (doc_key_agreement doc) all -> described doc all ->
  first_with (fun k => ~ on_curve doc KUnsupported k) all k0 -> on_curve doc ka k0 -> agreement ka ->
  (forall k, In k all -> on_curve doc ka k -> exists p, publishes C doc_key_agreement doc k ka p) ->
  safe A (anoncrypt C to msg alg) (fun r => exists t, r = Ok t).
Proof.
  intros SW DT DD WL DL FW OC AG PU. unfold anoncrypt. destruct (did_part_inv _ _ DT) as (u & U). rewrite U.
  apply safe_resolve. rewrite DD. apply (safe_ret _ _ doc); [reflexivity|]. cbv zeta. rewrite (wanted_select _ _ _ _ _ U WL).
  destruct all as [|b0 all0] eqn:EL; [destruct FW as (l1 & l2 & E & _); destruct l1; discriminate|]. cbv iota. rewrite <- EL in *.
  destruct (rmap_total (find_vm Unsupported doc) all) as (keys & TK). { intros x I. now apply find_vm_entry, DL. }
  apply (safe_ret _ _ keys); [exact TK|]. apply entries in TK.
  assert (H : hd_error (map vm_key_alg (filter (fun vm => supported (vm_key_alg vm)) keys)) = Some ka).
  { destruct (hd_error (map vm_key_alg (filter (fun vm => supported (vm_key_alg vm)) keys))) as [ka'|] eqn:E.
    - destruct (first_supported _ _ _ _ TK E) as (k1 & F1 & O1). pose proof (first_with_fun _ _ _ _ FW F1). subst k1.
      destruct OC as (vm & FV & <-), O1 as (vm' & FV' & <-). now rewrite (first_with_fun _ _ _ _ FV FV').
    - exfalso. destruct FW as (l1 & l2 & E' & N & _). assert (I : In k0 all) by (rewrite E'; apply in_or_app; right; now left).
      destruct (F2_In_l _ _ _ _ TK I) as (vm & IV & VK & FV). apply N. apply (on_curve_entry _ _ _ _ FV).
      destruct (supported (vm_key_alg vm)) eqn:S.
      + assert (X : In (vm_key_alg vm) (map vm_key_alg (filter (fun vm => supported (vm_key_alg vm)) keys))) by (apply in_map, filter_In; auto).
        destruct (map vm_key_alg (filter _ keys)); [destruct X|discriminate].
      + unfold supported in S. apply Bool.negb_false_iff in S. now apply kalg_eqb_eq. }
  rewrite H. apply (safe_ret _ _ ka); [reflexivity|].
  destruct (rmap_total (vm_recipient C ka) (filter (fun vm => kalg_eqb (vm_key_alg vm) ka) keys)) as (rs & RS).
  { intros vm I. apply filter_In in I as [I K]. apply kalg_eqb_eq in K. destruct (Forall2_In_r _ _ _ _ TK I) as (k & IK & VK & FV).
    destruct (PU k IK) as (p & _ & vm' & FV' & KP); [now apply (on_curve_entry _ _ _ _ FV)|]. pose proof (first_with_fun _ _ _ _ FV FV'). subst vm'.
    exists (vm_id vm, p). unfold vm_recipient. rewrite (vm_as_pair _ _ _ _ KP). reflexivity. }
  eapply safe_bind with (R := fun r => exists t, r = Ok t).
  - pose proof (rs_imported _ _ _ RS) as IM. pose proof AG as AG'. destruct AG; subst ka; rewrite RS; cbn [pbind bind]; now apply encrypt_works.
  - intros x (t & ->). cbn. eauto.
Qed.

(** Signing. *)
Lemma pack_signed_none m by_ did doc asked : did_text by_ -> did_part by_ did -> dir did = Some doc -> auth_wanted by_ doc asked ->
  (forall k, In k asked -> own k = None) -> safe A (pack_signed C m by_) (fun r => r = Err SecretNotFound).
Proof.
  intros D DP DD AW NO. unfold pack_signed. apply is_did_text in D. rewrite D. cbn [negb]. destruct (did_part_inv _ _ DP) as (u & U). rewrite U.
  apply safe_resolve. rewrite DD. apply (safe_ret _ _ doc); [reflexivity|].
  assert (K : match u with Some kid => let? _ := ok_or DIDUrlNotFound (find_first (fun a => beq a kid) (doc_authentication doc)) in Ok [kid] | None => Ok (doc_authentication doc) end = Ok asked).
  { destruct AW as [[N ->]|(I & IN & ->)].
    - destruct u as [u|]; auto. exfalso. apply did_or_url_some in U as X. destruct X as [-> _]. apply url_of_some in U. apply N. eapply url_has_hash; eauto.
    - destruct u as [u|].
      + apply did_or_url_some in U as [-> _]. destruct (find_first (fun a => beq a by_) (doc_authentication doc)) as [z|] eqn:F; [reflexivity|].
        exfalso. eapply find_first_none in F; eauto. cbn in F. rewrite beq_refl in F. discriminate.
      + destruct (did_part_spec _ _ _ U) as [X|[X _]]; [apply url_of_some in X; congruence|contradiction]. }
  apply (safe_ret _ _ asked); [exact K|]. apply safe_find. intros found FO. destruct found as [|k l]; [reflexivity|].
  destruct (proj1 (FO k) (or_introl eq_refl)) as [I (s & OS)]. rewrite (NO k I) in OS. discriminate.
Qed.
End Select.
Lemma first_held (own : bytes -> option secret) P asked found kid : picked P asked found -> (forall i, In i found <-> In i asked /\ exists s, own i = Some s) ->
  hd_error found = Some kid -> first_with (fun k => own k <> None) asked kid.
Proof.
  intros PK FO HD.
  assert (Q : forall x, In x asked -> (P x <-> own x <> None)).
  { intros x I. split.
    - intros Px. assert (IF : In x found). { clear FO HD. induction PK; cbn in *; auto. - destruct I as [<-|I]; auto. - destruct I as [<-|I]; auto. contradiction. }
      apply FO in IF as [_ (s & ->)]. discriminate.
    - intros N. assert (IF : In x found) by (apply FO; split; auto; destruct (own x); eauto; congruence).
      clear - PK IF. induction PK; cbn in *; auto; [tauto|]. destruct IF as [<-|I]; auto. }
  clear FO. induction PK as [|x l l' Px PK IH|x l l' N PK IH]; [discriminate| |].
  - injection HD as ->. exists [], l. split; auto. split; [apply Q; cbn; auto|intros y []].
  - destruct IH as (l1 & l2 & -> & O & F); auto. { intros; apply Q; now right. } exists (x :: l1), l2. split; auto. split; auto. intros y [<-|I]; auto.
    intros O'. apply N. apply Q; cbn; auto.
Qed.

(** ** The decision to wrap *)
Lemma wrap_off C msg to o : wrap_if_needed C msg to (no_forward o) = Ret (Ok None).
Proof. reflexivity. Qed.
Lemma exec_then {X Y} (m : prog (res X)) (f : X -> prog (res Y)) t1 t2 a r : exec m t1 (Ok a) -> exec (f a) t2 r -> exec (pbind m f) (t1 ++ t2) r.
Proof. intros H1 H2. apply exec_pbind. left. eauto 6. Qed.
Lemma exec_ret_then {X Y} (x : res X) (f : X -> prog (res Y)) t a r : x = Ok a -> exec (f a) t r -> exec (pbind (Ret x) f) t r.
Proof. intros -> H. exact H. Qed.
Lemma unforwarded C m to from sign_by o tr1 tr2 msg text fk skid kids : validate_pack_encrypted m to from sign_by = Ok tt ->
  written C m sign_by tr1 msg skid -> outer_stage C to from o msg tr2 text fk kids ->
  exec (pack_encrypted C m to from sign_by (no_forward o)) (tr1 ++ tr2) (Ok (text, mkPM None fk skid kids)).
Proof.
  intros V I O. unfold pack_encrypted. eapply exec_ret_then; [exact V|]. cbv beta.
  eapply exec_then with (a := (msg, skid)).
  - unfold written in I. destruct sign_by as [s|].
    + destruct I as (kid & I & ->). rewrite <- (app_nil_r tr1). eapply exec_then; [exact I|]. split; reflexivity.
    + destruct I as (I & ->). rewrite <- (app_nil_r tr1). eapply exec_then; [exact I|]. split; reflexivity.
  - cbv beta iota. rewrite <- (app_nil_r tr2). eapply exec_then with (a := (text, fk, kids)).
    + unfold outer_stage in O. destruct from as [f|].
      * destruct O as (k & O & ->). rewrite <- (app_nil_r tr2). eapply exec_then; [exact O|]. split; reflexivity.
      * destruct O as (O & ->). rewrite <- (app_nil_r tr2). eapply exec_then; [exact O|]. split; reflexivity.
    + cbv beta iota. rewrite wrap_off. split; reflexivity.
Qed.
Lemma wrap_decides C dir own msg to o tr w : exec (wrap_if_needed C msg to o) tr (Ok w) -> Forall (answers dir own) tr ->
  if po_forward o then exists q, route dir to (po_messaging_service o) q /\
    match q with
    | Some (id, uri, k :: ks) => exists text t1 t2, w = Some (text, mkSM id uri) /\ tr = t1 ++ t2 /\ List.length t1 <= 2
        /\ exec (wrap_in_forward C msg (po_forward_headers o) to (k :: ks) (po_enc_alg_anon o)) t2 (Ok text)
    | _ => w = None
    end
  else w = None /\ tr = [].
Proof.
  unfold wrap_if_needed. intros H A. destruct (po_forward o); cbn [negb] in H; [|step H; apply Ok_inj in H; auto].
  step H. apply Forall_app in A as [A1 A2]. pose proof (services_chain_short _ _ _ _ K) as (dd & _ & y & SH). apply services_chain_Ok in K.
  pose proof (chain_routed _ _ _ _ _ _ K A1) as R. exists (chain_route a). split; auto. unfold chain_route. destruct a as [|s rest]; [step H; apply Ok_inj in H; auto|].
  cbv zeta in H. destruct (map _ rest ++ _) as [|k ks] eqn:RK; [step H; apply Ok_inj in H; auto|]. step H. step H. apply Ok_inj in H. subst w.
  eexists _, t, _. split; [reflexivity|]. rewrite app_nil_r. split; [reflexivity|]. split; [|exact K0].
  destruct SH as [->|(? & ? & _ & ->)]; cbn; auto.
Qed.
Lemma pack_decides C dir own m to from sign_by o tr text pm : exec (pack_encrypted C m to from sign_by o) tr (Ok (text, pm)) -> Forall (answers dir own) tr ->
  exists tr1 tr2 text1, tr = tr1 ++ tr2
    /\ exec (pack_encrypted C m to from sign_by (no_forward o)) tr1 (Ok (text1, mkPM None (pm_from_kid pm) (pm_sign_by_kid pm) (pm_to_kids pm)))
    /\ if po_forward o then exists q, route dir to (po_messaging_service o) q /\
         match q with
         | Some (id, uri, k :: ks) => pm_service pm = Some (mkSM id uri) /\ exists t1 t2, tr2 = t1 ++ t2 /\ List.length t1 <= 2
             /\ exec (wrap_in_forward C text1 (po_forward_headers o) to (k :: ks) (po_enc_alg_anon o)) t2 (Ok text)
         | _ => pm_service pm = None /\ text = text1
         end
       else pm_service pm = None /\ text = text1 /\ tr2 = [].
Proof.
  intros H A. apply pack_encrypted_inv in H as (tr1 & tr2 & tr3 & msg & text2 & w & -> & V & I & O & W & P).
  exists (tr1 ++ tr2), tr3, text2. split; [now rewrite app_assoc|]. split; [eapply unforwarded; eauto|].
  apply Forall_app in A as [_ A]. apply Forall_app in A as [_ A]. pose proof (wrap_decides _ _ _ _ _ _ _ _ W A) as D.
  destruct (po_forward o).
  - destruct D as (q & R & D). exists q. split; auto. destruct q as [[[id uri] [|k ks]]|]; try (subst w; destruct P; auto).
    destruct D as (t & t1 & t2 & -> & -> & L & X). destruct P as [-> P]. split; auto. eauto 6.
  - destruct D as [-> ->]. destruct P as [-> P]. auto.
Qed.

(** ** Forward messages *)
Lemma headers_keep hs : forall m, msg_type (fold_left (fun m kv => mb_header (fst kv) (snd kv) m) hs m) = msg_type m
  /\ msg_body (fold_left (fun m kv => mb_header (fst kv) (snd kv) m) hs m) = msg_body m
  /\ msg_attachments (fold_left (fun m kv => mb_header (fst kv) (snd kv) m) hs m) = msg_attachments m.
Proof. induction hs as [|h hs IH]; intros m; cbn [fold_left]; auto. destruct (IH (mb_header (fst h) (snd h) m)) as (E1 & E2 & E3). rewrite E1, E2, E3. auto. Qed.
Lemma forward_parses id next headers v : try_parse_forward (forward_message id next headers v) = Some (mkPF next v).
Proof.
  unfold forward_message. set (m0 := mb_new _ _ _). set (hs := match headers with Some l => l | None => [] end).
  destruct (headers_keep hs m0) as (E1 & E2 & E3). set (m1 := fold_left _ hs m0) in *.
  unfold try_parse_forward. cbn [mb_attachment msg_type msg_body msg_attachments]. rewrite E1, E2, E3. cbn. reflexivity.
Qed.
Lemma forward_parsed m pf : try_parse_forward m = Some pf <->
  msg_type m = B "https://didcomm.org/routing/2.0/forward"
  /\ (exists body, msg_body m = VObj body /\ amap_get (B "next") body = Some (VStr (pf_next pf)))
  /\ (exists a l j, msg_attachments m = Some (a :: l) /\ att_data a = AJson (pf_forwarded pf) j).
Proof.
  unfold try_parse_forward, forward_type. destruct (beq_spec (msg_type m) (B "https://didcomm.org/routing/2.0/forward")) as [E|N]; cbn [negb].
  2: { split; [discriminate|]. intros (E & _). contradiction. }
  destruct (msg_body m) as [|b0|n0|s0|l0|body] eqn:MB; try (split; [discriminate|intros (_ & (bb & X & _) & _); discriminate]).
  destruct (amap_get (B "next") body) as [nv|] eqn:AG; [|split; [discriminate|intros (_ & (bb & X & Y) & _); injection X as <-; congruence]].
  destruct nv as [|b1|n1|next|l1|l2]; try (split; [discriminate|intros (_ & (bb & X & Y) & _); injection X as <-; congruence]).
  destruct (msg_attachments m) as [[|a l]|] eqn:MA; try (split; [discriminate|intros (_ & _ & (a' & l' & j & X & _)); discriminate]).
  destruct (att_data a) as [x0 y0|v j|x1 y1 z1] eqn:AD; try (split; [discriminate|intros (_ & _ & (a' & l' & j' & X & Y)); injection X as <- <-; congruence]).
  split.
  - injection 1 as <-. cbn. eauto 10.
  - intros (_ & (bb & X & Y) & (a' & l' & j' & X' & Y')). injection X as <-. injection X' as <- <-. destruct pf as [n f]. cbn in *. congruence.
Qed.
Lemma picked_first {A} (P Q : A -> Prop) l l' x : picked P l l' -> first_with Q l' x -> first_with (fun k => P k /\ Q k) l x.
Proof.
  intros PK. induction PK as [|y l l' Py PK IH|y l l' N PK IH]; intros (l1 & l2 & E & Qx & F).
  - destruct l1; discriminate.
  - destruct l1 as [|z l1]; cbn in E; injection E as -> E.
    + exists [], l. split; [reflexivity|]. split; [auto|]. intros z [].
    + destruct IH as (m1 & m2 & -> & [Px _] & G). { exists l1, l2. split; auto. split; auto. intros; apply F; now right. }
      exists (z :: m1), m2. split; [reflexivity|]. split; [auto|]. intros w [<-|I]; [|now apply G]. intros [_ Qz]. apply (F z); cbn; auto.
  - destruct IH as (m1 & m2 & -> & HH & G). { exists l1, l2. auto. } exists (y :: m1), m2. split; [reflexivity|]. split; [exact HH|].
    intros w [<-|I]; [|now apply G]. tauto.
Qed.
Lemma picked_held (own : bytes -> option secret) P asked found : picked P asked found -> (forall i, In i found <-> In i asked /\ exists s, own i = Some s) ->
  picked (fun k => own k <> None) asked found.
Proof.
  intros PK FO.
  assert (Q : forall x, In x asked -> (P x <-> own x <> None)).
  { intros x I. split.
    - intros Px. assert (IF : In x found). { clear FO. induction PK; cbn in *; auto. - destruct I as [<-|I]; auto. - destruct I as [<-|I]; auto. contradiction. }
      apply FO in IF as [_ (s & ->)]. discriminate.
    - intros N. assert (IF : In x found) by (apply FO; split; auto; destruct (own x); eauto; congruence).
      clear - PK IF. induction PK; cbn in *; auto; [tauto|]. destruct IF as [<-|I]; auto. }
  clear FO. induction PK as [|x l l' Px PK IH|x l l' N PK IH]; [constructor| |].
  - apply picked_keep; [apply Q; cbn; auto|]. apply IH. intros; apply Q; now right.
  - apply picked_skip; [intros O; apply N, Q; cbn; auto|]. apply IH. intros; apply Q; now right.
Qed.
Lemma first_with_iff {A} (P Q : A -> Prop) l x : (forall y, P y <-> Q y) -> first_with P l x -> first_with Q l x.
Proof. intros H (l1 & l2 & E & Px & F). exists l1, l2. split; auto. split; [now apply H|]. intros y I Qy. apply (F y I). now apply H. Qed.

(** ** The packing theorems *)
Section Pack.
Context (C : crypto).
Lemma outer_onion to from o msg tr text fk kids : outer_stage C to from o msg tr text fk kids -> onion C (draws tr) msg text.
Proof.
  unfold outer_stage. destruct from as [f|].
  - intros (k & H & _). apply authcrypt_inv in H as (did & doc & fdid & fdoc & asked & found & sec & sk & ka & rs & e1 & e2 & e3 & ct & tag & t1 & rest & _ & _ & -> & _ & _ & _ & S & P).
    cbn. eapply onion_seal; [exact S|]. destruct (po_protect_sender o).
    + destruct P as (ce & enc & f1 & f2 & f3 & ct' & tag' & _ & -> & S'). cbn. eapply onion_seal; [exact S'|]. constructor.
    + destruct P as [-> ->]. constructor.
  - intros (H & _). apply anoncrypt_inv in H as (did & doc & ka & rs & ce & enc & e1 & e2 & e3 & ct & tag & _ & -> & _ & _ & S).
    cbn. eapply onion_seal; [exact S|]. constructor.
Qed.
Lemma onion_app ds1 t1 t2 : onion C ds1 t1 t2 -> forall ds2 t3, onion C ds2 t2 t3 -> onion C (ds1 ++ ds2) t1 t3.
Proof.
  induction 1; intros ds2 t3 H2; cbn [app]; auto.
  - eapply onion_seal; [eassumption|]. auto.
  - eapply onion_forward; [eassumption|]. auto.
Qed.
Lemma wrapped_onion msg to o tr w text text2 : exec (wrap_if_needed C msg to o) tr (Ok w) ->
  match w with Some (fwd, sm) => text = fwd /\ text2 = Some sm | None => text = msg /\ text2 = @None service_metadata end ->
  onion C (draws tr) msg text /\ (text2 = None -> text = msg).
Proof.
  intros H M. apply wrap_inv in H. destruct w as [[fwd sm]|]; destruct M as [-> ->].
  - split; auto. discriminate.
  - rewrite H. split; auto. constructor.
Qed.
Lemma written_draws m sb tr msg skid : written C m sb tr msg skid -> draws tr = [] /\ rotation_ok C tr m.
Proof.
  unfold written. destruct sb as [s|].
  - intros (kid & H & _). apply pack_signed_inv in H as (did & doc & asked & found & sec & a & k & alg & trp & _ & _ & -> & _ & _ & _ & _ & P & _).
    apply pack_plaintext_inv in P as (_ & D & R). split; [exact D|]. revert R. apply rotation_ok_incl. intros x I. cbn. auto.
  - intros (H & _). apply pack_plaintext_inv in H as (_ & D & R). auto.
Qed.

Lemma fresh m to from sb o tr text pm : exec (pack_encrypted C m to from sb o) tr (Ok (text, pm)) ->
  exists tr1 tr2 msg, tr = tr1 ++ tr2 /\ written C m sb tr1 msg (pm_sign_by_kid pm) /\ draws tr1 = [] /\ onion C (draws tr2) msg text.
Proof.
  intros H. apply pack_encrypted_inv in H as (tr1 & tr2 & tr3 & msg & text2 & w & -> & V & I & O & W & P).
  exists tr1, (tr2 ++ tr3), msg. split; auto. split; auto. split; [eapply written_draws; eauto|]. rewrite draws_app.
  eapply onion_app; [eapply outer_onion; eauto|]. eapply wrapped_onion; eauto.
Qed.
Lemma rotations m to from sb o tr text pm : exec (pack_encrypted C m to from sb o) tr (Ok (text, pm)) -> rotation_ok C tr m.
Proof.
  intros H. apply pack_encrypted_inv in H as (tr1 & tr2 & tr3 & msg & text2 & w & -> & V & I & O & W & P).
  apply written_draws in I as [_ R]. revert R. apply rotation_ok_incl. intros x I. apply in_or_app. auto.
Qed.
Lemma anon_chooses m to sb o tr text pm : exec (pack_encrypted C m to None sb o) tr (Ok (text, pm)) ->
  exists did doc ka rs ce enc e1 e2 e3 pt ct tag text1 ds, did_part to did /\ In (Ev (OResolve did) (Ok (Some doc))) tr
    /\ anon_keys C to doc ka (pm_to_kids pm) rs /\ pm_from_kid pm = None /\ enc_of enc ce (po_enc_alg_anon o)
    /\ seals C ce KdfEs ka EcdhEsA256kw enc None rs e1 e2 e3 pt ct tag text1
    /\ onion C ds text1 text /\ (pm_service pm = None -> text = text1).
Proof.
  intros H. apply pack_encrypted_inv in H as (tr1 & tr2 & tr3 & msg & text2 & w & -> & V & I & (O & FK) & W & P).
  apply anoncrypt_inv in O as (did & doc & ka & rs & ce & enc & e1 & e2 & e3 & ct & tag & DP & -> & AK & EN & S).
  pose proof (wrapped_onion _ _ _ _ _ _ _ W P) as [ON SM].
  exists did, doc, ka, rs, ce, enc, e1, e2, e3, msg, ct, tag, text2, (draws tr3). split; auto. split; [apply in_or_app; right; now left|]. auto 10.
Qed.
Lemma auth_chooses m to from sb o tr text pm : exec (pack_encrypted C m to (Some from) sb o) tr (Ok (text, pm)) ->
  exists did doc fdid fdoc asked found fk sec sk ka rs e1 e2 e3 pt ct tag text1 text2 ds, did_part to did /\ did_part from fdid
    /\ In (Ev (OResolve did) (Ok (Some doc))) tr /\ In (Ev (OResolve fdid) (Ok (Some fdoc))) tr
    /\ In (Ev (OFindSecrets asked) (Ok found)) tr /\ wanted from (doc_key_agreement fdoc) asked
    /\ pm_from_kid pm = Some fk /\ auth_keys C fdoc found to doc ka fk (pm_to_kids pm) rs
    /\ In (Ev (OGetSecret fk) (Ok (Some sec))) tr /\ sec_key_pair C sec = Ok (ka, sk)
    /\ seals C CA256CbcHs512 Kdf1pu ka Ecdh1puA256kw A256cbcHs512 (Some (fk, sk)) rs e1 e2 e3 pt ct tag text1
    /\ (if po_protect_sender o then exists ce enc f1 f2 f3 ct' tag', enc_of enc ce (po_enc_alg_anon o)
             /\ seals C ce KdfEs ka EcdhEsA256kw enc None rs f1 f2 f3 text1 ct' tag' text2
        else text2 = text1)
    /\ onion C ds text2 text /\ (pm_service pm = None -> text = text2).
Proof.
  intros H. apply pack_encrypted_inv in H as (tr1 & tr2 & tr3 & msg & text2 & w & -> & V & I & (fk & O & FK) & W & P).
  apply authcrypt_inv in O as (did & doc & fdid & fdoc & asked & found & sec & sk & ka & rs & e1 & e2 & e3 & ct & tag & t1 & rest & DT & DF & -> & WA & AK & KP & S & PR).
  pose proof (wrapped_onion _ _ _ _ _ _ _ W P) as [ON SM].
  exists did, doc, fdid, fdoc, asked, found, fk, sec, sk, ka, rs, e1, e2, e3, msg, ct, tag, t1, text2, (draws tr3).
  assert (L : forall x l, In x l -> In x (tr1 ++ l ++ tr3)) by (intros x l II; apply in_or_app; right; apply in_or_app; now left).
  repeat (split; [first [assumption|apply L; cbn; tauto]|]). split; [|auto].
  destruct (po_protect_sender o); [|tauto]. destruct PR as (ce & enc & f1 & f2 & f3 & ct' & tag' & EN & _ & S'). exists ce, enc, f1, f2, f3, ct', tag'. auto.
Qed.
Lemma auth_first dir own fdoc asked found to doc ka fk kids rs tr : auth_keys C fdoc found to doc ka fk kids rs ->
  In (Ev (OFindSecrets asked) (Ok found)) tr -> Forall (answers dir own) tr -> Forall in_order tr ->
  exists all, wanted to (doc_key_agreement doc) all /\ first_with (fun k => own k <> None /\ shares fdoc doc all k) asked fk.
Proof.
  intros (all & WL & FW & _) I A O. exists all. split; auto. rewrite Forall_forall in A, O. apply A in I as A'. apply O in I as (P & PK).
  cbn in A'. destruct A' as (fo & E & FO). injection E as <-. eapply picked_first; [|exact FW]. eapply picked_held; eauto.
Qed.
End Pack.
Lemma pack_anon_works C dir own m to o : msg_from_prior m = None -> ~ refused m to None None -> po_forward o = false ->
  safe (answers dir own) (anoncrypt C to (message_text m) (po_enc_alg_anon o)) (fun r => exists t, r = Ok t) ->
  safe (answers dir own) (pack_encrypted C m to None None o) (fun r => exists t, r = Ok t).
Proof.
  intros MP NR F S. unfold pack_encrypted. destruct (validate_cases m to None None) as [[E _]|[_ R]]; [|contradiction].
  apply (safe_ret _ _ tt); [exact E|]. rewrite (unsigned_plain C m MP). apply (safe_then _ _ (message_text m, None)); [reflexivity|]. cbv beta iota.
  eapply safe_bind with (R := fun r => exists t, r = Ok t).
  - eapply safe_bind; [exact S|]. intros x ([t k] & ->). cbn. eauto.
  - intros x ([[t k] l] & ->). unfold wrap_if_needed. rewrite F. cbn. eauto.
Qed.
