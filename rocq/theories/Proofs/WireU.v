(** Unpacking depends on what a text is read as. *)
From Verif.Model Require Import Prelude Utf8 Base64 Json Serde DidDoc Crypto Keys Effects Jws Jwe Message FromPrior Pack Routing Unpack.
From Verif.Spec Require Import Codec Small Events Names World Wire.
From Verif.Proofs Require Import Lib Base64P JsonP JsonDec SerdeP CodecP Errs GarbageP UnpackInv NamesP WireP ReadP ReadM.

Lemma read_as {A} fp d (f : raw -> res A) rd v a : reads fp d f rd -> json_tree fp d v -> (from_json f (print v) = Ok a <-> rd v a).
Proof. intros R T. rewrite from_json_print by (eapply wfv_printable, wf_of; eauto). now apply R. Qed.

Lemma jwe_unread fp d v : json_tree fp d v -> (forall j, ~ jwe_read v j) -> jwe_from_str (print v) = Err Malformed.
Proof.
  intros T N. pose proof (fun j => read_as _ _ _ _ v j (reads_jwe fp d) T) as K. unfold jwe_from_str in *.
  assert (Q : errs (fun k => k = Malformed) (from_json de_jwe (print v))).
  { apply print_errs; [eapply wfv_printable, wf_of; eauto|]. apply errs_jwe; auto. intros e []. }
  destruct (from_json de_jwe (print v)) as [j|k|]; cbn in Q; [exfalso; apply (N j); now apply K|now rewrite Q|contradiction].
Qed.
Lemma jws_unread fp d v : json_tree fp d v -> (forall j, ~ jws_read v j) -> jws_from_str (print v) = Err Malformed.
Proof.
  intros T N. pose proof (fun j => read_as _ _ _ _ v j (reads_jws fp d) T) as K. unfold jws_from_str in *.
  assert (Q : errs (fun k => k = Malformed) (from_json de_jws (print v))).
  { apply print_errs; [eapply wfv_printable, wf_of; eauto|]. apply errs_jws; auto. intros e []. }
  destruct (from_json de_jws (print v)) as [j|k|]; cbn in Q; [exfalso; apply (N j); now apply K|now rewrite Q|contradiction].
Qed.

Section Use.
Context (C : crypto).

Lemma same_jwe_rest t t' j b h o md : jwe_from_str t = Ok j -> jwe_from_str t' = Ok j ->
  b64dec (jwe_protected j) = Some b -> from_json (de_jwe_header C) b = Ok h -> ph_alg h = Ecdh1puA256kw ->
  forall tr x, exec (unpack_rest C t o md) tr x -> exec (unpack_rest C t' o md) tr x.
Proof.
  intros E E' P1 P2 A tr x H. unfold unpack_rest in *.
  assert (X : try_authcrypt C t' o md = try_authcrypt C t o md) by (unfold try_authcrypt; now rewrite E, E').
  rewrite X. apply exec_pbind in H. apply exec_pbind. destruct H as [(t1 & t2 & a & -> & H1 & H2)|[H|H]]; auto. left.
  exists t1, t2, a. split; auto. split; auto. destruct a as [[m d]|]; [exact H2|].
  apply try_authcrypt_None in H1 as [_ N]. exfalso. destruct N as [N|(j0 & h0 & EN & N3)]; [congruence|].
  destruct EN as (N1 & b0 & N2 & N4). rewrite E in N1. injection N1 as <-. rewrite P1 in N2. injection N2 as <-. rewrite P2 in N4. injection N4 as <-. contradiction.
Qed.
Lemma same_jwe_unpack t t' j b h o : jwe_from_str t = Ok j -> jwe_from_str t' = Ok j ->
  b64dec (jwe_protected j) = Some b -> from_json (de_jwe_header C) b = Ok h -> ph_alg h = EcdhEsA256kw \/ ph_alg h = Ecdh1puA256kw ->
  forall fuel tr x, exec (unpack C fuel t o) tr x -> exec (unpack C fuel t' o) tr x.
Proof.
  intros E E' P1 P2 A [|f] tr x H; [exact H|]. unfold unpack in *. cbn [unpack_loop] in *.
  assert (X : try_anoncrypt C t' o um_init = try_anoncrypt C t o um_init) by (unfold try_anoncrypt; now rewrite E, E').
  rewrite X. apply exec_bind in H as (t1 & t2 & r & -> & H1 & H2). apply exec_bind. exists t1, t2, r. split; auto. split; auto.
  destruct r as [[[pt md]|]| |]; auto.
  apply try_anoncrypt_None in H1 as [_ N].
  apply exec_bind in H2 as (t3 & t4 & r & -> & H3 & H4). apply exec_bind. exists t3, t4, r. split; auto. split; auto.
  destruct N as [N|(j0 & h0 & EN & N3)]; [congruence|].
  destruct EN as (N1 & b0 & N2 & N4). rewrite E in N1. injection N1 as <-. rewrite P1 in N2. injection N2 as <-. rewrite P2 in N4. injection N4 as <-.
  destruct A as [A|A]; [contradiction|]. exact (same_jwe_rest t t' j b h o um_init E E' P1 P2 A _ _ H3).
Qed.
(** The header cannot be read: the same error for both. *)
Lemma same_jwe_bad t t' j o : jwe_from_str t = Ok j -> jwe_from_str t' = Ok j -> (forall p, jwe_parse C j <> Ok p) ->
  forall fuel tr x, exec (unpack C fuel t o) tr x -> exec (unpack C fuel t' o) tr x.
Proof.
  intros E E' P [|f] tr x H; [exact H|]. unfold unpack in *. cbn [unpack_loop] in *. unfold try_anoncrypt in *. rewrite E in H. rewrite E'.
  cbn [soft pbind bind] in *. destruct (jwe_parse C j) as [p| |]; [destruct (P p); auto|exact H|exact H].
Qed.

Lemma spelled_plain d v m fuel o tr x : json_tree (fparse C) d v -> d <= 127 -> message_read v m ->
  msg_typ m = B "application/didcomm-plain+json" -> msg_from_prior m = None ->
  (forall j, ~ jwe_read v j) -> (forall j, ~ jws_read v j) ->
  exec (unpack C (S fuel) (print v) o) tr x ->
  tr = [] /\ exists m', same_message m m' /\ x = Some (Ok (m', metadata None None None None)).
Proof.
  intros T L R TY FP N1 N2 H.
  assert (T' : json_tree (fparse C) 127 v). { clear -T L. induction L; auto. now apply tree_up. }
  destruct (message_complete _ v m T' R) as (m' & D & S).
  assert (PR : printable v) by (eapply wfv_printable, wf_of; eauto).
  assert (E1 := jwe_unread _ _ _ T N1). assert (E2 := jws_unread _ _ _ T N2).
  unfold unpack in H. cbn [unpack_loop] in H. unfold try_anoncrypt in H. rewrite E1 in H. cbn [soft pbind bind] in H.
  unfold unpack_rest, try_authcrypt in H. rewrite E1 in H. cbn [soft pbind bind] in H. unfold try_sign in H. rewrite E2 in H. cbn [soft pbind bind] in H.
  unfold try_plaintext, message_from_str in H. rewrite from_json_print in H by auto. rewrite D in H. cbn [soft pbind bind] in H.
  assert (TY' : msg_typ m' = plaintext_typ) by (destruct S as (_ & S & _); rewrite <- S; exact TY).
  assert (FP' : msg_from_prior m' = None). { destruct S as (_ & _ & _ & _ & _ & _ & _ & _ & _ & _ & S & _). now rewrite <- S. }
  unfold msg_validate in H. rewrite TY' in H. replace (beq plaintext_typ plaintext_typ) with true in H by reflexivity. cbn [negb pbind bind] in H.
  rewrite FP' in H. destruct H as [-> ->]. split; auto. exists m'. split; auto.
Qed.
Lemma unread_rejected d v fuel o tr x : json_tree (fparse C) d v -> d <= 127 ->
  (forall j, ~ jwe_read v j) -> (forall j, ~ jws_read v j) -> (forall m, ~ message_read v m) ->
  exec (unpack C (S fuel) (print v) o) tr x -> tr = [] /\ x = Some (Err Malformed).
Proof.
  intros T L N1 N2 N3 H.
  assert (T' : json_tree (fparse C) 127 v). { clear -T L. induction L; auto. now apply tree_up. }
  assert (E1 := jwe_unread _ _ _ T N1). assert (E2 := jws_unread _ _ _ T N2).
  assert (E3 : message_from_str (fparse C) (print v) = Err Malformed).
  { pose proof (message_sound (fparse C) v) as K. assert (PR : printable v) by (eapply wfv_printable, wf_of; eauto).
    assert (Q : errs (fun k => k = Malformed) (message_from_str (fparse C) (print v))).
    { apply print_errs; auto. apply errs_message; auto. intros e []. }
    unfold message_from_str in *. rewrite from_json_print in * by auto.
    destruct (de_message (fparse C) (raw_of v)) as [m|k|]; cbn in Q; [exfalso; apply (N3 m); auto|now rewrite Q|contradiction]. }
  assert (E : tr = [] /\ exists k, k = Malformed /\ x = Some (Err k)).
  { apply (reject_with C (fun k => k = Malformed) fuel (print v) o); auto; try (rewrite E1); try (rewrite E2); try (rewrite E3); cbn; auto; discriminate. }
  destruct E as (-> & k & -> & ->). auto.
Qed.
End Use.

(** Deciding [json_tree] when all numbers are naturals. *)
Fixpoint treeb (d : nat) (v : value) {struct v} : bool :=
  match v with
  | VNull | VBool _ => true
  | VNum (PosInt n) => (n <? u64_lim)%N
  | VNum _ => false
  | VStr s => utf8 s
  | VArr l => match d with S d' => forallb (treeb d') l | O => false end
  | VObj l => match d with S d' => forallb (fun kv => utf8 (fst kv) && treeb d' (snd kv)) l | O => false end
  end.
Lemma treeb_ok fp v : forall d, treeb d v = true -> json_tree fp d v.
Proof.
  induction v as [| b | n | s | l IH | l IH] using value_ind'; intros d H; cbn in H.
  - constructor.
  - constructor.
  - destruct n; try discriminate. constructor. apply N.ltb_lt in H. exact H.
  - now constructor.
  - destruct d as [|d]; [discriminate|]. constructor. rewrite forallb_forall in H. rewrite Forall_forall in IH. auto.
  - destruct d as [|d]; [discriminate|]. constructor. rewrite forallb_forall in H. rewrite Forall_forall in IH.
    intros k x I. specialize (H _ I). cbn in H. apply andb_prop in H as [H1 H2]. split; auto. apply (IH _ I). exact H2.
Qed.
