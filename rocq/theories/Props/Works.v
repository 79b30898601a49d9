(** Packing succeeds. *)
From Verif.Model Require Import Prelude Utf8 Base64 Json Serde DidDoc Crypto Keys Effects Jws Jwe Message FromPrior Pack Routing Unpack.
From Verif.Spec Require Import Codec Small Events Toy World Packing Accept Works.
From Verif.Proofs Require Import Lib SmallP NoPanic RoundP ToyP RejectP RouteP AcceptP WorksP.
From Verif.Props Require Import RoundTrip Pack Accept.

(** C61.  A plaintext is written, in every execution: with a rotation when that is
    valid and consistent. *)
Theorem C61_plaintext_packs : forall C dir own m tr r, rotation_ready C dir m ->
  exec (pack_plaintext C m) tr r -> Forall (answers dir own) tr -> exists text, r = Ok text.
Proof. intros C dir own m tr r R H A. exists (message_text m). exact (safe_exec _ _ _ _ _ (plaintext_works C dir own m R) H A). Qed.
Print Assumptions C61_plaintext_packs.
(** A message is signed when its signer's document resolves and a secret is held. *)
Theorem C61_signed_packs : forall C pair dir own m by_ tr r, working C pair -> secrets_match C pair dir own ->
  rotation_ready C dir m -> signer_ready dir own by_ ->
  exec (pack_signed C m by_) tr r -> Forall (answers dir own) tr -> exists text kid, r = Ok (text, kid).
Proof.
  intros C pair dir own m by_ tr r W S R SR H A. destruct (safe_exec _ _ _ _ _ (signed_works C pair W dir own S m by_ R SR) H A) as ([t k] & ->). eauto.
Qed.
Print Assumptions C61_signed_packs.
(** A rotation is signed likewise. *)
Theorem C61_token_packs : forall C pair dir own p ik tr r, working C pair -> secrets_match C pair dir own ->
  token_ready dir own p ik -> exec (from_prior_pack C p ik) tr r -> Forall (answers dir own) tr -> exists jwt kid, r = Ok (jwt, kid).
Proof.
  intros C pair dir own p ik tr r W S R H A. destruct (safe_exec _ _ _ _ _ (token_works C pair W dir own S p ik R) H A) as ([t k] & ->). eauto.
Qed.
Print Assumptions C61_token_packs.
(** A message is encrypted, anonymously or not, signed or not, for any route. *)
Theorem C61_encrypted_packs : forall C pair dir own m to from sign_by o tr r,
  lawful C pair -> working C pair -> directory dir -> secrets_match C pair dir own ->
  rotation_ready C dir m -> ~ refused m to from sign_by -> (forall s, sign_by = Some s -> signer_ready dir own s) ->
  match from with None => recipient_ready C dir to | Some f => pair_ready C dir own f to end -> way_ready C dir to o ->
  exec (pack_encrypted C m to from sign_by o) tr r -> Forall (answers dir own) tr -> exists text pm, r = Ok (text, pm).
Proof.
  intros C pair dir own m to from sign_by o tr r L W D S R NR SR KR WR H A.
  destruct (safe_exec _ _ _ _ _ (encrypted_works C pair L W dir D own S m to from sign_by o R NR SR KR WR) H A) as ([t k] & ->). eauto.
Qed.
Print Assumptions C61_encrypted_packs.

(** The toy world: Alice sends a signed message to Bob, through his two mediators. *)
Lemma toy_works : working toy toy_pair.
Proof. split; [exact toy_seals|]. split; intros; discriminate. Qed.
Ltac nohash := cbn; intuition discriminate.
(** [k] is the [n]th entry of the document. *)
Lemma nth_entry doc n vm kid : nth_error (doc_verification_method doc) n = Some vm -> vm_id vm = kid ->
  forallb (fun v => negb (beq (vm_id v) kid)) (firstn n (doc_verification_method doc)) = true ->
  first_with (fun v => vm_id v = kid) (doc_verification_method doc) vm.
Proof.
  intros N K F. exists (firstn n (doc_verification_method doc)), (skipn (S n) (doc_verification_method doc)). split.
  - rewrite <- (firstn_skipn n (doc_verification_method doc)) at 1. f_equal. clear F. revert n N. induction (doc_verification_method doc) as [|v l IH]; intros [|n] N; try discriminate.
    + cbn in N. injection N as ->. reflexivity.
    + cbn [skipn]. now apply IH.
  - split; auto. intros y I E. rewrite forallb_forall in F. apply F in I. rewrite E, beq_refl in I. discriminate.
Qed.
Ltac entry n := eexists; split; [refine (nth_entry _ n _ _ _ _ _); reflexivity|vm_compute; reflexivity].
Lemma bob_way : way_ready toy dir (B "did:ex:bob") default_pack_options.
Proof.
  right. right. destruct C28_case as (_ & _ & _ & _ & _ & _ & R). eexists _, _, _. split; [exact R|]. constructor; [|constructor; [|constructor]].
  - exists (B "did:ex:med1"), doc_med1, [B "did:ex:med1#x"], (B "did:ex:med1#x"), KX25519.
    split; [right; split; [nohash|reflexivity]|]. split; [reflexivity|]. split; [right; split; [nohash|reflexivity]|].
    assert (OC : on_curve doc_med1 KX25519 (B "did:ex:med1#x")) by entry 0.
    split. { intros k [<-|[]]. eauto. }
    split. { exists [], []. split; [reflexivity|]. split; [|intros y []]. intros (vm & F & K). destruct OC as (vm' & F' & K'). rewrite (PackP.first_with_fun _ _ _ _ F F') in K. congruence. }
    split; [exact OC|]. split; [left; reflexivity|]. intros k [<-|[]] _. exists (B "m1"). split; [left; reflexivity|]. entry 0.
  - exists (B "did:ex:med2"), doc_med2, [B "did:ex:med2#x"], (B "did:ex:med2#x"), KX25519.
    split; [left; exists (B "x"); split; [reflexivity|nohash]|]. split; [reflexivity|].
    split; [left; split; [cbn; tauto|]; apply picked_keep; [reflexivity|constructor]|].
    assert (OC : on_curve doc_med2 KX25519 (B "did:ex:med2#x")) by entry 0.
    split. { intros k [<-|[]]. eauto. }
    split. { exists [], []. split; [reflexivity|]. split; [|intros y []]. intros (vm & F & K). destruct OC as (vm' & F' & K'). rewrite (PackP.first_with_fun _ _ _ _ F F') in K. congruence. }
    split; [exact OC|]. split; [left; reflexivity|]. intros k [<-|[]] _. exists (B "m2"). split; [left; reflexivity|]. entry 0.
Qed.
Lemma alice_signs : signer_ready dir alice (B "did:ex:alice").
Proof.
  exists (B "did:ex:alice"), doc_alice, (doc_authentication doc_alice).
  split; [exists (B "ex"), (B "alice"); reflexivity|]. split; [right; split; [nohash|reflexivity]|]. split; [reflexivity|]. split; [left; split; [nohash|reflexivity]|].
  split; [exists (B "did:ex:alice#e"), (sec_jwk "did:ex:alice#e" KEd25519 "ae"); split; [left; reflexivity|reflexivity]|].
  intros k [<-|[<-|[]]] O; [|now destruct O]. exists KEd25519. split; [entry 2|left; reflexivity].
Qed.
Lemma alice_to_bob : pair_ready toy dir alice (B "did:ex:alice") (B "did:ex:bob").
Proof.
  exists (B "did:ex:bob"), doc_bob, (B "did:ex:alice"), doc_alice, (doc_key_agreement doc_alice), (doc_key_agreement doc_bob).
  split; [right; split; [nohash|reflexivity]|]. split; [reflexivity|]. split; [right; split; [nohash|reflexivity]|]. split; [reflexivity|].
  split; [right; split; [nohash|reflexivity]|]. split; [right; split; [nohash|reflexivity]|].
  assert (A1 : on_curve doc_alice KX25519 (B "did:ex:alice#x")) by entry 0. assert (A2 : on_curve doc_alice KP256 (B "did:ex:alice#p")) by entry 1.
  assert (B1 : on_curve doc_bob KX25519 (B "did:ex:bob#x1")) by entry 0. assert (B2 : on_curve doc_bob KP256 (B "did:ex:bob#p")) by entry 1.
  assert (B3 : on_curve doc_bob KX25519 (B "did:ex:bob#x2")) by entry 2.
  assert (FN : forall doc k a b, on_curve doc a k -> on_curve doc b k -> a = b).
  { intros doc k a b (vm & F & <-) (vm' & F' & <-). now rewrite (PackP.first_with_fun _ _ _ _ F F'). }
  split. { intros k [<-|[<-|[]]]; eauto. } split. { intros k [<-|[<-|[<-|[]]]]; eauto. }
  split. { exists (B "did:ex:alice#x"). split; [left; reflexivity|]. split; [discriminate|]. exists KX25519. split; [left; reflexivity|]. split; [exact A1|].
    exists (B "did:ex:bob#x1"). split; [left; reflexivity|exact B1]. }
  split. { intros k k' a [<-|[<-|[]]] _ OC _ _; right; [rewrite (FN _ _ _ _ OC A1); now left|rewrite (FN _ _ _ _ OC A2); now right]. }
  intros k a [<-|[<-|[<-|[]]]] OC _.
  - rewrite (FN _ _ _ _ OC B1). exists (B "bx1"). split; [cbn; auto|]. entry 0.
  - rewrite (FN _ _ _ _ OC B2). exists (B "bp"). split; [cbn; auto|]. entry 1.
  - rewrite (FN _ _ _ _ OC B3). exists (B "bx2"). split; [cbn; auto|]. entry 2.
Qed.
Example C61_case : rotation_ready toy dir toy_msg /\ ~ refused toy_msg (B "did:ex:bob") (Some (B "did:ex:alice")) (Some (B "did:ex:alice"))
  /\ (exists pm, pm_of (run (toy_env toy_docs sec_alice) (pack_encrypted toy toy_msg (B "did:ex:bob") (Some (B "did:ex:alice")) (Some (B "did:ex:alice")) default_pack_options)) = Some pm)
  /\ token_ready dir alice (fpb_new (B "did:ex:alice") (B "did:ex:alice2")) (Some (B "did:ex:alice#e")).
Proof.
  split; [intros jwt E; discriminate E|]. split.
  { destruct (validate_cases toy_msg (B "did:ex:bob") (Some (B "did:ex:alice")) (Some (B "did:ex:alice"))) as [[_ N]|[E _]]; [exact N|]. vm_compute in E. discriminate E. }
  split. { eexists. vm_compute. reflexivity. }
  split; [exists (B "ex"), (B "alice"); reflexivity|]. split; [nohash|]. split; [exists (B "ex"), (B "alice2"); reflexivity|]. split; [nohash|]. split; [discriminate|].
  exists doc_alice, [B "did:ex:alice#e"]. split; [reflexivity|]. split; [|split; [exists (B "e"); split; [reflexivity|nohash]|split; [cbn; auto|reflexivity]]].
  split; [exists (B "did:ex:alice#e"), (sec_jwk "did:ex:alice#e" KEd25519 "ae"); split; [left; reflexivity|reflexivity]|].
  intros k [<-|[]] O. exists KEd25519. split; [entry 2|left; reflexivity].
Qed.
