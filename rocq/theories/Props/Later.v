(** Does a message that could be read stay readable when DID documents change? *)
From Verif.Model Require Import Prelude Utf8 Base64 Json Serde DidDoc Crypto Keys Effects Jws Jwe Message FromPrior Pack Routing Unpack.
From Verif.Spec Require Import Codec Small Events Toy World Accept Later.
From Verif.Proofs Require Import Lib SmallP NoPanic RoundP ToyP AcceptP ExactP LaterP.
From Verif.Props Require Import RoundTrip.

(** C102.  A message that was read with the DID documents [dir] can be read later, with
    [dir'], and unpack says the same of it, provided that the keys which the metadata name
    (of the sender, of the signer, of the issuer of a rotation) are still published and,
    when forwards are unwrapped, that the DIDs with a key of ours are the same.  Missing:
    messages whose sender or signer withdrew the key, which cannot be read any more
    (below). *)
Theorem C102_read_again_partial : forall C own dir dir' fuel text o tr m md,
  exec (unpack C fuel text o) tr (Some (Ok (m, md))) -> Forall (answers dir own) tr ->
  keys_stay C dir dir' md -> (uo_unwrap o = true -> still_ours own dir dir') ->
  exists tr', exec (unpack C fuel text o) tr' (Some (Ok (m, md))) /\ Forall (answers dir' own) tr'.
Proof.
  intros C own dir dir' fuel text o tr m md X F K S. apply (accepted_iff C dir' own).
  destruct (acceptable_sound C dir own _ _ _ _ _ _ X F) as (n & LT & H). exists n. split; [exact LT|]. now apply (carries_later C own dir dir').
Qed.
Print Assumptions C102_read_again_partial.
(** C102.  It will be read then, whatever the order in which keys are tried, if it could
    be with each of the keys held (C60). *)
Theorem C102_valid_again_partial : forall C own dir dir' o n text m md fuel tr x,
  valid C dir own o n text m md -> keys_stay C dir dir' md -> (uo_unwrap o = true -> still_ours own dir dir') -> n < fuel ->
  exec (unpack C fuel text o) tr x -> Forall (answers dir' own) tr -> x = Some (Ok (m, md)).
Proof.
  intros C own dir dir' o n text m md fuel tr x V K S LT X F.
  refine (safe_exec _ _ _ _ _ (valid_accepted C dir' own o n text m md fuel _ LT) X F). now apply (carries_later C own dir dir').
Qed.
Print Assumptions C102_valid_again_partial.
(** C102.  So publishing more keys does no harm... *)
Theorem C102_more_keys : forall C own dir dir' o n text m md fuel tr x,
  valid C dir own o n text m md -> grown_for own dir dir' -> n < fuel ->
  exec (unpack C fuel text o) tr x -> Forall (answers dir' own) tr -> x = Some (Ok (m, md)).
Proof.
  intros C own dir dir' o n text m md fuel tr x V G. destruct (grown_stay C own dir dir' md G) as [K S].
  exact (C102_valid_again_partial C own dir dir' o n text m md fuel tr x V K (fun _ => S)).
Qed.
Print Assumptions C102_more_keys.
(** ... and an anonymous, unsigned message without a rotation can be read whatever becomes
    of the documents, when forwards are not unwrapped. *)
Theorem C102_anonymous : forall C own dir dir' fuel text o tr m md,
  exec (unpack C fuel text o) tr (Some (Ok (m, md))) -> Forall (answers dir own) tr ->
  um_authenticated md = false -> um_from_prior md = None -> uo_unwrap o = false ->
  exists tr', exec (unpack C fuel text o) tr' (Some (Ok (m, md))) /\ Forall (answers dir' own) tr'.
Proof.
  intros C own dir dir' fuel text o tr m md X F A P U. apply (C102_read_again_partial C own dir dir' fuel text o tr m md X F); [|congruence].
  destruct (acceptable_sound C dir own _ _ _ _ _ _ X F) as (n & _ & (rew & anon & auth & sign & prior & t1 & t2 & t3 & _ & _ & _ & _ & _ & _ & E)).
  subst md. cbn in A, P. destruct auth; [discriminate A|]. destruct sign; [discriminate A|]. destruct prior; [discriminate P|].
  split; cbn; [discriminate|]. intros kid [E|E]; discriminate E.
Qed.
Print Assumptions C102_anonymous.

(** Alice and Bob publish one more key each, in front of the others. *)
Definition doc_alice_later : diddoc :=
  mkDoc (B "did:ex:alice") (B "did:ex:alice#new" :: doc_key_agreement doc_alice) (B "did:ex:alice#new-e" :: doc_authentication doc_alice)
    (vm_jwk "did:ex:alice#new" KX25519 "an" :: vm_jwk "did:ex:alice#new-e" KEd25519 "ane" :: doc_verification_method doc_alice) [].
Definition doc_bob_later : diddoc :=
  mkDoc (B "did:ex:bob") (B "did:ex:bob#new" :: doc_key_agreement doc_bob) (doc_authentication doc_bob) (vm_jwk "did:ex:bob#new" KX25519 "bn" :: doc_verification_method doc_bob) [].
Definition later_docs : list diddoc := [doc_bob_later; doc_alice_later; doc_med1; doc_med2].
Definition from_alice : bytes := Eval vm_compute in toy_pack (Some (B "did:ex:alice")) (Some (B "did:ex:alice")) true false.
Lemma grown_self doc : grown doc doc.
Proof. split; [|split]; [apply incl_refl|apply incl_refl|auto]. Qed.
Lemma first_skip {A} (P : A -> Prop) y l x : (P x -> ~ P y) -> first_with P l x -> first_with P (y :: l) x.
Proof.
  intros N (l1 & l2 & -> & H & F). exists (y :: l1), l2. split; [reflexivity|]. split; [exact H|]. intros z [<-|I]; auto.
Qed.
Lemma first_in {A} (P : A -> Prop) l x : first_with P l x -> In x l /\ P x.
Proof. intros (l1 & l2 & -> & H & _). split; auto. apply in_or_app. right. now left. Qed.
Example C102_case : grown_for bob dir (dir_of later_docs)
  /\ exists md, toy_unpack sec_bob from_alice default_unpack_options = Some (Ok (toy_msg, md))
     /\ um_encrypted_from_kid md = Some (B "did:ex:alice#x") /\ um_sign_from md = Some (B "did:ex:alice#e")
     /\ run (toy_env later_docs sec_bob) (unpack toy 9 from_alice default_unpack_options) = Some (Ok (toy_msg, md)).
Proof.
  split; [|eexists; split; [vm_compute; reflexivity|split; [reflexivity|split; [reflexivity|vm_compute; reflexivity]]]].
  intros did doc D. apply dir_of_In in D as [I ->].
  destruct I as [<-|[<-|[<-|[<-|[]]]]].
  - exists doc_alice_later. split; [reflexivity|]. split.
    + split; [|split]; [intros k K; now right|intros k K; now right|].
      intros id vm F. pose proof (first_in _ _ _ F) as [J E].
      apply first_skip; [|apply first_skip; [|exact F]]; intros <- Y; clear F E;
        repeat (destruct J as [<-|J]; [vm_compute in Y; discriminate Y|]); destruct J.
    + intros k [<-|K]; [right; reflexivity|now left].
  - exists doc_bob_later. split; [reflexivity|]. split.
    + split; [|split]; [intros k K; now right| |].
      2:{ intros id vm F. pose proof (first_in _ _ _ F) as [J E].
        apply first_skip; [|exact F]; intros <- Y; clear F E;
          repeat (destruct J as [<-|J]; [vm_compute in Y; discriminate Y|]); destruct J. }
      intros k K. exact K.
    + intros k [<-|K]; [right; reflexivity|now left].
  - exists doc_med1. split; [reflexivity|]. split; [apply grown_self|]. intros k K. now left.
  - exists doc_med2. split; [reflexivity|]. split; [apply grown_self|]. intros k K. now left.
Qed.

(** C102 is false of a key that is withdrawn: the message that Bob could read cannot be
    read when Alice's document no longer lists the key, neither the authenticated nor the
    signed one, though Bob's keys are the same. *)
Definition without (kid : bytes) (doc : diddoc) : diddoc :=
  let drop := filter (fun k => negb (beq k kid)) in
  mkDoc (doc_id doc) (drop (doc_key_agreement doc)) (drop (doc_authentication doc)) (doc_verification_method doc) (doc_service doc).
Theorem C102_read_again_refuted : exists text signed md md',
  toy_unpack sec_bob text default_unpack_options = Some (Ok (toy_msg, md))
  /\ run (toy_env (map (without (B "did:ex:alice#x")) toy_docs) sec_bob) (unpack toy 9 text default_unpack_options) = Some (Err DIDUrlNotFound)
  /\ toy_unpack sec_bob signed default_unpack_options = Some (Ok (toy_msg, md'))
  /\ run (toy_env (map (without (B "did:ex:alice#e")) toy_docs) sec_bob) (unpack toy 9 signed default_unpack_options) = Some (Err DIDUrlNotFound).
Proof. exists from_alice, toy_signed. do 2 eexists. split; [vm_compute; reflexivity|]. split; [vm_compute; reflexivity|]. split; [vm_compute; reflexivity|]. vm_compute. reflexivity. Qed.
Print Assumptions C102_read_again_refuted.
