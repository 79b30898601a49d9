(** Authenticated encryption convinces the recipient and nobody else: the recipient could
    have written everything the sender wrote. *)
From Verif.Model Require Import Prelude Utf8 Base64 Json Serde DidDoc Crypto Keys Effects Jws Jwe Message FromPrior Pack Routing Unpack.
From Verif.Spec Require Import Codec Small Events Toy World Accept Deny.
From Verif.Proofs Require Import Lib RoundP ToyP DenyP.
From Verif.Props Require Import RoundTrip.

(** C88.  Whoever holds the secrets [own'] of all recipient keys can write the text that
    pack_encrypted made with a sender, byte for byte, using these secrets, public keys and
    the same random bytes: the authcrypt envelope as [self_written] (Spec/Deny.v), and
    with protect_sender an anoncrypt envelope of it, for which public keys suffice. *)
Theorem C88_deniable : forall C pair dir own own' m to from sign_by po tr text pm,
  lawful C pair -> secrets_match C pair dir own -> secrets_match C pair dir own' ->
  exec (pack_encrypted C m to (Some from) sign_by po) tr (Ok (text, pm)) -> Forall (answers dir own) tr -> pm_service pm = None ->
  (forall kid, In kid (pm_to_kids pm) -> own' kid <> None) ->
  exists fkid fpub ka mine pt e1 e2 e3 inner,
    pm_from_kid pm = Some fkid /\ sender_public C dir ka fkid fpub /\ held_keys C own' ka (pm_to_kids pm) mine
    /\ carried_text C tr m sign_by pt
    /\ drawn tr (RCek CA256CbcHs512) e1 /\ drawn tr (REpk ka) e2 /\ drawn tr (RNonce CA256CbcHs512) e3
    /\ self_written C ka fkid fpub mine pt e1 e2 e3 = Some inner
    /\ (if po_protect_sender po
        then exists rs tr2, map fst rs = pm_to_kids pm /\ Forall (fun r => sender_public C dir ka (fst r) (snd r)) rs
               /\ exec (anon_encrypt C ka (po_enc_alg_anon po) inner rs) tr2 (Ok text)
        else text = inner).
Proof. intros C pair dir own own' m to from sign_by po tr text pm L. exact (pack_self C pair L dir own own' m to from sign_by po tr text pm). Qed.
Print Assumptions C88_deniable.

(** C88.  Envelopes so written are accepted: any message of the recipient's choice under
    the name of anybody who published a key on the same curve, reported as authenticated
    and never as non-repudiable. *)
Theorem C88_self_accepted : forall C pair dir own ka from fpub kids mine m e1 e2 e3 text fuel o tr x,
  lawful C pair -> directory dir ->
  message_fits C m -> msg_from_prior m = None -> kids <> [] -> ka = KX25519 \/ ka = KP256 ->
  agreement_keys dir kids -> held_keys C own ka kids mine -> sender_public C dir ka from fpub ->
  self_written C ka from fpub mine (message_text m) e1 e2 e3 = Some text ->
  exec (unpack C (S fuel) text o) tr x -> Forall (answers dir own) tr ->
  x = Some (Ok (m, metadata None (Some (kids, from)) None None)).
Proof. intros C pair dir own ka from fpub kids mine m e1 e2 e3 text fuel o tr x L D. exact (self_accepted C pair L dir D own ka from fpub kids mine m e1 e2 e3 text fuel o tr x). Qed.
Print Assumptions C88_self_accepted.

(** Alice packs for Bob's two keys, and Bob writes the same text. *)
Definition open_opts : pack_options := mkPO false false None None AuthA256cbcHs512 AnonXc20p.
Definition bob_mine : list (bytes * key toy) := [(B "did:ex:bob#x1", B "bx1"); (B "did:ex:bob#x2", B "bx2")].
Definition alice_packs : prog (res (bytes * pack_metadata)) := pack_encrypted toy rich_msg (B "did:ex:bob") (Some (B "did:ex:alice")) None open_opts.
Definition bob_writes : option bytes :=
  self_written toy KX25519 (B "did:ex:alice#x") (B "ax") bob_mine (message_text rich_msg)
    (toy_rand (RCek CA256CbcHs512)) (toy_rand (REpk KX25519)) (toy_rand (RNonce CA256CbcHs512)).
Example C88_case : secrets_match toy toy_pair dir alice /\ secrets_match toy toy_pair dir bob
  /\ (exists tr r pm, by_alice alice_packs tr r /\ pm_of r = Some pm /\ pm_service pm = None
       /\ forall kid, In kid (pm_to_kids pm) -> bob kid <> None)
  /\ bob_writes <> None
  /\ match run (toy_env toy_docs sec_alice) alice_packs with Ok (t, _) => Some t | _ => None end = bob_writes.
Proof.
  split; [apply toy_world|]. split; [apply toy_world|]. split.
  - assert (E : exists pm, pm_of (run (toy_env toy_docs sec_alice) alice_packs) = Some pm /\ pm_service pm = None
      /\ pm_to_kids pm = [B "did:ex:bob#x1"; B "did:ex:bob#x2"]) by (eexists; vm_compute; auto).
    destruct E as (pm & E & E1 & E2). destruct (alice_gets _ _ _ E) as (tr & r & R & F). exists tr, r, pm.
    split; [exact R|]. split; [exact F|]. split; [exact E1|]. rewrite E2. intros kid [<-|[<-|[]]]; vm_compute; discriminate.
  - split; vm_compute; [discriminate|reflexivity].
Qed.
Example C88_accepted_case : message_fits toy rich_msg /\ agreement_keys dir (map fst bob_mine)
  /\ held_keys toy bob KX25519 (map fst bob_mine) bob_mine /\ sender_public toy dir KX25519 (B "did:ex:alice#x") (B "ax")
  /\ exists text, bob_writes = Some text
       /\ ok_part (fun r => (um_authenticated (snd r), um_encrypted_from_kid (snd r), um_non_repudiation (snd r)))
            (toy_unpack sec_bob text default_unpack_options) = Some (true, Some (B "did:ex:alice#x"), false).
Proof.
  split; [exact rich_fits|]. split.
  { exists (B "did:ex:bob"), doc_bob. split; [vm_compute; reflexivity|]. intros k [<-|[<-|[]]]; vm_compute; auto. }
  split.
  { apply Forall2_cons; [|apply Forall2_cons; [|constructor]]; (split; [reflexivity|]).
    - exists (sec_jwk "did:ex:bob#x1" KX25519 "bx1"). split; vm_compute; reflexivity.
    - exists (sec_jwk "did:ex:bob#x2" KX25519 "bx2"). split; vm_compute; reflexivity. }
  split.
  { exists (B "did:ex:alice"), doc_alice. split; [vm_compute; reflexivity|]. split; [vm_compute; auto|].
    eexists. split; [exists []; eexists; split; [reflexivity|split; [reflexivity|intros ? []]]|vm_compute; reflexivity]. }
  eexists. split; [vm_compute; reflexivity|]. vm_compute. reflexivity.
Qed.
