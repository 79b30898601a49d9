(** The standard ciphers in place of assumed ones. *)
From Verif.Model Require Import Prelude Utf8 Base64 Json Serde DidDoc Crypto Keys Effects Jws Jwe Message FromPrior Pack Routing Unpack.
From Verif.Spec Require Import Codec Small Events Toy World Packing Accept Works Size Bounds Ciphers Standard.
From Verif.Proofs Require Import Lib SmallP RoundP ToyP RouteP AcceptP WorksP StandardP.
From Verif.Props Require Import RoundTrip Pack Accept Works Size.

(** C103.  Encrypting with A256CBC-HS512, A256GCM or XC20P succeeds for every key and nonce of
    the right length and every text, and is undone by decrypting. *)
Theorem C103_ciphers : forall ce k n aad p, List.length k = cek_len ce -> List.length n = nonce_len ce ->
  exists c t, std_enc ce k n aad p = Some (c, t) /\ std_dec ce k n aad (c ++ t) = Some p.
Proof. intros ce k n aad p K N. destruct (enc_ok ce k n aad p K N) as (c & t & E & D & _). eauto. Qed.
Print Assumptions C103_ciphers.
(** A256KW wraps every content key, and is undone by unwrapping. *)
Theorem C103_key_wrap : forall ce kw cek, List.length cek = cek_len ce ->
  exists w, std_wrap kw cek = Some w /\ std_unwrap kw w = Some cek.
Proof.
  intros ce kw cek L. destruct (std_wrap kw cek) as [w|] eqn:E.
  - exists w. split; [reflexivity|]. now apply wrap_ok in E.
  - unfold std_wrap in E. rewrite (cek_wrappable ce cek L) in E. discriminate.
Qed.
Print Assumptions C103_key_wrap.
(** So the laws assumed in C01 to C05, C60 and elsewhere ([lawful]), in C61 ([working]) and in C99
    ([sized]) hold if they hold of keys, key agreement and signatures. *)
Theorem C103_lawful : forall C pair, keys_agree C pair -> lawful (standard C) pair.
Proof. exact standard_lawful. Qed.
Print Assumptions C103_lawful.
Theorem C103_working : forall C pair, keys_work C pair -> working (standard C) pair.
Proof. exact standard_works. Qed.
Print Assumptions C103_working.
Theorem C103_sized : forall C epk, keys_sized C epk -> sized (standard C) epk.
Proof. exact standard_sized. Qed.
Print Assumptions C103_sized.
(** The assumption of C19 needs nothing: the standard ciphers never expand. *)
Theorem C103_shrinks : forall C, aead_shrinks (standard C).
Proof. exact standard_shrinks. Qed.
Print Assumptions C103_shrinks.

(** With them a message that can be sent to its recipient directly is packed, and whoever holds a
    key it was encrypted for reads it, in every execution. *)
Theorem C103_delivered : forall C pair dir own own' m to from sign_by o tr r,
  keys_agree C pair -> keys_work C pair -> directory dir -> secrets_match C pair dir own -> secrets_match C pair dir own' ->
  message_fits C m -> rotation_ready C dir m -> ~ refused m to from sign_by -> (forall s, sign_by = Some s -> signer_ready dir own s) ->
  match from with None => recipient_ready C dir to | Some f => pair_ready C dir own f to end -> po_forward o = false ->
  exec (pack_encrypted (standard C) m to from sign_by o) tr r -> Forall (answers dir own) tr ->
  exists text pm, r = Ok (text, pm)
    /\ forall fuel uo tr' x, holds_one own' (pm_to_kids pm) -> kept dir own' uo m ->
         exec (unpack (standard C) (S fuel) text uo) tr' x -> Forall (answers dir own') tr' -> exists md, x = Some (Ok (m, md)).
Proof.
  intros C pair dir own own' m to from sb o tr r KA KW D S S' MF RR NR SR KR PF H A.
  pose proof (standard_lawful C pair KA) as L. pose proof (standard_works C pair KW) as W.
  assert (S1 : secrets_match (standard C) pair dir own) by exact S. assert (S1' : secrets_match (standard C) pair dir own') by exact S'.
  assert (MF1 : message_fits (standard C) m) by exact MF.
  assert (KR1 : match from with None => recipient_ready (standard C) dir to | Some f => pair_ready (standard C) dir own f to end) by exact KR.
  destruct (C61_encrypted_packs (standard C) pair dir own m to from sb o tr r L W D S1 RR NR SR KR1 (or_introl PF) H A) as (text & pm & ->).
  exists text, pm. split; [reflexivity|]. intros fuel uo tr' x HO KP H' A'.
  assert (SV : pm_service pm = None).
  { destruct (C28_wrapping_decision _ _ _ _ _ _ _ _ _ _ _ H A) as (t1 & t2 & text1 & _ & _ & Q). rewrite PF in Q. tauto. }
  destruct from as [f|].
  - destruct (C04_authcrypt_round (standard C) pair dir own own' m to f sb o tr text pm fuel uo tr' x L D S1 S1' MF1 H A SV HO H' A') as (pr & sg & fk & _ & _ & _ & _ & ->). eauto.
  - destruct (C03_anoncrypt_round (standard C) pair dir own own' m to sb o tr text pm fuel uo tr' x L D S1 S1' MF1 H A SV HO (fun _ => KP) H' A') as (pr & sg & _ & _ & _ & _ & ->). eauto.
Qed.
Print Assumptions C103_delivered.

(** The toy keys with the standard ciphers; Alice to Bob as in C61. *)
Definition direct_opts : pack_options := mkPO true false None None AuthA256cbcHs512 AnonA256gcm.
Example C103_case : keys_agree toy toy_pair /\ keys_work toy toy_pair
  /\ secrets_match toy toy_pair dir alice /\ secrets_match toy toy_pair dir bob /\ message_fits toy rich_msg /\ rotation_ready toy dir rich_msg
  /\ ~ refused rich_msg (B "did:ex:bob") (Some (B "did:ex:alice")) (Some (B "did:ex:alice")) /\ signer_ready dir alice (B "did:ex:alice")
  /\ pair_ready toy dir alice (B "did:ex:alice") (B "did:ex:bob") /\ kept dir bob default_unpack_options rich_msg
  /\ (exists tr r, by_alice (pack_encrypted (standard toy) rich_msg (B "did:ex:bob") (Some (B "did:ex:alice")) (Some (B "did:ex:alice")) direct_opts) tr r)
  /\ keys_sized regular jwk_size.
Proof.
  destruct toy_lawful as [LS LE LP _ _ _ LJ].
  split; [constructor; [exact LS|exact LE|exact LP|exact LJ]|].
  split; [destruct toy_works as ((G1 & G2 & G3 & G4 & G5 & G6) & W2 & W3); constructor; assumption|].
  split; [apply toy_world|]. split; [apply toy_world|]. split; [exact rich_fits|]. split; [intros jwt E; discriminate E|].
  split. { destruct (validate_cases rich_msg (B "did:ex:bob") (Some (B "did:ex:alice")) (Some (B "did:ex:alice"))) as [[_ N]|[E _]]; [exact N|]. vm_compute in E. discriminate E. }
  split; [exact alice_signs|]. split; [exact alice_to_bob|]. split; [intros _ E; discriminate E|].
  split; [eexists _, _; apply alice_runs|]. destruct regular_sized as [_ _ _ _ _ Z1 Z2]. constructor; assumption.
Qed.
