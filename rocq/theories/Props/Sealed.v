(** What sender keys of authcrypt envelopes are used for. *)
From Verif.Model Require Import Prelude Utf8 Base64 Json Serde DidDoc Crypto Keys Effects Jws Jwe Message FromPrior Pack Routing Unpack.
From Verif.Spec Require Import Codec Small Events Toy World Text Packing Sealed.
From Verif.Proofs Require Import Lib NoPanic UnpackFacts RoundP ToyP HideP SealedP.
From Verif.Props Require Import RoundTrip.

(** C77.  If a sender key has only sealed messages in [msgs], a text accepted as
    encrypted by it gives one of these messages. *)
Theorem C77_sealed_honest : forall C fuel text o tr m md from (msgs : message -> Prop), (forall m', msgs m' -> message_fits C m') ->
  exec (unpack C fuel text o) tr (Some (Ok (m, md))) -> um_encrypted_from_kid md = Some from -> only_sealed C tr from msgs -> msgs m.
Proof. exact honest_auth. Qed.
Print Assumptions C77_sealed_honest.
(** pack_encrypted applies the content encryption to the text of its message, plain or
    signed, only, and for a protected sender to envelopes: replacing it elsewhere
    changes nothing. *)
Theorem C77_sealing_inputs : forall C e m to from sign_by o tr x, po_forward o = false ->
  (forall ce k n aad t, t = plain_text m \/ (exists kid a sg, alg_name a /\ t = jws_text (plain_text m) kid a sg) ->
     e ce k n aad t = aead_enc C ce k n aad t) ->
  (po_protect_sender o = true -> forall ce k n aad t, e ce k n aad (B "{""protected""" ++ t) = aead_enc C ce k n aad (B "{""protected""" ++ t)) ->
  exec (pack_encrypted C m to from sign_by o) tr x <-> exec (pack_encrypted (with_aead C e) m to from sign_by o) tr x.
Proof. intros C e m to from sb o tr x F H P. exact (sealing_inputs C e m to from sb o F H P tr x). Qed.
Print Assumptions C77_sealing_inputs.
(** C26.  The from header is the DID of the reported sender key when that key has only
    sealed messages from its own DID (missing: any other message). *)
Theorem C26_sealer_matches_partial : forall C fuel text o tr m md from did (msgs : message -> Prop),
  (forall m', msgs m' -> message_fits C m' /\ forall f, msg_from m' = Some f -> url_of f from) ->
  exec (unpack C fuel text o) tr (Some (Ok (m, md))) -> um_encrypted_from_kid md = Some from -> only_sealed C tr from msgs ->
  msg_from m = Some did -> url_of did from.
Proof.
  intros C fuel text o tr m md from did msgs MF R S OS Fr.
  assert (Q : msgs m) by (apply (honest_auth C fuel text o tr m md from msgs); auto; intros m' Hm; apply MF; exact Hm).
  apply MF in Q as [_ Q]. exact (Q did Fr).
Qed.
Print Assumptions C26_sealer_matches_partial.

(** The toy primitives, with decryption limited to given texts. *)
Definition choosy (l : list bytes) : crypto := {|
  key := key toy; from_jwk := from_jwk toy; to_jwk_public := to_jwk_public toy; x25519_from_secret := x25519_from_secret toy;
  x25519_public_bytes := x25519_public_bytes toy; x25519_secret_bytes := x25519_secret_bytes toy; key_gen := key_gen toy;
  key_sign := key_sign toy; key_verify := key_verify toy; ecdh_es := ecdh_es toy; ecdh_1pu := ecdh_1pu toy;
  kw_wrap := kw_wrap toy; kw_unwrap := kw_unwrap toy; cek_gen := cek_gen toy; cek_import := cek_import toy; nonce_gen := nonce_gen toy;
  aead_enc := aead_enc toy;
  aead_dec := fun ce k iv aad x => match aead_dec toy ce k iv aad x with Some t => if bmem t l then Some t else None | None => None end;
  sha256 := sha256 toy; fparse := fparse toy |}.
Definition sealed_signed : bytes := Eval vm_compute in text_of (run (toy_env toy_docs sec_alice) (pack_signed toy rich_msg (B "did:ex:alice"))).
Definition sealed_sig : bytes := Eval vm_compute in
  match jws_from_str sealed_signed with
  | Ok j => match map (fun s => b64dec (sig_signature s)) (jws_signatures j) with Some s :: _ => s | _ => [] end
  | _ => []
  end.
Definition loyal := choosy [plain_text rich_msg; sealed_signed].
Definition sealed_by (s : option bytes) : bytes :=
  text_of (run (toy_env toy_docs sec_alice) (pack_encrypted toy rich_msg (B "did:ex:bob") (Some (B "did:ex:alice")) s
    (mkPO false false None None AuthA256cbcHs512 AnonXc20p))).
Definition sealed_plainly : bytes := Eval vm_compute in sealed_by None.
Definition sealed_and_signed : bytes := Eval vm_compute in sealed_by (Some (B "did:ex:alice")).
Example C77_case : forall tr, only_sealed loyal tr (B "did:ex:alice#x") (fun m => m = rich_msg) /\ message_fits loyal rich_msg
  /\ forall text, In text [sealed_plainly; sealed_and_signed] ->
     exists md, run (toy_env toy_docs sec_bob) (unpack loyal 2 text default_unpack_options) = Some (Ok (rich_msg, md))
       /\ um_encrypted_from_kid md = Some (B "did:ex:alice#x").
Proof.
  intros tr. split; [|split; [exact rich_fits|]].
  - intros did doc ka fk kid sec k j h t _ _ _ _ _ (cek & iv & ct & tag & _ & _ & _ & _ & D). cbn [loyal choosy aead_dec] in D.
    destruct (aead_dec toy _ _ _ _ _) as [t'|]; [|discriminate]. destruct (bmem t' _) eqn:E; [|discriminate]. apply SigningP.some_inj in D. subst t'.
    exists rich_msg. split; [reflexivity|]. apply bmem_In in E. destruct E as [<-|[<-|[]]]; [now left|right].
    exists (B "did:ex:alice#e"), (B "EdDSA"), sealed_sig. split; [reflexivity|]. split; [constructor|]. vm_compute. reflexivity.
  - intros text [<-|[<-|[]]]; eexists; vm_compute; repeat split.
Qed.
