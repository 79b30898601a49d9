(** Recipients that try to change an authenticated envelope for the other recipients. *)
From Verif.Model Require Import Prelude Utf8 Base64 Json Serde DidDoc Crypto Keys Effects Jws Jwe Message FromPrior Pack Routing Unpack.
From Verif.Spec Require Import Codec Small Events Toy World Text Packing Sealed Insider.
From Verif.Proofs Require Import Lib NoPanic UnpackFacts RoundP ToyP HideP SigningP SealedP InsiderP.
From Verif.Props Require Import RoundTrip.

(** C91.  Recipients know the content keys of the envelopes sent to them.  As long as keys
    agreed on with a sender key and a tag wrap only content keys with which the sender made
    that tag, and a tag stands for one text, whatever is accepted as encrypted by that sender
    is one of its messages. *)
Theorem C91_insiders : forall C fuel text o tr m md from (sealed : bytes -> bytes -> bytes -> Prop) (msgs : message -> Prop), (forall m', msgs m' -> message_fits C m') ->
  (forall cek tag t, sealed cek tag t -> exists m', msgs m' /\ sealed_text m' t) ->
  exec (unpack C fuel text o) tr (Some (Ok (m, md))) -> um_encrypted_from_kid md = Some from ->
  only_wrapped C sealed tr from -> tag_commits C sealed -> msgs m.
Proof. intros C fuel text o tr m md from sealed msgs MF SM R F OW TC. apply (honest_auth C fuel text o tr m md from msgs); auto. exact (wrapped_sealed C sealed tr from msgs OW TC SM). Qed.
Print Assumptions C91_insiders.
(** pack_encrypted is such a sender: with the sender key it wraps a content key only under a
    key agreed on with a tag which that content key gave for the text of the message, plain
    or signed.  A key wrapping that differs elsewhere changes nothing, forwarding included. *)
Theorem C91_wrapping_inputs : forall C w m to from sign_by o tr x, es_agrees C w ->
  (forall t, t = plain_text m \/ (exists kid a sg, alg_name a /\ t = jws_text (plain_text m) kid a sg) -> pu_agrees C w t) ->
  exec (pack_encrypted C m to from sign_by o) tr x <-> exec (pack_encrypted (with_wrap C w) m to from sign_by o) tr x.
Proof. intros C w m to from sb o tr x ES PU. exact (wrapping_inputs C w ES m to from sb o PU tr x). Qed.
Print Assumptions C91_wrapping_inputs.

(** Primitives with tags that stand for two texts, known to the recipients, and with key
    agreement that depends on the tag or not. *)
Definition other_msg : message := mb_from (B "did:ex:alice") (mb_to (B "did:ex:bob") (mb_new (B "2") (B "https://example.org/pay") (VObj [(B "sum", VStr (B "9"))]))).
Definition pt0 : bytes := Eval vm_compute in plain_text rich_msg.
Definition pt1 : bytes := Eval vm_compute in plain_text other_msg.
Definition guarded (bound : bool) : crypto := {|
  key := key toy; from_jwk := from_jwk toy; to_jwk_public := to_jwk_public toy; x25519_from_secret := x25519_from_secret toy;
  x25519_public_bytes := x25519_public_bytes toy; x25519_secret_bytes := x25519_secret_bytes toy; key_gen := key_gen toy;
  key_sign := key_sign toy; key_verify := key_verify toy; ecdh_es := ecdh_es toy;
  ecdh_1pu := fun _ _ _ _ _ _ _ tag _ => Some (if bound then tag else B "TAG0");
  kw_wrap := fun kw cek => Some (kw ++ cek);
  kw_unwrap := fun kw w => if beq w (B "TAG0cek") && beq kw (B "TAG0") then Some (B "cek") else None;
  cek_gen := cek_gen toy; cek_import := cek_import toy; nonce_gen := nonce_gen toy;
  aead_enc := fun _ k iv aad pt => Some (rev pt, if beq pt pt1 then B "TAG1" else B "TAG0");
  aead_dec := fun _ k iv aad x => if beq x (rev pt0 ++ B "TAG0") then Some pt0 else if beq x (rev pt1 ++ B "TAG1") then Some pt1 else None;
  sha256 := sha256 toy; fparse := fparse toy |}.
Definition by_sender (cek tag t : bytes) : Prop := cek = B "cek" /\ tag = B "TAG0" /\ t = plain_text rich_msg.
Definition sent : bytes := Eval vm_compute in
  text_of (run (toy_env toy_docs sec_alice) (pack_encrypted (guarded true) rich_msg (B "did:ex:bob") (Some (B "did:ex:alice")) None
    (mkPO false false None None AuthA256cbcHs512 AnonXc20p))).
(** The owner of one recipient key keeps the headers and wrapped keys and encrypts their own
    text with the content key. *)
Definition changed : bytes := Eval vm_compute in
  match jwe_from_str sent with
  | Ok j => print (jwe_tree (mkJwe (jwe_protected j) (jwe_recipients j) (jwe_iv j) (b64enc (rev pt1)) (b64enc (B "TAG1"))))
  | _ => []
  end.
Definition received (bound : bool) (text : bytes) : option (res (message * unpack_metadata)) :=
  run (toy_env toy_docs sec_bob) (unpack (guarded bound) 2 text default_unpack_options).
Example C91_case : (forall tr, only_wrapped (guarded true) by_sender tr (B "did:ex:alice#x")) /\ tag_commits (guarded true) by_sender
  /\ (forall cek tag t, by_sender cek tag t -> exists m', m' = rich_msg /\ sealed_text m' t) /\ message_fits (guarded true) rich_msg
  /\ (exists md, received true sent = Some (Ok (rich_msg, md)) /\ um_encrypted_from_kid md = Some (B "did:ex:alice#x"))
  /\ received true changed = Some (Err Malformed)
  (* without the tag in the key agreement the other recipients would be deceived *)
  /\ (exists md, received false changed = Some (Ok (other_msg, md)) /\ um_encrypted_from_kid md = Some (B "did:ex:alice#x")).
Proof.
  split; [|split; [|split; [|split; [exact rich_fits|]]]].
  - intros tr did doc ka fk kid sec k epk alg apu apv tag kw w c cek _ _ _ _ _ E W I. cbn [guarded ecdh_1pu] in E. apply some_inj in E. subst kw.
    cbn [guarded kw_unwrap] in W. destruct (beq w _); [|discriminate W]. destruct (beq tag (B "TAG0")) eqn:T; [|discriminate W].
    apply some_inj in W. cbn [guarded cek_import toy] in I. apply some_inj in I. apply beq_eq in T. exists (plain_text rich_msg). repeat split; congruence.
  - intros cek tag t iv aad ct t' (-> & -> & ->) D. cbn [guarded aead_dec] in D. destruct (beq _ (rev pt0 ++ _)).
    + apply some_inj in D. now subst t'.
    + destruct (beq _ _) eqn:E; [|discriminate D]. apply beq_eq in E. apply (f_equal (fun l => hd_error (rev l))) in E. rewrite !rev_app_distr in E. discriminate E.
  - intros cek tag t (_ & _ & ->). exists rich_msg. split; [reflexivity|now left].
  - split; [|split]; [eexists; vm_compute; repeat split|vm_compute; reflexivity|eexists; vm_compute; repeat split].
Qed.
(** A key wrapping that refuses keys agreed on with another tag meets the conditions of
    the second theorem here. *)
Definition frugal (kw cek : bytes) : option bytes := if beq kw (B "TAG1") then None else Some (kw ++ cek).
Example C91_wrapping_case : es_agrees (guarded true) frugal /\ (forall t, t = plain_text rich_msg \/ (exists kid a sg, alg_name a /\ t = jws_text (plain_text rich_msg) kid a sg) -> pu_agrees (guarded true) frugal t)
  /\ frugal (B "TAG1") (B "cek") <> kw_wrap (guarded true) (B "TAG1") (B "cek")
  /\ text_of (run (toy_env toy_docs sec_alice) (pack_encrypted (with_wrap (guarded true) frugal) rich_msg (B "did:ex:bob") (Some (B "did:ex:alice")) None
        (mkPO false false None None AuthA256cbcHs512 AnonXc20p))) = sent.
Proof.
  split; [|split; [|split; [discriminate|vm_compute; reflexivity]]].
  - intros ka epk r apv kw cek E. cbn [guarded ecdh_es toy] in E. unfold toy_kdf in E. apply some_inj in E. subst kw. reflexivity.
  - intros t T ka epk sk r kid apv cek iv aad ct tag kw A E. cbn [guarded ecdh_1pu] in E. apply some_inj in E. subst kw.
    cbn [guarded aead_enc] in A. apply some_inj, pair_equal_spec in A as [_ A]. unfold frugal. destruct (beq t pt1) eqn:Q; [exfalso|subst tag; reflexivity].
    apply beq_eq in Q. destruct T as [->|(kid' & a & sg & _ & ->)]; [discriminate Q|]. 
    apply (f_equal (fun l => firstn 3 l)) in Q. cbn in Q. discriminate Q.
Qed.
