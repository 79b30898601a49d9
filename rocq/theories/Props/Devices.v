(** Several devices of one recipient, each with some of its keys. *)
From Verif.Model Require Import Prelude Utf8 Base64 Json Serde DidDoc Crypto Keys Effects Jws Jwe Message FromPrior Pack Routing Unpack.
From Verif.Spec Require Import Codec Small Events Toy World Text Devices.
From Verif.Proofs Require Import Lib ToyP SigningP DevicesP.
From Verif.Props Require Import Unpack Sealed.

(** C93.  Two devices that get the same DID documents and accept a text get the same message
    and metadata, whichever keys they hold and whether or not they insist on all keys, if one
    ciphertext opens to one text whatever the key (missing: other ciphers, see the witness).
    When forwards are unwrapped, the devices must hold keys of the same hops. *)
Theorem C93_devices_agree_partial : forall C h1 h2 text unwrap all1 all2 fuel1 fuel2 r1 r2, committing C -> same_documents h1 h2 ->
  (unwrap = true -> hold_alike h1 h2) ->
  run h1 (unpack C fuel1 text (mkUO all1 unwrap)) = Some (Ok r1) -> run h2 (unpack C fuel2 text (mkUO all2 unwrap)) = Some (Ok r2) -> r1 = r2.
Proof. intros C h1 h2 text u a1 a2 f1 f2 r1 r2 CO SD HA. exact (devices_loop C CO h1 h2 SD u a1 a2 HA f1 f2 text um_init r1 r2). Qed.
Print Assumptions C93_devices_agree_partial.
(** Then insisting on all keys is stricter and nothing else. *)
Theorem C93_all_keys_stricter_partial : forall C h fuel text unwrap r, committing C ->
  run h (unpack C fuel text (mkUO true unwrap)) = Some (Ok r) -> run h (unpack C fuel text (mkUO false unwrap)) = Some (Ok r).
Proof. intros C h fuel text u r CO. exact (stricter_loop C CO h u fuel text um_init r). Qed.
Print Assumptions C93_all_keys_stricter_partial.

(** One key of Bob on each device. *)
Definition device1 : handler := toy_env toy_docs [sec_jwk "did:ex:bob#x1" KX25519 "bx1"].
Definition device2 : handler := toy_env toy_docs [sec_jwk "did:ex:bob#x2" KX25519 "bx2"].
Definition only_toy : crypto := choosy [plain_text toy_msg].
Definition to_devices (from : option bytes) : bytes := toy_pack from None false false.
Definition to_both : bytes := Eval vm_compute in to_devices (Some (B "did:ex:alice")).
Definition anon_to_both : bytes := Eval vm_compute in to_devices None.
Example C93_case : committing only_toy /\ same_documents device1 device2
  /\ (forall text, In text [to_both; anon_to_both] -> forall h, In h [device1; device2; toy_env toy_docs sec_bob] -> forall all,
       exists md, run h (unpack only_toy 2 text (mkUO all false)) = Some (Ok (toy_msg, md)))
  /\ device1 (OFindSecrets [B "did:ex:bob#x1"; B "did:ex:bob#x2"]) <> device2 (OFindSecrets [B "did:ex:bob#x1"; B "did:ex:bob#x2"]).
Proof.
  split; [|split; [intros did; reflexivity|split]].
  - assert (G : forall ce k iv aad x p, aead_dec only_toy ce k iv aad x = Some p -> p = plain_text toy_msg).
    { intros ce k iv aad x p D. cbn [only_toy choosy aead_dec] in D. destruct (aead_dec toy _ _ _ _ _) as [t|]; [|discriminate D]. destruct (bmem t _) eqn:E; [|discriminate D].
      apply some_inj in D. subst t. apply bmem_In in E. destruct E as [<-|[]]. reflexivity. }
    intros ce k1 k2 iv aad x p1 p2 D1 D2. apply G in D1, D2. now subst.
  - intros text T h H all. destruct T as [<-|[<-|[]]], H as [<-|[<-|[<-|[]]]], all; eexists; vm_compute; reflexivity.
  - vm_compute. discriminate.
Qed.
(** The devices hold keys of the same hops when both hold, for instance, the same keys. *)
Example C93_alike : forall docs docs' secs, hold_alike (toy_env docs secs) (toy_env docs' secs).
Proof. intros docs docs' secs ids l1 l2 E1 E2. cbn in E1, E2. rewrite E1 in E2. injection E2 as ->. tauto. Qed.

(** With a cipher that opens a ciphertext under two keys to two texts, the sender can give the
    two devices different messages, and insisting on all keys can change the message. *)
Definition second_msg : message := mb_to (B "did:ex:bob") (mb_new (B "id-2") (B "https://example.org/hello") (VObj [])).
Definition twofold : crypto := {|
  key := key toy; from_jwk := from_jwk toy; to_jwk_public := to_jwk_public toy; x25519_from_secret := x25519_from_secret toy;
  x25519_public_bytes := x25519_public_bytes toy; x25519_secret_bytes := x25519_secret_bytes toy; key_gen := key_gen toy;
  key_sign := key_sign toy; key_verify := key_verify toy; ecdh_es := ecdh_es toy; ecdh_1pu := ecdh_1pu toy;
  kw_wrap := kw_wrap toy; kw_unwrap := kw_unwrap toy; cek_gen := cek_gen toy; cek_import := cek_import toy; nonce_gen := nonce_gen toy;
  aead_enc := aead_enc toy;
  aead_dec := fun e k iv aad x => if beq k (B "cek") then aead_dec toy e k iv aad x else Some (plain_text second_msg);
  sha256 := sha256 toy; fparse := fparse toy |}.
Definition twofold_text : bytes := Eval vm_compute in split_text.
Theorem C93_devices_agree_refuted : exists C h1 h2 text r1 r2, same_documents h1 h2
  /\ run h1 (unpack C 2 text (mkUO false false)) = Some (Ok r1) /\ run h2 (unpack C 2 text (mkUO false false)) = Some (Ok r2) /\ r1 <> r2.
Proof.
  assert (E : exists md1 md2, run device1 (unpack twofold 2 twofold_text (mkUO false false)) = Some (Ok (second_msg, md1))
    /\ run device2 (unpack twofold 2 twofold_text (mkUO false false)) = Some (Ok (toy_msg, md2))) by (do 2 eexists; vm_compute; auto).
  destruct E as (md1 & md2 & E1 & E2). exists twofold, device1, device2, twofold_text, (second_msg, md1), (toy_msg, md2).
  split; [intros did; reflexivity|]. split; [exact E1|]. split; [exact E2|]. intros E. apply (f_equal (fun r => msg_id (fst r))) in E. discriminate E.
Qed.
Print Assumptions C93_devices_agree_refuted.
Theorem C93_all_keys_stricter_refuted : exists C h text r r', run h (unpack C 2 text (mkUO true false)) = Some (Ok r)
  /\ run h (unpack C 2 text (mkUO false false)) = Some (Ok r') /\ r <> r'.
Proof.
  assert (E : exists md1 md2, run (toy_env toy_docs sec_bob) (unpack twofold 2 twofold_text (mkUO true false)) = Some (Ok (toy_msg, md1))
    /\ run (toy_env toy_docs sec_bob) (unpack twofold 2 twofold_text (mkUO false false)) = Some (Ok (second_msg, md2))) by (do 2 eexists; vm_compute; auto).
  destruct E as (md1 & md2 & E1 & E2). exists twofold, (toy_env toy_docs sec_bob), twofold_text, (toy_msg, md1), (second_msg, md2).
  split; [exact E1|]. split; [exact E2|]. intros E. apply (f_equal (fun r => msg_id (fst r))) in E. discriminate E.
Qed.
Print Assumptions C93_all_keys_stricter_refuted.
