(** Generated by tools/gen_tests.py: the tests of src/message/unpack/mod.rs that unpack a fixed
    message. *)
From Verif.Model Require Import Prelude Json Serde Base64 Crypto DidDoc Effects Keys Jws Jwe Message FromPrior Pack Unpack.
From Verif.Spec Require Import Sha2.
From Verif.Tests Require Import Real Check.
From Verif.Spec Require Import Sha2.
From Verif.Tests Require Import Real Check Vectors.

(** src/message/unpack/mod.rs:297 *)
Definition r_unpack_works_plaintext_1 := Eval vm_compute in unpacked PLAINTEXT_MSG_SIMPLE MESSAGE_SIMPLE (mkUM false false false false false None None None None None None None None None).
Example unpack_works_plaintext_1 : r_unpack_works_plaintext_1 = true. Proof. reflexivity. Qed.
(** src/message/unpack/mod.rs:297 *)
Definition r_unpack_works_plaintext_2 := Eval vm_compute in unpacked PLAINTEXT_MSG_SIMPLE_NO_TYP MESSAGE_SIMPLE (mkUM false false false false false None None None None None None None None None).
Example unpack_works_plaintext_2 : r_unpack_works_plaintext_2 = true. Proof. reflexivity. Qed.
(** src/message/unpack/mod.rs:297 *)
Definition r_unpack_works_plaintext_3 := Eval vm_compute in unpacked PLAINTEXT_MSG_MINIMAL MESSAGE_MINIMAL (mkUM false false false false false None None None None None None None None None).
Example unpack_works_plaintext_3 : r_unpack_works_plaintext_3 = true. Proof. reflexivity. Qed.
(** src/message/unpack/mod.rs:297 *)
Definition r_unpack_works_plaintext_4 := Eval vm_compute in unpacked PLAINTEXT_MSG_ATTACHMENT_BASE64 MESSAGE_ATTACHMENT_BASE64 (mkUM false false false false false None None None None None None None None None).
Example unpack_works_plaintext_4 : r_unpack_works_plaintext_4 = true. Proof. reflexivity. Qed.
(** src/message/unpack/mod.rs:297 *)
Definition r_unpack_works_plaintext_5 := Eval vm_compute in unpacked PLAINTEXT_MSG_ATTACHMENT_JSON MESSAGE_ATTACHMENT_JSON (mkUM false false false false false None None None None None None None None None).
Example unpack_works_plaintext_5 : r_unpack_works_plaintext_5 = true. Proof. reflexivity. Qed.
(** src/message/unpack/mod.rs:297 *)
Definition r_unpack_works_plaintext_6 := Eval vm_compute in unpacked PLAINTEXT_MSG_ATTACHMENT_LINKS MESSAGE_ATTACHMENT_LINKS (mkUM false false false false false None None None None None None None None None).
Example unpack_works_plaintext_6 : r_unpack_works_plaintext_6 = true. Proof. reflexivity. Qed.
(** src/message/unpack/mod.rs:297 *)
Definition r_unpack_works_plaintext_7 := Eval vm_compute in unpacked PLAINTEXT_MSG_ATTACHMENT_MULTI_1 MESSAGE_ATTACHMENT_MULTI_1 (mkUM false false false false false None None None None None None None None None).
Example unpack_works_plaintext_7 : r_unpack_works_plaintext_7 = true. Proof. reflexivity. Qed.
(** src/message/unpack/mod.rs:297 *)
Definition r_unpack_works_plaintext_8 := Eval vm_compute in unpacked PLAINTEXT_MSG_ATTACHMENT_MULTI_2 MESSAGE_ATTACHMENT_MULTI_2 (mkUM false false false false false None None None None None None None None None).
Example unpack_works_plaintext_8 : r_unpack_works_plaintext_8 = true. Proof. reflexivity. Qed.
(** src/message/unpack/mod.rs:404 *)
Definition r_unpack_works_signed_1 := Eval vm_compute in unpacked SIGNED_MSG_ALICE_KEY_1 MESSAGE_SIMPLE (mkUM false true true false false None None (Some (B "did:example:alice#key-1")) None None None (Some SignEdDSA) (Some SIGNED_MSG_ALICE_KEY_1) None).
Example unpack_works_signed_1 : r_unpack_works_signed_1 = true. Proof. reflexivity. Qed.
(** src/message/unpack/mod.rs:404 *)
Definition r_unpack_works_signed_2 := Eval vm_compute in unpacked SIGNED_MSG_ALICE_KEY_2 MESSAGE_SIMPLE (mkUM false true true false false None None (Some (B "did:example:alice#key-2")) None None None (Some SignES256) (Some SIGNED_MSG_ALICE_KEY_2) None).
Example unpack_works_signed_2 : r_unpack_works_signed_2 = true. Proof. reflexivity. Qed.
(** src/message/unpack/mod.rs:404 *)
Definition r_unpack_works_signed_3 := Eval vm_compute in unpacked SIGNED_MSG_ALICE_KEY_3 MESSAGE_SIMPLE (mkUM false true true false false None None (Some (B "did:example:alice#key-3")) None None None (Some SignES256K) (Some SIGNED_MSG_ALICE_KEY_3) None).
Example unpack_works_signed_3 : r_unpack_works_signed_3 = true. Proof. reflexivity. Qed.
(** src/message/unpack/mod.rs:532 *)
Definition r_unpack_works_anoncrypt_1 := Eval vm_compute in unpacked ENCRYPTED_MSG_ANON_XC20P_1 MESSAGE_SIMPLE (mkUM true false false true false None (Some [(B "did:example:bob#key-x25519-1"); (B "did:example:bob#key-x25519-2"); (B "did:example:bob#key-x25519-3")]) None None None (Some AnonXc20p) None None None).
Example unpack_works_anoncrypt_1 : r_unpack_works_anoncrypt_1 = true. Proof. reflexivity. Qed.
(** src/message/unpack/mod.rs:532 *)
Definition r_unpack_works_anoncrypt_2 := Eval vm_compute in unpacked ENCRYPTED_MSG_ANON_XC20P_2 MESSAGE_SIMPLE (mkUM true false false true false None (Some [(B "did:example:bob#key-p256-1"); (B "did:example:bob#key-p256-2")]) None None None (Some AnonXc20p) None None None).
Example unpack_works_anoncrypt_2 : r_unpack_works_anoncrypt_2 = true. Proof. reflexivity. Qed.
(** src/message/unpack/mod.rs:1183 *)
Definition r_unpack_works_authcrypt_1 := Eval vm_compute in unpacked ENCRYPTED_MSG_AUTH_X25519 MESSAGE_SIMPLE (mkUM true true false false false (Some (B "did:example:alice#key-x25519-1")) (Some [(B "did:example:bob#key-x25519-1"); (B "did:example:bob#key-x25519-2"); (B "did:example:bob#key-x25519-3")]) None None (Some AuthA256cbcHs512) None None None None).
Example unpack_works_authcrypt_1 : r_unpack_works_authcrypt_1 = true. Proof. reflexivity. Qed.
(** src/message/unpack/mod.rs:1183 *)
Definition r_unpack_works_authcrypt_2 := Eval vm_compute in unpacked ENCRYPTED_MSG_AUTH_P256 MESSAGE_SIMPLE (mkUM true true true false false (Some (B "did:example:alice#key-p256-1")) (Some [(B "did:example:bob#key-p256-1"); (B "did:example:bob#key-p256-2")]) (Some (B "did:example:alice#key-1")) None (Some AuthA256cbcHs512) None (Some SignEdDSA) (Some ENCRYPTED_MSG_AUTH_P256_SIGNED) None).
Example unpack_works_authcrypt_2 : r_unpack_works_authcrypt_2 = true. Proof. reflexivity. Qed.
(** src/message/unpack/mod.rs:1778 *)
Definition r_unpack_works_invalid_epk_point_1 := Eval vm_compute in unpack_err INVALID_ENCRYPTED_MSG_ANON_P256_EPK_WRONG_POINT.
Example unpack_works_invalid_epk_point_1 : r_unpack_works_invalid_epk_point_1 = Some Malformed. Proof. reflexivity. Qed.
(** src/message/unpack/mod.rs:1787 *)
Definition r_unpack_works_malformed_anoncrypt_msg_1 := Eval vm_compute in unpack_err (update_field ENCRYPTED_MSG_ANON_XC20P_1 (B "protected") (B "invalid")).
Example unpack_works_malformed_anoncrypt_msg_1 : r_unpack_works_malformed_anoncrypt_msg_1 = Some Malformed. Proof. reflexivity. Qed.
(** src/message/unpack/mod.rs:1787 *)
Definition r_unpack_works_malformed_anoncrypt_msg_2 := Eval vm_compute in unpack_err (remove_field ENCRYPTED_MSG_ANON_XC20P_1 (B "protected")).
Example unpack_works_malformed_anoncrypt_msg_2 : r_unpack_works_malformed_anoncrypt_msg_2 = Some Malformed. Proof. reflexivity. Qed.
(** src/message/unpack/mod.rs:1787 *)
Definition r_unpack_works_malformed_anoncrypt_msg_3 := Eval vm_compute in unpack_err (update_field ENCRYPTED_MSG_ANON_XC20P_1 (B "iv") (B "invalid")).
Example unpack_works_malformed_anoncrypt_msg_3 : r_unpack_works_malformed_anoncrypt_msg_3 = Some Malformed. Proof. reflexivity. Qed.
(** src/message/unpack/mod.rs:1787 *)
Definition r_unpack_works_malformed_anoncrypt_msg_4 := Eval vm_compute in unpack_err (remove_field ENCRYPTED_MSG_ANON_XC20P_1 (B "iv")).
Example unpack_works_malformed_anoncrypt_msg_4 : r_unpack_works_malformed_anoncrypt_msg_4 = Some Malformed. Proof. reflexivity. Qed.
(** src/message/unpack/mod.rs:1787 *)
Definition r_unpack_works_malformed_anoncrypt_msg_5 := Eval vm_compute in unpack_err (update_field ENCRYPTED_MSG_ANON_XC20P_1 (B "ciphertext") (B "invalid")).
Example unpack_works_malformed_anoncrypt_msg_5 : r_unpack_works_malformed_anoncrypt_msg_5 = Some Malformed. Proof. reflexivity. Qed.
(** src/message/unpack/mod.rs:1787 *)
Definition r_unpack_works_malformed_anoncrypt_msg_6 := Eval vm_compute in unpack_err (remove_field ENCRYPTED_MSG_ANON_XC20P_1 (B "ciphertext")).
Example unpack_works_malformed_anoncrypt_msg_6 : r_unpack_works_malformed_anoncrypt_msg_6 = Some Malformed. Proof. reflexivity. Qed.
(** src/message/unpack/mod.rs:1787 *)
Definition r_unpack_works_malformed_anoncrypt_msg_7 := Eval vm_compute in unpack_err (update_field ENCRYPTED_MSG_ANON_XC20P_1 (B "tag") (B "invalid")).
Example unpack_works_malformed_anoncrypt_msg_7 : r_unpack_works_malformed_anoncrypt_msg_7 = Some Malformed. Proof. reflexivity. Qed.
(** src/message/unpack/mod.rs:1787 *)
Definition r_unpack_works_malformed_anoncrypt_msg_8 := Eval vm_compute in unpack_err (remove_field ENCRYPTED_MSG_ANON_XC20P_1 (B "tag")).
Example unpack_works_malformed_anoncrypt_msg_8 : r_unpack_works_malformed_anoncrypt_msg_8 = Some Malformed. Proof. reflexivity. Qed.
(** src/message/unpack/mod.rs:1787 *)
Definition r_unpack_works_malformed_anoncrypt_msg_9 := Eval vm_compute in unpack_err (update_protected_field ENCRYPTED_MSG_ANON_XC20P_1 (B "apv") (B "invalid")).
Example unpack_works_malformed_anoncrypt_msg_9 : r_unpack_works_malformed_anoncrypt_msg_9 = Some Malformed. Proof. reflexivity. Qed.
(** src/message/unpack/mod.rs:1787 *)
Definition r_unpack_works_malformed_anoncrypt_msg_10 := Eval vm_compute in unpack_err (remove_protected_field ENCRYPTED_MSG_ANON_XC20P_1 (B "apv")).
Example unpack_works_malformed_anoncrypt_msg_10 : r_unpack_works_malformed_anoncrypt_msg_10 = Some Malformed. Proof. reflexivity. Qed.
(** src/message/unpack/mod.rs:1850 *)
Definition r_unpack_works_malformed_authcrypt_msg_1 := Eval vm_compute in unpack_err (update_field ENCRYPTED_MSG_AUTH_X25519 (B "protected") (B "invalid")).
Example unpack_works_malformed_authcrypt_msg_1 : r_unpack_works_malformed_authcrypt_msg_1 = Some Malformed. Proof. reflexivity. Qed.
(** src/message/unpack/mod.rs:1850 *)
Definition r_unpack_works_malformed_authcrypt_msg_2 := Eval vm_compute in unpack_err (remove_field ENCRYPTED_MSG_AUTH_X25519 (B "protected")).
Example unpack_works_malformed_authcrypt_msg_2 : r_unpack_works_malformed_authcrypt_msg_2 = Some Malformed. Proof. reflexivity. Qed.
(** src/message/unpack/mod.rs:1850 *)
Definition r_unpack_works_malformed_authcrypt_msg_3 := Eval vm_compute in unpack_err (update_field ENCRYPTED_MSG_AUTH_X25519 (B "iv") (B "invalid")).
Example unpack_works_malformed_authcrypt_msg_3 : r_unpack_works_malformed_authcrypt_msg_3 = Some Malformed. Proof. reflexivity. Qed.
(** src/message/unpack/mod.rs:1850 *)
Definition r_unpack_works_malformed_authcrypt_msg_4 := Eval vm_compute in unpack_err (remove_field ENCRYPTED_MSG_AUTH_X25519 (B "iv")).
Example unpack_works_malformed_authcrypt_msg_4 : r_unpack_works_malformed_authcrypt_msg_4 = Some Malformed. Proof. reflexivity. Qed.
(** src/message/unpack/mod.rs:1850 *)
Definition r_unpack_works_malformed_authcrypt_msg_5 := Eval vm_compute in unpack_err (update_field ENCRYPTED_MSG_AUTH_X25519 (B "ciphertext") (B "invalid")).
Example unpack_works_malformed_authcrypt_msg_5 : r_unpack_works_malformed_authcrypt_msg_5 = Some Malformed. Proof. reflexivity. Qed.
(** src/message/unpack/mod.rs:1850 *)
Definition r_unpack_works_malformed_authcrypt_msg_6 := Eval vm_compute in unpack_err (remove_field ENCRYPTED_MSG_AUTH_X25519 (B "ciphertext")).
Example unpack_works_malformed_authcrypt_msg_6 : r_unpack_works_malformed_authcrypt_msg_6 = Some Malformed. Proof. reflexivity. Qed.
(** src/message/unpack/mod.rs:1850 *)
Definition r_unpack_works_malformed_authcrypt_msg_7 := Eval vm_compute in unpack_err (update_field ENCRYPTED_MSG_AUTH_X25519 (B "tag") (B "invalid")).
Example unpack_works_malformed_authcrypt_msg_7 : r_unpack_works_malformed_authcrypt_msg_7 = Some Malformed. Proof. reflexivity. Qed.
(** src/message/unpack/mod.rs:1850 *)
Definition r_unpack_works_malformed_authcrypt_msg_8 := Eval vm_compute in unpack_err (remove_field ENCRYPTED_MSG_AUTH_X25519 (B "tag")).
Example unpack_works_malformed_authcrypt_msg_8 : r_unpack_works_malformed_authcrypt_msg_8 = Some Malformed. Proof. reflexivity. Qed.
(** src/message/unpack/mod.rs:1850 *)
Definition r_unpack_works_malformed_authcrypt_msg_9 := Eval vm_compute in unpack_err (update_protected_field ENCRYPTED_MSG_AUTH_X25519 (B "apv") (B "invalid")).
Example unpack_works_malformed_authcrypt_msg_9 : r_unpack_works_malformed_authcrypt_msg_9 = Some Malformed. Proof. reflexivity. Qed.
(** src/message/unpack/mod.rs:1850 *)
Definition r_unpack_works_malformed_authcrypt_msg_10 := Eval vm_compute in unpack_err (remove_protected_field ENCRYPTED_MSG_AUTH_X25519 (B "apv")).
Example unpack_works_malformed_authcrypt_msg_10 : r_unpack_works_malformed_authcrypt_msg_10 = Some Malformed. Proof. reflexivity. Qed.
(** src/message/unpack/mod.rs:1850 *)
Definition r_unpack_works_malformed_authcrypt_msg_11 := Eval vm_compute in unpack_err (update_protected_field ENCRYPTED_MSG_AUTH_X25519 (B "apu") (B "invalid")).
Example unpack_works_malformed_authcrypt_msg_11 : r_unpack_works_malformed_authcrypt_msg_11 = Some Malformed. Proof. reflexivity. Qed.
(** src/message/unpack/mod.rs:1850 *)
Definition r_unpack_works_malformed_authcrypt_msg_12 := Eval vm_compute in unpack_err (remove_protected_field ENCRYPTED_MSG_AUTH_X25519 (B "apu")).
Example unpack_works_malformed_authcrypt_msg_12 : r_unpack_works_malformed_authcrypt_msg_12 = Some Malformed. Proof. reflexivity. Qed.
(** src/message/unpack/mod.rs:1925 *)
Definition r_unpack_works_malformed_signed_msg_1 := Eval vm_compute in unpack_err (update_field SIGNED_MSG_ALICE_KEY_1 (B "payload") (B "invalid")).
Example unpack_works_malformed_signed_msg_1 : r_unpack_works_malformed_signed_msg_1 = Some Malformed. Proof. reflexivity. Qed.
(** src/message/unpack/mod.rs:1925 *)
Definition r_unpack_works_malformed_signed_msg_2 := Eval vm_compute in unpack_err (remove_field SIGNED_MSG_ALICE_KEY_1 (B "payload")).
Example unpack_works_malformed_signed_msg_2 : r_unpack_works_malformed_signed_msg_2 = Some Malformed. Proof. reflexivity. Qed.
(** src/message/unpack/mod.rs:1925 *)
Definition r_unpack_works_malformed_signed_msg_3 := Eval vm_compute in unpack_err (update_field SIGNED_MSG_ALICE_KEY_1 (B "signatures") (B "invalid")).
Example unpack_works_malformed_signed_msg_3 : r_unpack_works_malformed_signed_msg_3 = Some Malformed. Proof. reflexivity. Qed.
(** src/message/unpack/mod.rs:1925 *)
Definition r_unpack_works_malformed_signed_msg_4 := Eval vm_compute in unpack_err (remove_field SIGNED_MSG_ALICE_KEY_1 (B "signatures")).
Example unpack_works_malformed_signed_msg_4 : r_unpack_works_malformed_signed_msg_4 = Some Malformed. Proof. reflexivity. Qed.
(** src/message/unpack/mod.rs:1952 *)
Definition r_unpack_works_malformed_plaintext_msg_1 := Eval vm_compute in unpack_err INVALID_PLAINTEXT_MSG_EMPTY.
Example unpack_works_malformed_plaintext_msg_1 : r_unpack_works_malformed_plaintext_msg_1 = Some Malformed. Proof. reflexivity. Qed.
(** src/message/unpack/mod.rs:1952 *)
Definition r_unpack_works_malformed_plaintext_msg_2 := Eval vm_compute in unpack_err INVALID_PLAINTEXT_MSG_STRING.
Example unpack_works_malformed_plaintext_msg_2 : r_unpack_works_malformed_plaintext_msg_2 = Some Malformed. Proof. reflexivity. Qed.
(** src/message/unpack/mod.rs:1952 *)
Definition r_unpack_works_malformed_plaintext_msg_3 := Eval vm_compute in unpack_err INVALID_PLAINTEXT_MSG_NO_ID.
Example unpack_works_malformed_plaintext_msg_3 : r_unpack_works_malformed_plaintext_msg_3 = Some Malformed. Proof. reflexivity. Qed.
(** src/message/unpack/mod.rs:1952 *)
Definition r_unpack_works_malformed_plaintext_msg_4 := Eval vm_compute in unpack_err INVALID_PLAINTEXT_MSG_NO_TYPE.
Example unpack_works_malformed_plaintext_msg_4 : r_unpack_works_malformed_plaintext_msg_4 = Some Malformed. Proof. reflexivity. Qed.
(** src/message/unpack/mod.rs:1952 *)
Definition r_unpack_works_malformed_plaintext_msg_5 := Eval vm_compute in unpack_err INVALID_PLAINTEXT_MSG_NO_BODY.
Example unpack_works_malformed_plaintext_msg_5 : r_unpack_works_malformed_plaintext_msg_5 = Some Malformed. Proof. reflexivity. Qed.
(** src/message/unpack/mod.rs:1952 *)
Definition r_unpack_works_malformed_plaintext_msg_6 := Eval vm_compute in unpack_err INVALID_PLAINTEXT_MSG_WRONG_TYP.
Example unpack_works_malformed_plaintext_msg_6 : r_unpack_works_malformed_plaintext_msg_6 = Some Malformed. Proof. reflexivity. Qed.
(** src/message/unpack/mod.rs:1952 *)
Definition r_unpack_works_malformed_plaintext_msg_7 := Eval vm_compute in unpack_err INVALID_PLAINTEXT_MSG_EMPTY_ATTACHMENTS.
Example unpack_works_malformed_plaintext_msg_7 : r_unpack_works_malformed_plaintext_msg_7 = Some Malformed. Proof. reflexivity. Qed.
(** src/message/unpack/mod.rs:1952 *)
Definition r_unpack_works_malformed_plaintext_msg_8 := Eval vm_compute in unpack_err INVALID_PLAINTEXT_MSG_ATTACHMENTS_NO_DATA.
Example unpack_works_malformed_plaintext_msg_8 : r_unpack_works_malformed_plaintext_msg_8 = Some Malformed. Proof. reflexivity. Qed.
(** src/message/unpack/mod.rs:1952 *)
Definition r_unpack_works_malformed_plaintext_msg_9 := Eval vm_compute in unpack_err INVALID_PLAINTEXT_MSG_ATTACHMENTS_EMPTY_DATA.
Example unpack_works_malformed_plaintext_msg_9 : r_unpack_works_malformed_plaintext_msg_9 = Some Malformed. Proof. reflexivity. Qed.
(** src/message/unpack/mod.rs:1952 *)
Definition r_unpack_works_malformed_plaintext_msg_10 := Eval vm_compute in unpack_err INVALID_PLAINTEXT_MSG_ATTACHMENTS_LINKS_NO_HASH.
Example unpack_works_malformed_plaintext_msg_10 : r_unpack_works_malformed_plaintext_msg_10 = Some Malformed. Proof. reflexivity. Qed.
(** src/message/unpack/mod.rs:1952 *)
Definition r_unpack_works_malformed_plaintext_msg_11 := Eval vm_compute in unpack_err INVALID_PLAINTEXT_MSG_ATTACHMENTS_AS_STRING.
Example unpack_works_malformed_plaintext_msg_11 : r_unpack_works_malformed_plaintext_msg_11 = Some Malformed. Proof. reflexivity. Qed.
(** src/message/unpack/mod.rs:1952 *)
Definition r_unpack_works_malformed_plaintext_msg_12 := Eval vm_compute in unpack_err INVALID_PLAINTEXT_MSG_ATTACHMENTS_AS_INT_ARRAY.
Example unpack_works_malformed_plaintext_msg_12 : r_unpack_works_malformed_plaintext_msg_12 = Some Malformed. Proof. reflexivity. Qed.
(** src/message/unpack/mod.rs:1952 *)
Definition r_unpack_works_malformed_plaintext_msg_13 := Eval vm_compute in unpack_err INVALID_PLAINTEXT_MSG_ATTACHMENTS_WRONG_DATA.
Example unpack_works_malformed_plaintext_msg_13 : r_unpack_works_malformed_plaintext_msg_13 = Some Malformed. Proof. reflexivity. Qed.
(** src/message/unpack/mod.rs:1952 *)
Definition r_unpack_works_malformed_plaintext_msg_14 := Eval vm_compute in unpack_err INVALID_PLAINTEXT_MSG_ATTACHMENTS_WRONG_ID.
Example unpack_works_malformed_plaintext_msg_14 : r_unpack_works_malformed_plaintext_msg_14 = Some Malformed. Proof. reflexivity. Qed.
(** src/message/unpack/mod.rs:1952 *)
Definition r_unpack_works_malformed_plaintext_msg_15 := Eval vm_compute in unpack_err INVALID_PLAINTEXT_MSG_ATTACHMENTS_NULL_DATA.
Example unpack_works_malformed_plaintext_msg_15 : r_unpack_works_malformed_plaintext_msg_15 = Some Malformed. Proof. reflexivity. Qed.
(** src/message/unpack/mod.rs:2045 *)
Definition r_unpack_plaintext_works_from_prior_1 := Eval vm_compute in unpacked PLAINTEXT_FROM_PRIOR MESSAGE_FROM_PRIOR_FULL (mkUM false false false false false None None None (Some (vm_id CHARLIE_AUTH_METHOD_25519)) None None None None (Some FROM_PRIOR_FULL)).
Example unpack_plaintext_works_from_prior_1 : r_unpack_plaintext_works_from_prior_1 = true. Proof. reflexivity. Qed.
(** src/message/unpack/mod.rs:2072 *)
Definition r_unpack_plaintext_works_invalid_from_prior_1 := Eval vm_compute in unpack_err PLAINTEXT_INVALID_FROM_PRIOR.
Example unpack_plaintext_works_invalid_from_prior_1 : r_unpack_plaintext_works_invalid_from_prior_1 = Some Malformed. Proof. reflexivity. Qed.
(** src/message/unpack/mod.rs:2082 *)
Definition r_unpack_plaintext_works_invalid_from_prior_signature_1 := Eval vm_compute in unpack_err PLAINTEXT_FROM_PRIOR_INVALID_SIGNATURE.
Example unpack_plaintext_works_invalid_from_prior_signature_1 : r_unpack_plaintext_works_invalid_from_prior_signature_1 = Some Malformed. Proof. reflexivity. Qed.
