(** Generated by tools/gen_tests.py: the tests of src/utils/did.rs on key representations. *)
From Verif.Model Require Import Prelude Json Serde Base64 Crypto DidDoc Effects Keys Jws Jwe Message FromPrior Pack Unpack.
From Verif.Spec Require Import Sha2.
From Verif.Tests Require Import Real Check.
Open Scope N_scope.

(** src/utils/did.rs:533 *)
Definition r_secret_as_key_pair_x25519_2019_base58_works := Eval vm_compute in same_key (sec_key_pair real (mkSecret (B "did:example:eve#key-x25519-1") X25519KeyAgreementKey2019 (MBase58 (B "CMhHdN419VCSfbGxt6PEAEy72tJxYHTGHuCSH6BW9oi3")))) (KX25519, real_from_jwk KX25519 (VObj [((B "crv"), (VStr (B "X25519"))); ((B "d"), (VStr (B "qL25gw-HkNJC9m4EsRzCoUx1KntjwHPzxo6a2xUcyFQ"))); ((B "kty"), (VStr (B "OKP"))); ((B "x"), (VStr (B "tGskN_ae61DP4DLY31_fjkbvnKqf-ze7kA6Cj2vyQxU")))])).
Example secret_as_key_pair_x25519_2019_base58_works : r_secret_as_key_pair_x25519_2019_base58_works = true. Proof. reflexivity. Qed.
(** src/utils/did.rs:556 *)
Definition r_secret_as_key_pair_ed25519_2018_base58_works := Eval vm_compute in same_key (sec_key_pair real (mkSecret (B "did:example:eve#key-ed25519-1") Ed25519VerificationKey2018 (MBase58 (B "2b5J8uecvwAo9HUGge5NKQ7HoRNKUKCjZ7Fr4mDgWkwqATnLmZDx7Seu6NqTuFKkxuHNT27GcoxVZQCkWJhNvaUQ")))) (KEd25519, real_from_jwk KEd25519 (VObj [((B "crv"), (VStr (B "Ed25519"))); ((B "d"), (VStr (B "T2azVap7CYD_kB8ilbnFYqwwYb5N-GcD6yjGEvquZXg"))); ((B "kty"), (VStr (B "OKP"))); ((B "x"), (VStr (B "VDXDwuGKVq91zxU6q7__jLDUq8_C5cuxECgd-1feFTE")))])).
Example secret_as_key_pair_ed25519_2018_base58_works : r_secret_as_key_pair_ed25519_2018_base58_works = true. Proof. reflexivity. Qed.
(** src/utils/did.rs:579 *)
Definition r_secret_as_key_pair_x25519_2020_multibase_works := Eval vm_compute in same_key (sec_key_pair real (mkSecret (B "did:example:eve#key-x25519-1") X25519KeyAgreementKey2020 (MMultibase (B "z3wei8fqKMwJsyTpqDQDWZ9ytPC716YyNDZL6kewQ9qtKrTD")))) (KX25519, real_from_jwk KX25519 (VObj [((B "crv"), (VStr (B "X25519"))); ((B "d"), (VStr (B "qL25gw-HkNJC9m4EsRzCoUx1KntjwHPzxo6a2xUcyFQ"))); ((B "kty"), (VStr (B "OKP"))); ((B "x"), (VStr (B "tGskN_ae61DP4DLY31_fjkbvnKqf-ze7kA6Cj2vyQxU")))])).
Example secret_as_key_pair_x25519_2020_multibase_works : r_secret_as_key_pair_x25519_2020_multibase_works = true. Proof. reflexivity. Qed.
(** src/utils/did.rs:603 *)
Definition r_secret_as_key_pair_ed25519_2020_multibase_works := Eval vm_compute in same_key (sec_key_pair real (mkSecret (B "did:example:eve#key-ed25519-1") Ed25519VerificationKey2020 (MMultibase (B "zrv2DyJwnoQWzS74nPkHHdM7NYH27BRNFBG9To7Fca9YzWhfBVa9Mek52H9bJexjdNqxML1F3TGCpjLNkCwwgQDvd5J")))) (KEd25519, real_from_jwk KEd25519 (VObj [((B "crv"), (VStr (B "Ed25519"))); ((B "d"), (VStr (B "T2azVap7CYD_kB8ilbnFYqwwYb5N-GcD6yjGEvquZXg"))); ((B "kty"), (VStr (B "OKP"))); ((B "x"), (VStr (B "VDXDwuGKVq91zxU6q7__jLDUq8_C5cuxECgd-1feFTE")))])).
Example secret_as_key_pair_ed25519_2020_multibase_works : r_secret_as_key_pair_ed25519_2020_multibase_works = true. Proof. reflexivity. Qed.
(** src/utils/did.rs:626 *)
Definition r_verification_method_as_key_pair_x25519_2019_base58_works := Eval vm_compute in same_key (vm_key_pair real (mkVM (B "did:example:eve#key-x25519-1") X25519KeyAgreementKey2019 (B "did:example:eve#key-x25519-1") (MBase58 (B "JhNWeSVLMYccCk7iopQW4guaSJTojqpMEELgSLhKwRr")))) (KX25519, real_from_jwk KX25519 (VObj [((B "crv"), (VStr (B "X25519"))); ((B "kty"), (VStr (B "OKP"))); ((B "x"), (VStr (B "BIiFcQEn3dfvB2pjlhOQQour6jXy9d5s2FKEJNTOJik")))])).
Example verification_method_as_key_pair_x25519_2019_base58_works : r_verification_method_as_key_pair_x25519_2019_base58_works = true. Proof. reflexivity. Qed.
(** src/utils/did.rs:649 *)
Definition r_verification_method_as_key_pair_ed25519_2018_base58_works := Eval vm_compute in same_key (vm_key_pair real (mkVM (B "did:example:eve#key-ed25519-1") Ed25519VerificationKey2018 (B "did:example:eve#key-ed25519-1") (MBase58 (B "ByHnpUCFb1vAfh9CFZ8ZkmUZguURW8nSw889hy6rD8L7")))) (KEd25519, real_from_jwk KEd25519 (VObj [((B "crv"), (VStr (B "Ed25519"))); ((B "kty"), (VStr (B "OKP"))); ((B "x"), (VStr (B "owBhCbktDjkfS6PdQddT0D3yjSitaSysP3YimJ_YgmA")))])).
Example verification_method_as_key_pair_ed25519_2018_base58_works : r_verification_method_as_key_pair_ed25519_2018_base58_works = true. Proof. reflexivity. Qed.
(** src/utils/did.rs:672 *)
Definition r_verification_method_as_key_pair_x25519_2020_multibase_works := Eval vm_compute in same_key (vm_key_pair real (mkVM (B "did:example:eve#key-x25519-1") X25519KeyAgreementKey2020 (B "did:example:eve#key-x25519-1") (MMultibase (B "z6LSbysY2xFMRpGMhb7tFTLMpeuPRaqaWM1yECx2AtzE3KCc")))) (KX25519, real_from_jwk KX25519 (VObj [((B "crv"), (VStr (B "X25519"))); ((B "kty"), (VStr (B "OKP"))); ((B "x"), (VStr (B "BIiFcQEn3dfvB2pjlhOQQour6jXy9d5s2FKEJNTOJik")))])).
Example verification_method_as_key_pair_x25519_2020_multibase_works : r_verification_method_as_key_pair_x25519_2020_multibase_works = true. Proof. reflexivity. Qed.
(** src/utils/did.rs:696 *)
Definition r_verification_method_as_key_pair_ed25519_2020_multibase_works := Eval vm_compute in same_key (vm_key_pair real (mkVM (B "did:example:eve#key-ed25519-1") Ed25519VerificationKey2020 (B "did:example:eve#key-ed25519-1") (MMultibase (B "z6MkqRYqQiSgvZQdnBytw86Qbs2ZWUkGv22od935YF4s8M7V")))) (KEd25519, real_from_jwk KEd25519 (VObj [((B "crv"), (VStr (B "Ed25519"))); ((B "kty"), (VStr (B "OKP"))); ((B "x"), (VStr (B "owBhCbktDjkfS6PdQddT0D3yjSitaSysP3YimJ_YgmA")))])).
Example verification_method_as_key_pair_ed25519_2020_multibase_works : r_verification_method_as_key_pair_ed25519_2020_multibase_works = true. Proof. reflexivity. Qed.
