(** DID documents and secrets as plain data: src/did/did_doc.rs, src/secrets/mod.rs. *)
From Verif.Model Require Import Prelude Json.

(** src/did/did_doc.rs:42-51 and src/secrets/mod.rs:85-94 *)
Inductive vmtype :=
| JsonWebKey2020 | X25519KeyAgreementKey2019 | Ed25519VerificationKey2018
| EcdsaSecp256k1VerificationKey2019 | X25519KeyAgreementKey2020
| Ed25519VerificationKey2020 | OtherType.

(** src/did/did_doc.rs:53-65 and src/secrets/mod.rs:97-108 *)
Inductive material :=
| MJwk (v : value)
| MMultibase (s : bytes)
| MBase58 (s : bytes).

(** src/did/did_doc.rs:32-40 *)
Record verification_method := mkVM {
  vm_id : bytes; vm_type : vmtype; vm_controller : bytes; vm_material : material }.

(** src/did/did_doc.rs:92-103 *)
Record messaging_service := mkMS {
  ms_uri : bytes; ms_accept : option (list bytes); ms_routing_keys : list bytes }.

(** src/did/did_doc.rs:76-88 *)
Inductive service_kind := DIDCommMessaging (s : messaging_service) | OtherService (v : value).

(** src/did/did_doc.rs:67-74 *)
Record service := mkService { svc_id : bytes; svc_kind : service_kind }.

(** src/did/did_doc.rs:6-28 *)
Record diddoc := mkDoc {
  doc_id : bytes;
  doc_key_agreement : list bytes;
  doc_authentication : list bytes;
  doc_verification_method : list verification_method;
  doc_service : list service }.

(** src/secrets/mod.rs:69-82 *)
Record secret := mkSecret { sec_id : bytes; sec_type : vmtype; sec_material : material }.

(** src/did/resolvers/example.rs:19-30: ExampleDIDResolver::resolve *)
Definition example_resolve (known : list diddoc) (did : bytes) : res (option diddoc) :=
  Ok (find_first (fun d => beq (doc_id d) did) known).

(** src/secrets/resolvers/example.rs:20-27: ExampleSecretsResolver::get_secret *)
Definition example_get_secret (known : list secret) (id : bytes) : res (option secret) :=
  Ok (find_first (fun s => beq (sec_id s) id) known).

(** src/secrets/resolvers/example.rs:29-35: ExampleSecretsResolver::find_secrets *)
Definition example_find_secrets (known : list secret) (ids : list bytes) : res (list bytes) :=
  Ok (filter (fun sid => is_some (find_first (fun s => beq (sec_id s) sid) known)) ids).
