(** The JSON that DID documents and secrets are read from, by member names
    (https://www.w3.org/TR/did-core/). *)
From Verif.Model Require Import Prelude Utf8 Json DidDoc Crypto Message FromPrior Pack Routing Unpack.
From Verif.Spec Require Import Codec Small Names World Wire.

(** The names of key types. *)
Definition type_names : list (string * vmtype) :=
  [("JsonWebKey2020"%string, JsonWebKey2020); ("X25519KeyAgreementKey2019"%string, X25519KeyAgreementKey2019);
   ("Ed25519VerificationKey2018"%string, Ed25519VerificationKey2018);
   ("EcdsaSecp256k1VerificationKey2019"%string, EcdsaSecp256k1VerificationKey2019);
   ("X25519KeyAgreementKey2020"%string, X25519KeyAgreementKey2020);
   ("Ed25519VerificationKey2020"%string, Ed25519VerificationKey2020); ("Other"%string, OtherType)].
(** A key type is its name; [{"name": null}] is taken too. *)
Definition type_read (w : value) (t : vmtype) : Prop :=
  exists n, In (n, t) type_names /\ (w = VStr (B n) \/ w = VObj [(B n, VNull)]).

(** The key: as a JWK if there is one, else multibase, else base58. *)
Definition material_read (jwk multibase base58 : string) (w : value) (m : material) : Prop :=
  (exists v, m = MJwk v /\ req value_read 0 w 0 jwk v)
  \/ (forall v, ~ req value_read 0 w 0 jwk v)
     /\ ((exists s, m = MMultibase s /\ req str_read 0 w 0 multibase s)
         \/ (forall s, ~ req str_read 0 w 0 multibase s) /\ exists s, m = MBase58 s /\ req str_read 0 w 0 base58 s).
Definition is_object (w : value) : Prop := exists l, w = VObj l.
Definition vm_read (w : value) (m : verification_method) : Prop :=
  is_object w /\ req str_read 0 w 0 "id" (vm_id m) /\ req type_read 0 w 0 "type" (vm_type m)
  /\ req str_read 0 w 0 "controller" (vm_controller m)
  /\ material_read "publicKeyJwk" "publicKeyMultibase" "publicKeyBase58" w (vm_material m).
Definition secret_read (w : value) (s : secret) : Prop :=
  is_object w /\ req str_read 0 w 0 "id" (sec_id s) /\ req type_read 0 w 0 "type" (sec_type s)
  /\ material_read "privateKeyJwk" "privateKeyMultibase" "privateKeyBase58" w (sec_material s).

Definition messaging_read (w : value) (s : messaging_service) : Prop :=
  is_object w /\ req str_read 0 w 0 "uri" (ms_uri s)
  /\ maybe (list_read str_read) 0 w 0 "accept" (ms_accept s)
  /\ (req (list_read str_read) 0 w 0 "routingKeys" (ms_routing_keys s) \/ missing w "routingKeys" /\ ms_routing_keys s = []).
Definition service_read (w : value) (s : service) : Prop :=
  is_object w /\ req str_read 0 w 0 "id" (svc_id s)
  /\ match svc_kind s with
     | DIDCommMessaging m => req str_read 0 w 0 "type" (B "DIDCommMessaging") /\ req messaging_read 0 w 0 "serviceEndpoint" m
     | OtherService v => req str_read 0 w 0 "type" (B "Other") /\ req (fun e v => is_object e /\ value_read e v) 0 w 0 "serviceEndpoint" v
     end.
Definition doc_read (w : value) (d : diddoc) : Prop :=
  req str_read 5 w 0 "id" (doc_id d)
  /\ req (list_read str_read) 5 w 1 "keyAgreement" (doc_key_agreement d)
  /\ req (list_read str_read) 5 w 2 "authentication" (doc_authentication d)
  /\ req (list_read vm_read) 5 w 3 "verificationMethod" (doc_verification_method d)
  /\ req (list_read service_read) 5 w 4 "service" (doc_service d).

(** Keys and documents that JSON can express: valid Unicode, numbers that stay, and
    nothing nested too deep. *)
Definition material_ok (fp : bytes -> option bytes) (d : nat) (m : material) : Prop :=
  match m with
  | MJwk v => json_tree fp d v /\ value_read v v
  | MMultibase s | MBase58 s => utf8 s = true
  end.
Definition vm_ok (fp : bytes -> option bytes) (m : verification_method) : Prop :=
  utf8 (vm_id m) = true /\ utf8 (vm_controller m) = true /\ material_ok fp 124 (vm_material m).
Definition all_utf8 (l : list bytes) : Prop := forall s, In s l -> utf8 s = true.
Definition service_ok (fp : bytes -> option bytes) (s : service) : Prop :=
  utf8 (svc_id s) = true
  /\ match svc_kind s with
     | DIDCommMessaging m => utf8 (ms_uri m) = true /\ (forall l, ms_accept m = Some l -> all_utf8 l) /\ all_utf8 (ms_routing_keys m)
     | OtherService v => is_object v /\ json_tree fp 124 v /\ value_read v v
     end.
Definition doc_ok (fp : bytes -> option bytes) (d : diddoc) : Prop :=
  utf8 (doc_id d) = true /\ all_utf8 (doc_key_agreement d) /\ all_utf8 (doc_authentication d)
  /\ (forall m, In m (doc_verification_method d) -> vm_ok fp m)
  /\ (forall s, In s (doc_service d) -> service_ok fp s).
Definition secret_ok (fp : bytes -> option bytes) (s : secret) : Prop :=
  utf8 (sec_id s) = true /\ material_ok fp 126 (sec_material s).

(** ** What JavaScript sees *)
Definition bool_read (w : value) (b : bool) : Prop := w = VBool b.
Definition auth_named (s : bytes) (a : auth_alg) : Prop := s = B "A256cbcHs512Ecdh1puA256kw".
Definition anon_named (s : bytes) (a : anon_alg) : Prop :=
  match a with
  | AnonA256cbcHs512 => s = B "A256cbcHs512EcdhEsA256kw"
  | AnonXc20p => s = B "Xc20pEcdhEsA256kw"
  | AnonA256gcm => s = B "A256gcmEcdhEsA256kw"
  end.
Definition sign_named (s : bytes) (a : sign_alg) : Prop :=
  match a with SignEdDSA => s = B "EdDSA" | SignES256 => s = B "ES256" | SignES256K => s = B "ES256K" end.
(** The object that describes how a message was received, member by member. *)
Definition metadata_shown (w : value) (md : unpack_metadata) : Prop :=
  req bool_read 0 w 0 "encrypted" (um_encrypted md) /\ req bool_read 0 w 0 "authenticated" (um_authenticated md)
  /\ req bool_read 0 w 0 "non_repudiation" (um_non_repudiation md) /\ req bool_read 0 w 0 "anonymous_sender" (um_anonymous_sender md)
  /\ req bool_read 0 w 0 "re_wrapped_in_forward" (um_re_wrapped md)
  /\ maybe str_read 0 w 0 "encrypted_from_kid" (um_encrypted_from_kid md)
  /\ maybe (list_read str_read) 0 w 0 "encrypted_to_kids" (um_encrypted_to_kids md)
  /\ maybe str_read 0 w 0 "sign_from" (um_sign_from md)
  /\ maybe str_read 0 w 0 "from_prior_issuer_kid" (um_from_prior_issuer_kid md)
  /\ maybe (name_read auth_named) 0 w 0 "enc_alg_auth" (um_enc_alg_auth md)
  /\ maybe (name_read anon_named) 0 w 0 "enc_alg_anon" (um_enc_alg_anon md)
  /\ maybe (name_read sign_named) 0 w 0 "sign_alg" (um_sign_alg md)
  /\ maybe str_read 0 w 0 "signed_message" (um_signed_message md)
  /\ maybe prior_read 0 w 0 "from_prior" (um_from_prior md).
(** And how one was packed. *)
Definition messaging_shown (w : value) (s : service_metadata) : Prop :=
  req str_read 0 w 0 "id" (smd_id s) /\ req str_read 0 w 0 "service_endpoint" (smd_endpoint s).
Definition packing_shown (w : value) (md : pack_metadata) : Prop :=
  maybe messaging_shown 0 w 0 "messaging_service" (pm_service md) /\ maybe str_read 0 w 0 "from_kid" (pm_from_kid md)
  /\ maybe str_read 0 w 0 "sign_by_kid" (pm_sign_by_kid md) /\ req (list_read str_read) 0 w 0 "to_kids" (pm_to_kids md).
