(** DID documents and secrets in JSON (src/did/did_doc.rs, src/secrets/mod.rs), and the
    wasm layer that reads and writes them (wasm/src/did, wasm/src/secrets,
    wasm/src/message). *)
From Verif.Model Require Import Prelude Json Serde DidDoc Crypto Effects Message FromPrior Pack Routing Unpack Bindings.

(** *** Names *)

(** src/did/did_doc.rs:42-51 and src/secrets/mod.rs:85-94: the variant names *)
Definition vmtype_name (t : vmtype) : bytes :=
  match t with
  | JsonWebKey2020 => B "JsonWebKey2020"
  | X25519KeyAgreementKey2019 => B "X25519KeyAgreementKey2019"
  | Ed25519VerificationKey2018 => B "Ed25519VerificationKey2018"
  | EcdsaSecp256k1VerificationKey2019 => B "EcdsaSecp256k1VerificationKey2019"
  | X25519KeyAgreementKey2020 => B "X25519KeyAgreementKey2020"
  | Ed25519VerificationKey2020 => B "Ed25519VerificationKey2020"
  | OtherType => B "Other"
  end.
(** src/did/did_doc.rs:42-51 and src/secrets/mod.rs:85-94: any other name is an
    "unknown variant" *)
Definition vmtype_of (s : bytes) : option vmtype :=
  if beq s (B "JsonWebKey2020") then Some JsonWebKey2020
  else if beq s (B "X25519KeyAgreementKey2019") then Some X25519KeyAgreementKey2019
  else if beq s (B "Ed25519VerificationKey2018") then Some Ed25519VerificationKey2018
  else if beq s (B "EcdsaSecp256k1VerificationKey2019") then Some EcdsaSecp256k1VerificationKey2019
  else if beq s (B "X25519KeyAgreementKey2020") then Some X25519KeyAgreementKey2020
  else if beq s (B "Ed25519VerificationKey2020") then Some Ed25519VerificationKey2020
  else if beq s (B "Other") then Some OtherType
  else None.

(** *** Reading *)

(** src/did/did_doc.rs:53-65 and src/secrets/mod.rs:97-108, #[serde(untagged)] and
    flattened: of the members that were left over, the first variant that decodes. *)
Definition c_material (jwk multibase base58 : string) (l : list (bytes * value)) : res material :=
  match (let? o := c_field jwk l in c_need (fun v => Ok (norm v)) o) with
  | Ok v => Ok (MJwk v)
  | _ =>
      match (let? o := c_field multibase l in c_need c_string o) with
      | Ok s => Ok (MMultibase s)
      | _ =>
          match (let? o := c_field base58 l in c_need c_string o) with
          | Ok s => Ok (MBase58 s)
          | _ => Err Malformed
          end
      end
  end.

(** src/did/did_doc.rs:92-103: DIDCommMessagingService from buffered content.
    [accept] may be missing or null, [routingKeys] may only be missing. *)
Definition c_accept (l : list (bytes * value)) : res (option (list bytes)) :=
  let? o := c_field "accept" l in
  match o with
  | None | Some VNull => Ok None
  | Some v => let? s := c_strings v in Ok (Some s)
  end.
(** src/did/did_doc.rs:101-102: #[serde(default)] routing_keys *)
Definition c_routing_keys (l : list (bytes * value)) : res (list bytes) :=
  let? o := c_field "routingKeys" l in
  match o with None => Ok [] | Some v => c_strings v end.
(** src/did/did_doc.rs:92-103 *)
Definition c_messaging (l : list (bytes * value)) : res messaging_service :=
  let? o := c_field "uri" l in let? u := c_need c_string o in
  let? a := c_accept l in let? r := c_routing_keys l in
  Ok (mkMS u a r).

(** src/did/did_doc.rs:76-88: adjacently tagged; the tag and the content are looked
    for among the members that are left over, in either order.  Simplified: a tag
    that is not a string is an error here, while some versions of serde also take
    the number of the variant or an object with the variant name. *)
Definition c_service_kind (l : list (bytes * value)) : res service_kind :=
  let? t := c_field "type" l in let? t := c_need c_string t in
  let? c := c_field "serviceEndpoint" l in
  match c with
  | Some (VObj m) =>
      if beq t (B "DIDCommMessaging") then let? s := c_messaging m in Ok (DIDCommMessaging s)
      else if beq t (B "Other") then Ok (OtherService (norm (VObj m)))
      else Err Malformed
  | _ => Err Malformed
  end.

Section DocJson.
Variable fparse : bytes -> option bytes.

(** src/did/did_doc.rs:32-40: Deserialize for VerificationMethod.  It has a flattened
    field, so it is only read from an object and the other members are buffered. *)
Definition vm_step (s : option bytes * option vmtype * option bytes * list (bytes * value)) (k : bytes) (v : raw) :=
  let '(i, t, c, x) := s in
  if beq k (B "id") then let? i := once i de_string v in Ok (i, t, c, x)
  else if beq k (B "type") then let? t := once t (de_unit_enum vmtype_of) v in Ok (i, t, c, x)
  else if beq k (B "controller") then let? c := once c de_string v in Ok (i, t, c, x)
  else let? v := to_content fparse (max_depth - 3) v in Ok (i, t, c, x ++ [(k, v)]).
(** src/did/did_doc.rs:32-40 *)
Definition de_vm (r : raw) : res verification_method :=
  match r with
  | RObj l tl =>
      let? s := walk vm_step (None, None, None, []) l tl in
      let '(i, t, c, x) := s in
      let? i := need i in let? t := need t in let? c := need c in
      let? m := c_material "publicKeyJwk" "publicKeyMultibase" "publicKeyBase58" x in
      Ok (mkVM i t c m)
  | _ => mismatch r
  end.

(** src/did/did_doc.rs:67-74: Deserialize for Service *)
Definition service_step (s : option bytes * list (bytes * value)) (k : bytes) (v : raw) :=
  let '(i, x) := s in
  if beq k (B "id") then let? i := once i de_string v in Ok (i, x)
  else let? v := to_content fparse (max_depth - 3) v in Ok (i, x ++ [(k, v)]).
(** src/did/did_doc.rs:67-74 *)
Definition de_service (r : raw) : res service :=
  match r with
  | RObj l tl =>
      let? s := walk service_step (None, []) l tl in
      let '(i, x) := s in
      let? i := need i in let? e := c_service_kind x in
      Ok (mkService i e)
  | _ => mismatch r
  end.

(** src/did/did_doc.rs:6-28: Deserialize for DIDDoc *)
Definition de_doc (r : raw) : res diddoc :=
  match r with
  | RObj l tl =>
      let? s := walk (fun '(i, ka, au, vm, se) k v =>
          if beq k (B "id") then let? i := once i de_string v in Ok (i, ka, au, vm, se)
          else if beq k (B "keyAgreement") then let? ka := once ka (de_vec de_string) v in Ok (i, ka, au, vm, se)
          else if beq k (B "authentication") then let? au := once au (de_vec de_string) v in Ok (i, ka, au, vm, se)
          else if beq k (B "verificationMethod") then let? vm := once vm (de_vec de_vm) v in Ok (i, ka, au, vm, se)
          else if beq k (B "service") then let? se := once se (de_vec de_service) v in Ok (i, ka, au, vm, se)
          else let? _ := skip v in Ok (i, ka, au, vm, se)) (None, None, None, None, None) l tl in
      let '(i, ka, au, vm, se) := s in
      let? i := need i in let? ka := need ka in let? au := need au in let? vm := need vm in let? se := need se in
      Ok (mkDoc i ka au vm se)
  | RArr l tl =>
      let? (i, l) := elem de_string l tl in
      let? (ka, l) := elem (de_vec de_string) l tl in
      let? (au, l) := elem (de_vec de_string) l tl in
      let? (vm, l) := elem (de_vec de_vm) l tl in
      let? (se, l) := elem (de_vec de_service) l tl in
      let? _ := end_seq l tl in Ok (mkDoc i ka au vm se)
  | _ => mismatch r
  end.

(** src/secrets/mod.rs:69-82: Deserialize for Secret *)
Definition secret_step (s : option bytes * option vmtype * list (bytes * value)) (k : bytes) (v : raw) :=
  let '(i, t, x) := s in
  if beq k (B "id") then let? i := once i de_string v in Ok (i, t, x)
  else if beq k (B "type") then let? t := once t (de_unit_enum vmtype_of) v in Ok (i, t, x)
  else let? v := to_content fparse (max_depth - 1) v in Ok (i, t, x ++ [(k, v)]).
(** src/secrets/mod.rs:69-82 *)
Definition de_secret (r : raw) : res secret :=
  match r with
  | RObj l tl =>
      let? s := walk secret_step (None, None, []) l tl in
      let '(i, t, x) := s in
      let? i := need i in let? t := need t in
      let? m := c_material "privateKeyJwk" "privateKeyMultibase" "privateKeyBase58" x in
      Ok (mkSecret i t m)
  | _ => mismatch r
  end.

(** [serde_json::from_str::<DIDDoc>] (src/did/did_doc.rs:7) *)
Definition doc_from_str (s : bytes) : res diddoc := from_json de_doc s.
(** [serde_json::from_str::<Secret>] (src/secrets/mod.rs:70) *)
Definition secret_from_str (s : bytes) : res secret := from_json de_secret s.
End DocJson.

(** *** Writing *)

(** src/did/did_doc.rs:53-65 and src/secrets/mod.rs:97-108: Serialize *)
Definition material_member (jwk multibase base58 : string) (m : material) : bytes * value :=
  match m with
  | MJwk v => (B jwk, v)
  | MMultibase s => (B multibase, VStr s)
  | MBase58 s => (B base58, VStr s)
  end.
(** src/did/did_doc.rs:32-40: Serialize *)
Definition vm_tree (m : verification_method) : value :=
  VObj [(B "id", VStr (vm_id m)); (B "type", VStr (vmtype_name (vm_type m))); (B "controller", VStr (vm_controller m));
        material_member "publicKeyJwk" "publicKeyMultibase" "publicKeyBase58" (vm_material m)].
(** src/did/did_doc.rs:92-103: Serialize *)
Definition messaging_tree (s : messaging_service) : value :=
  VObj ((B "uri", VStr (ms_uri s)) :: opt_member "accept" VStrs (ms_accept s) ++ [(B "routingKeys", VStrs (ms_routing_keys s))]).
(** src/did/did_doc.rs:67-88: Serialize; "can only flatten structs and maps" if the
    value of another service is not an object *)
Definition service_tree (s : service) : res value :=
  let t (k : string) e := VObj [(B "id", VStr (svc_id s)); (B "type", VStr (B k)); (B "serviceEndpoint", e)] in
  match svc_kind s with
  | DIDCommMessaging m => Ok (t "DIDCommMessaging"%string (messaging_tree m))
  | OtherService (VObj l) => Ok (t "Other"%string (VObj l))
  | OtherService _ => Err Malformed
  end.
(** src/did/did_doc.rs:6-28: Serialize *)
Definition doc_tree (d : diddoc) : res value :=
  let? se := rmap service_tree (doc_service d) in
  Ok (VObj [(B "id", VStr (doc_id d)); (B "keyAgreement", VStrs (doc_key_agreement d));
            (B "authentication", VStrs (doc_authentication d));
            (B "verificationMethod", VArr (map vm_tree (doc_verification_method d)));
            (B "service", VArr se)]).
(** [serde_json::to_string] of a DIDDoc (src/did/did_doc.rs:7) *)
Definition doc_text (d : diddoc) : res bytes := let? t := doc_tree d in Ok (print t).
(** src/secrets/mod.rs:69-82: Serialize *)
Definition secret_tree (s : secret) : value :=
  VObj [(B "id", VStr (sec_id s)); (B "type", VStr (vmtype_name (sec_type s)));
        material_member "privateKeyJwk" "privateKeyMultibase" "privateKeyBase58" (sec_material s)].
(** [serde_json::to_string] of a Secret (src/secrets/mod.rs:70) *)
Definition secret_text (s : secret) : bytes := print (secret_tree s).

(** *** The wasm layer

    A JavaScript value crosses the border as the text that JSON.stringify gives
    (JsValue::into_serde), [undefined] as "null"; what is handed out
    (JsValue::from_serde) is the text given to JSON.parse.  What JavaScript does
    to a value in between (Spec/JsObj.v) is up to the caller. *)
Section Wasm.
Variable fparse : bytes -> option bytes.

(** wasm/src/did/did_resolver.rs:49-66: JsDIDResolver::resolve, given what the
    promise delivered *)
Definition js_resolve (ans : js_thrown + bytes) : res (option diddoc) :=
  match ans with
  | inl t => Err (from_js t)
  | inr s => kind InvalidState (from_json (de_option (de_doc fparse)) s)
  end.
(** wasm/src/secrets/secrets_resolver.rs:80-95: JsSecretsResolver::get_secret *)
Definition js_get_secret (ans : js_thrown + bytes) : res (option secret) :=
  match ans with
  | inl t => Err (from_js t)
  | inr s => kind InvalidState (from_json (de_option (de_secret fparse)) s)
  end.
(** wasm/src/message/mod.rs:22-33: Message::new *)
Definition js_message_new (s : bytes) : res message := kind Malformed (message_from_str fparse s).
(** wasm/src/message/mod.rs:36-42: Message::as_value *)
Definition js_message_value (m : message) : bytes := message_text m.
End Wasm.
(** wasm/src/message/from_prior/mod.rs:20-31: FromPrior::new *)
Definition js_from_prior_new (C : crypto) (s : bytes) : res from_prior := kind Malformed (from_json (de_from_prior C) s).
(** wasm/src/message/from_prior/mod.rs:34-40: FromPrior::as_value *)
Definition js_from_prior_value (p : from_prior) : bytes := print (from_prior_tree p).

(** *** Metadata for JavaScript *)

(** src/algorithms.rs:4-54: Serialize writes the variant names *)
Definition auth_alg_name (a : auth_alg) : bytes := match a with AuthA256cbcHs512 => B "A256cbcHs512Ecdh1puA256kw" end.
(** src/algorithms.rs:5-19 *)
Definition anon_alg_name (a : anon_alg) : bytes :=
  match a with
  | AnonA256cbcHs512 => B "A256cbcHs512EcdhEsA256kw"
  | AnonXc20p => B "Xc20pEcdhEsA256kw"
  | AnonA256gcm => B "A256gcmEcdhEsA256kw"
  end.
(** src/algorithms.rs:40-45 *)
Definition sign_alg_name (a : sign_alg) : bytes :=
  match a with SignEdDSA => B "EdDSA" | SignES256 => B "ES256" | SignES256K => B "ES256K" end.
(** An [Option] without skip_serializing_if is written as null when it is [None].
    (e.g. src/message/unpack/mod.rs:199.) *)
Definition opt_tree {A} (f : A -> value) (o : option A) : value := match o with Some a => f a | None => VNull end.
(** src/message/unpack/mod.rs:181-225: Serialize for UnpackMetadata *)
Definition unpack_metadata_tree (m : unpack_metadata) : value :=
  VObj [(B "encrypted", VBool (um_encrypted m)); (B "authenticated", VBool (um_authenticated m));
        (B "non_repudiation", VBool (um_non_repudiation m)); (B "anonymous_sender", VBool (um_anonymous_sender m));
        (B "re_wrapped_in_forward", VBool (um_re_wrapped m));
        (B "encrypted_from_kid", opt_tree VStr (um_encrypted_from_kid m));
        (B "encrypted_to_kids", opt_tree VStrs (um_encrypted_to_kids m));
        (B "sign_from", opt_tree VStr (um_sign_from m));
        (B "from_prior_issuer_kid", opt_tree VStr (um_from_prior_issuer_kid m));
        (B "enc_alg_auth", opt_tree (fun a => VStr (auth_alg_name a)) (um_enc_alg_auth m));
        (B "enc_alg_anon", opt_tree (fun a => VStr (anon_alg_name a)) (um_enc_alg_anon m));
        (B "sign_alg", opt_tree (fun a => VStr (sign_alg_name a)) (um_sign_alg m));
        (B "signed_message", opt_tree VStr (um_signed_message m));
        (B "from_prior", opt_tree from_prior_tree (um_from_prior m))].
(** src/message/pack_encrypted/mod.rs:246-273: Serialize for PackEncryptedMetadata
    and MessagingServiceMetadata *)
Definition pack_metadata_tree (m : pack_metadata) : value :=
  VObj [(B "messaging_service", opt_tree (fun s => VObj [(B "id", VStr (smd_id s)); (B "service_endpoint", VStr (smd_endpoint s))]) (pm_service m));
        (B "from_kid", opt_tree VStr (pm_from_kid m)); (B "sign_by_kid", opt_tree VStr (pm_sign_by_kid m));
        (B "to_kids", VStrs (pm_to_kids m))].
(** src/protocols/routing/forward.rs:7-12: Serialize for ParsedForward *)
Definition parsed_forward_tree (m : message) (p : parsed_forward) : value :=
  VObj [(B "msg", message_tree m); (B "next", VStr (pf_next p)); (B "forwarded_msg", pf_forwarded p)].
(** wasm/src/message/protocols/routing/mod.rs:76-86: try_parse_forward; null if it is none *)
Definition js_try_parse_forward (m : message) : bytes :=
  print (opt_tree (parsed_forward_tree m) (try_parse_forward m)).

Section WasmCalls.
Context (C : crypto).

(** wasm/src/message/unpack.rs:19-59: Message::unpack; the options are read first.
    The result holds the message and the text of the metadata. *)
Definition js_unpack (fuel : nat) (msg options : bytes) : prog (option (res (message * bytes))) :=
  match js_unpack_options options with
  | Ok o =>
      bind (unpack C fuel msg o) (fun r => Ret (match r with
        | Some (Ok (m, md)) => Some (Ok (m, print (unpack_metadata_tree md)))
        | Some (Err k) => Some (Err k)
        | Some Panic => Some Panic
        | None => None
        end))
  | Err k => Ret (Some (Err k))
  | Panic => Ret (Some Panic)
  end.
(** wasm/src/message/pack_encrypted.rs:15-63: Message::pack_encrypted *)
Definition js_pack_encrypted (msg : message) (to : bytes) (from sign_by : option bytes) (options : bytes)
  : prog (res (bytes * bytes)) :=
  let! o := Ret (js_pack_options (fparse C) options) in
  let! r := pack_encrypted C msg to from sign_by o in
  Ret (Ok (fst r, print (pack_metadata_tree (snd r)))).
(** wasm/src/message/pack_signed.rs:12-44: Message::pack_signed; the metadata has one field *)
Definition js_pack_signed (msg : message) (sign_by : bytes) : prog (res (bytes * bytes)) :=
  let! r := pack_signed C msg sign_by in
  Ret (Ok (fst r, print (VObj [(B "sign_by_kid", VStr (snd r))]))).
(** wasm/src/message/protocols/routing/mod.rs:32-74: Message::wrap_in_forward; the
    headers, the routing keys and the algorithm are read in this order. *)
Definition js_wrap_in_forward (msg headers to routing_keys enc_alg_anon : bytes) : prog (res bytes) :=
  let! h := Ret (kind Malformed (from_json (de_headers (fparse C) (max_depth - 1)) headers)) in
  let! ks := Ret (kind Malformed (from_json (de_vec de_string) routing_keys)) in
  let! a := Ret (kind Malformed (from_json (de_unit_enum anon_alg_of) enc_alg_anon)) in
  wrap_in_forward C msg (Some h) to ks a.
(** wasm/src/message/pack_plaintext.rs:10-19: Message::pack_plaintext *)
Definition js_pack_plaintext (msg : message) : prog (res bytes) := pack_plaintext C msg.
(** wasm/src/message/from_prior/pack.rs:12-37: FromPrior::pack, an array of two strings *)
Definition js_from_prior_pack (p : from_prior) (issuer_kid : option bytes) : prog (res (bytes * bytes)) :=
  from_prior_pack C p issuer_kid.
(** wasm/src/message/from_prior/unpack.rs:11-31: FromPrior::unpack *)
Definition js_from_prior_unpack (jwt : bytes) : prog (res (from_prior * bytes)) := from_prior_unpack C jwt.
End WasmCalls.

(** *** JSON values in uniffi *)

(** uniffi/src/common.rs:25-33: JsonValue::into_custom *)
Definition ffi_json_in (fp : bytes -> option bytes) (s : bytes) : res value := from_json (to_value fp max_depth) s.
(** uniffi/src/common.rs:35-37: JsonValue::from_custom *)
Definition ffi_json_out (v : value) : bytes := print v.
