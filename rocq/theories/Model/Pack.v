(** src/message/pack_plaintext.rs, pack_signed.rs, pack_encrypted/*.rs. *)
From Verif.Model Require Import Prelude Utf8 Json Serde Base64 DidDoc Crypto Keys Effects Jws Jwe Message FromPrior.

(** src/algorithms.rs:3-17: AnonCryptAlg *)
Inductive anon_alg := AnonA256cbcHs512 | AnonXc20p | AnonA256gcm.
(** src/algorithms.rs:25-30: AuthCryptAlg *)
Inductive auth_alg := AuthA256cbcHs512.
(** src/algorithms.rs:38-43: SignAlg *)
Inductive sign_alg := SignEdDSA | SignES256 | SignES256K.

(** src/message/pack_encrypted/mod.rs:202-231 *)
Record pack_options := mkPO {
  po_protect_sender : bool; po_forward : bool;
  po_forward_headers : option (list (bytes * value));
  po_messaging_service : option bytes;
  po_enc_alg_auth : auth_alg; po_enc_alg_anon : anon_alg }.

(** src/message/pack_encrypted/mod.rs:233-244 (and the Default of the algorithms,
    src/algorithms.rs:19-23, 32-36) *)
Definition default_pack_options : pack_options :=
  mkPO false true None None AuthA256cbcHs512 AnonXc20p.

(** src/message/pack_encrypted/mod.rs:264-273 *)
Record service_metadata := mkSM { smd_id : bytes; smd_endpoint : bytes }.
(** src/message/pack_encrypted/mod.rs:246-262 *)
Record pack_metadata := mkPM {
  pm_service : option service_metadata; pm_from_kid : option bytes;
  pm_sign_by_kid : option bytes; pm_to_kids : list bytes }.

Section Pack.
Context (C : crypto).

(** src/message/pack_plaintext.rs:48-67: _validate_pack_plaintext *)
Definition validate_pack_plaintext (m : message) (fp : option (from_prior * bytes)) : res unit :=
  match fp with
  | None => Ok tt
  | Some (p, ik) =>
      let? _ := validate_pack p (Some ik) in
      match msg_from m with
      | Some f => if negb (beq (fp_sub p) f) then Err Malformed else Ok tt
      | None => Ok tt
      end
  end.

(** src/message/pack_plaintext.rs:27-46: pack_plaintext *)
Definition pack_plaintext (m : message) : prog (res bytes) :=
  let! fp := match msg_from_prior m with
             | Some jwt => let! p := from_prior_unpack C jwt in Ret (Ok (Some p))
             | None => Ret (Ok None)
             end in
  let! _ := Ret (validate_pack_plaintext m fp) in
  Ret (Ok (message_text m)).

(** src/message/pack_signed.rs:45-127: pack_signed, with its validation; returns
    the signed message and sign_by_kid. *)
Definition pack_signed (m : message) (sign_by : bytes) : prog (res (bytes * bytes)) :=
  if negb (is_did sign_by) then Ret (Err IllegalArgument)
  else
  let (did, key_id) := did_or_url sign_by in
  let! doc := resolve did in
  let! doc := Ret (ok_or DIDNotResolved doc) in
  let! kids := Ret (match key_id with
                    | Some kid =>
                        let? _ := ok_or DIDUrlNotFound (find_first (fun a => beq a kid) (doc_authentication doc)) in
                        Ok [kid]
                    | None => Ok (doc_authentication doc)
                    end) in
  let! found := find_secrets kids in
  let! kid := Ret (ok_or SecretNotFound (hd_error found)) in
  let! sec := get_secret kid in
  let! sec := Ret (ok_or SecretNotFound sec) in
  let! (a, k) := Ret (sec_key_pair C sec) in
  let! payload := pack_plaintext m in
  let! alg := Ret (sign_alg_of a) in
  let! msg := Ret (jws_sign C payload kid a k alg) in
  Ret (Ok (msg, kid)).

(** The keyAgreement ids kept for a DID or one key id: anoncrypt.rs:40-45,
    authcrypt.rs:53-58 and 103-108. *)
Definition select_kids (kid : option bytes) (l : list bytes) : list bytes :=
  filter (fun k => match kid with Some k' => beq k k' | None => true end) l.

(** Verification methods of key ids: anoncrypt.rs:55-70, authcrypt.rs:81-99, 118-136. *)
Definition find_vm (e : errkind) (doc : diddoc) (kid : bytes) : res verification_method :=
  ok_or e (find_first (fun vm => beq (vm_id vm) kid) (doc_verification_method doc)).

(** [key_alg() != KnownKeyAlg::Unsupported], src/message/pack_encrypted/anoncrypt.rs:75 and
    authcrypt.rs *)
Definition supported (a : kalg) : bool := negb (kalg_eqb a KUnsupported).

(** [vm.as_x25519().map(|k| (&vm.id, k))]
    (src/message/pack_encrypted/anoncrypt.rs:95 and its siblings.) *)
Definition vm_recipient (a : kalg) (vm : verification_method) : res (bytes * key C) :=
  let? k := vm_as C a vm in Ok (vm_id vm, k).

(** The jwe::encrypt instances of anoncrypt.rs:103-143 and 156-196 (also
    authcrypt.rs:201-241 and 274-314). *)
Definition anon_encrypt (ka : kalg) (alg : anon_alg) (msg : bytes) (to_keys : list (bytes * key C))
  : prog (res bytes) :=
  match alg with
  | AnonA256cbcHs512 => jwe_encrypt C CA256CbcHs512 KdfEs ka msg EcdhEsA256kw A256cbcHs512 None to_keys
  | AnonXc20p => jwe_encrypt C CXC20P KdfEs ka msg EcdhEsA256kw Xc20P None to_keys
  | AnonA256gcm => jwe_encrypt C CA256Gcm KdfEs ka msg EcdhEsA256kw A256Gcm None to_keys
  end.

(** src/message/pack_encrypted/anoncrypt.rs:22-206: anoncrypt *)
Definition anoncrypt (to : bytes) (msg : bytes) (alg : anon_alg) : prog (res (bytes * list bytes)) :=
  let (to_did, to_kid) := did_or_url to in
  let! doc := resolve to_did in
  let! doc := Ret (ok_or DIDNotResolved doc) in
  let kids := select_kids to_kid (doc_key_agreement doc) in
  match kids with
  | [] => Ret (Err DIDUrlNotFound)
  | _ =>
      let! keys := Ret (rmap (find_vm Unsupported doc) kids) in
      let! ka := Ret (ok_or InvalidState
                   (hd_error (map vm_key_alg (filter (fun vm => supported (vm_key_alg vm)) keys)))) in
      let to_keys := filter (fun vm => kalg_eqb (vm_key_alg vm) ka) keys in
      let! msg :=
        match ka with
        | KX25519 | KP256 =>
            let! rs := Ret (rmap (vm_recipient ka) to_keys) in
            anon_encrypt ka alg msg rs
        | _ => Ret (Err InvalidState)
        end in
      Ret (Ok (msg, map vm_id to_keys))
  end.

(** src/message/pack_encrypted/authcrypt.rs:172-323, for one of the two curves *)
Definition auth_encrypt (ka : kalg) (au : auth_alg) (an : anon_alg) (protect : bool) (msg : bytes)
  (from_key : verification_method) (from_secret : secret) (to_keys : list verification_method)
  : prog (res bytes) :=
  let! rs := Ret (rmap (vm_recipient ka) to_keys) in
  let! sk := Ret (sec_as C ka from_secret) in
  let! msg := match au with
              | AuthA256cbcHs512 =>
                  jwe_encrypt C CA256CbcHs512 Kdf1pu ka msg Ecdh1puA256kw A256cbcHs512
                              (Some (vm_id from_key, sk)) rs
              end in
  if protect then anon_encrypt ka an msg rs else Ret (Ok msg).

(** src/message/pack_encrypted/authcrypt.rs:23-327: authcrypt *)
Definition authcrypt (to from : bytes) (msg : bytes) (au : auth_alg) (an : anon_alg) (protect : bool)
  : prog (res (bytes * bytes * list bytes)) :=
  let (to_did, to_kid) := did_or_url to in
  let! to_doc := resolve to_did in
  let! to_doc := Ret (ok_or DIDNotResolved to_doc) in
  let (from_did, from_kid) := did_or_url from in
  let! from_doc := resolve from_did in
  let! from_doc := Ret (ok_or DIDNotResolved from_doc) in
  match select_kids from_kid (doc_key_agreement from_doc) with
  | [] => Ret (Err DIDUrlNotFound)
  | from_kids =>
      let! found := find_secrets from_kids in
      match found with
      | [] => Ret (Err SecretNotFound)
      | _ =>
          let! from_keys := Ret (rmap (find_vm Malformed from_doc) found) in
          match select_kids to_kid (doc_key_agreement to_doc) with
          | [] => Ret (Err DIDUrlNotFound)
          | to_kids =>
              let! to_keys := Ret (rmap (find_vm Malformed to_doc) to_kids) in
              let! from_key := Ret (ok_or NoCompatibleCrypto
                (find_first (fun f => existsb (fun t => kalg_eqb (vm_key_alg t) (vm_key_alg f)) to_keys)
                            (filter (fun f => supported (vm_key_alg f)) from_keys))) in
              let! sec := get_secret (vm_id from_key) in
              let! sec := Ret (ok_or InvalidState sec) in
              let ka := vm_key_alg from_key in
              let to_keys := filter (fun t => kalg_eqb (vm_key_alg t) ka) to_keys in
              let! msg :=
                match ka with
                | KX25519 | KP256 => auth_encrypt ka au an protect msg from_key sec to_keys
                | _ => Ret (Err Unsupported)
                end in
              Ret (Ok (msg, vm_id from_key, map vm_id to_keys))
          end
      end
  end.

(** src/message/pack_encrypted/mod.rs:149-199: _validate_pack_encrypted *)
Definition validate_pack_encrypted (m : message) (to : bytes) (from sign_by : option bytes) : res unit :=
  if negb (is_did to) then Err IllegalArgument
  else if match from with Some f => negb (is_did f) | None => false end then Err IllegalArgument
  else if match sign_by with Some s => negb (is_did s) | None => false end then Err IllegalArgument
  else if match msg_to m with Some l => negb (bmem (fst (did_or_url to)) l) | None => false end
       then Err IllegalArgument
  else if match from, msg_from m with
          | Some f, Some mf => negb (beq (fst (did_or_url f)) mf)
          | _, _ => false
          end then Err IllegalArgument
  else Ok tt.

End Pack.
