(** src/message/unpack/*.rs: Message::unpack. *)
From Verif.Model Require Import Prelude Utf8 Json Serde Base64 DidDoc Crypto Keys Effects Jws Jwe Message FromPrior Pack Routing.

(** src/message/unpack/mod.rs:156-169 *)
Record unpack_options := mkUO { uo_all_keys : bool; uo_unwrap : bool }.
(** src/message/unpack/mod.rs:171-178 *)
Definition default_unpack_options : unpack_options := mkUO false true.

(** src/message/unpack/mod.rs:180-225 *)
Record unpack_metadata := mkUM {
  um_encrypted : bool; um_authenticated : bool; um_non_repudiation : bool;
  um_anonymous_sender : bool; um_re_wrapped : bool;
  um_encrypted_from_kid : option bytes; um_encrypted_to_kids : option (list bytes);
  um_sign_from : option bytes; um_from_prior_issuer_kid : option bytes;
  um_enc_alg_auth : option auth_alg; um_enc_alg_anon : option anon_alg;
  um_sign_alg : option sign_alg; um_signed_message : option bytes;
  um_from_prior : option from_prior }.
(** src/message/unpack/mod.rs:59-74 *)
Definition um_init : unpack_metadata :=
  mkUM false false false false false None None None None None None None None None.

(** The assignments to metadata made by each stage.
    unpack/anoncrypt.rs:68-70 and 97-147: *)
Definition md_anon (kids : list bytes) (alg : anon_alg) (m : unpack_metadata) : unpack_metadata :=
  mkUM true (um_authenticated m) (um_non_repudiation m) true (um_re_wrapped m)
       (um_encrypted_from_kid m) (Some kids) (um_sign_from m) (um_from_prior_issuer_kid m)
       (um_enc_alg_auth m) (Some alg) (um_sign_alg m) (um_signed_message m) (um_from_prior m).
(** unpack/mod.rs:96: *)
Definition md_rewrapped (m : unpack_metadata) : unpack_metadata :=
  mkUM (um_encrypted m) (um_authenticated m) (um_non_repudiation m) (um_anonymous_sender m) true
       (um_encrypted_from_kid m) (um_encrypted_to_kids m) (um_sign_from m) (um_from_prior_issuer_kid m)
       (um_enc_alg_auth m) (um_enc_alg_anon m) (um_sign_alg m) (um_signed_message m) (um_from_prior m).
(** unpack/authcrypt.rs:111-119 and 150, 164: *)
Definition md_auth (kids : list bytes) (from_kid : bytes) (m : unpack_metadata) : unpack_metadata :=
  mkUM true true (um_non_repudiation m) (um_anonymous_sender m) (um_re_wrapped m)
       (Some from_kid)
       (match um_encrypted_to_kids m with None => Some kids | Some k => Some k end)
       (um_sign_from m) (um_from_prior_issuer_kid m)
       (Some AuthA256cbcHs512) (um_enc_alg_anon m) (um_sign_alg m) (um_signed_message m) (um_from_prior m).
(** unpack/sign.rs:96,107,118 and 145-148: *)
Definition md_sign (alg : sign_alg) (kid text : bytes) (m : unpack_metadata) : unpack_metadata :=
  mkUM (um_encrypted m) true true (um_anonymous_sender m) (um_re_wrapped m)
       (um_encrypted_from_kid m) (um_encrypted_to_kids m) (Some kid) (um_from_prior_issuer_kid m)
       (um_enc_alg_auth m) (um_enc_alg_anon m) (Some alg) (Some text) (um_from_prior m).
(** unpack/plaintext.rs:21-22: *)
Definition md_prior (p : from_prior) (kid : bytes) (m : unpack_metadata) : unpack_metadata :=
  mkUM (um_encrypted m) (um_authenticated m) (um_non_repudiation m) (um_anonymous_sender m)
       (um_re_wrapped m) (um_encrypted_from_kid m) (um_encrypted_to_kids m) (um_sign_from m)
       (Some kid) (um_enc_alg_auth m) (um_enc_alg_anon m) (um_sign_alg m) (um_signed_message m)
       (Some p).

(** [match X::from_str(msg) { Err(e) if e.kind() == Malformed => return Ok(None), ... }]:
    unpack/anoncrypt.rs:29-33, authcrypt.rs:31-35, sign.rs:21-25, plaintext.rs:10-14,
    mod.rs:132-136 *)
Definition soft {A} (r : res A) : res (option A) :=
  match r with
  | Ok a => Ok (Some a)
  | Err Malformed => Ok None
  | Err k => Err k
  | Panic => Panic
  end.

(** The recipient checks of unpack/anoncrypt.rs:44-66 and authcrypt.rs:87-109 *)
Definition check_recipients (kids : list bytes) : res unit :=
  match kids with
  | [] => Err Malformed
  | k :: _ =>
      let to_did := fst (did_or_url k) in
      if existsb (fun k => negb (beq (fst (did_or_url k)) to_did)
                           || negb (is_some (snd (did_or_url k)))) kids
      then Err Malformed else Ok tt
  end.

Section Unpack.
Context (C : crypto).

(** The match on (key, enc) of unpack/anoncrypt.rs:95-160 *)
Definition anon_cenc (e : jwe_enc) : res (cenc * anon_alg) :=
  match e with
  | A256cbcHs512 => Ok (CA256CbcHs512, AnonA256cbcHs512)
  | Xc20P => Ok (CXC20P, AnonXc20p)
  | A256Gcm => Ok (CA256Gcm, AnonA256gcm)
  | JweEncOther _ => Err Unsupported
  end.
(** The match on (recipient key, enc) of src/message/unpack/anoncrypt.rs:95-165 *)
Definition anon_open (p : parsed_jwe) (kid : bytes) (ka : kalg) (k : key C) : res (bytes * anon_alg) :=
  match ka with
  | KX25519 | KP256 =>
      let? (ce, alg) := anon_cenc (ph_enc (pj_protected p)) in
      let? pt := jwe_decrypt C ce KdfEs ka p None kid k in
      Ok (pt, alg)
  | _ => Err Unsupported
  end.

(** The match on (sender key, recipient key, enc) of unpack/authcrypt.rs:144-185 *)
Definition auth_open (p : parsed_jwe) (from_kid : bytes) (from_key : kalg * key C) (kid : bytes)
  (ka : kalg) (k : key C) : res bytes :=
  match fst from_key, ka, ph_enc (pj_protected p) with
  | KX25519, KX25519, A256cbcHs512 =>
      jwe_decrypt C CA256CbcHs512 Kdf1pu KX25519 p (Some (from_kid, snd from_key)) kid k
  | KP256, KP256, A256cbcHs512 =>
      jwe_decrypt C CA256CbcHs512 Kdf1pu KP256 p (Some (from_kid, snd from_key)) kid k
  | KX25519, KP256, _ => Err Malformed
  | KP256, KX25519, _ => Err Malformed
  | _, _, _ => Err Unsupported
  end.

(** The loops over found secrets, unpack/anoncrypt.rs:81-169 and authcrypt.rs:130-194:
    [open] opens the envelope with one key; the result is the last payload. *)
Fixpoint open_loop {A} (all : bool) (open : bytes -> kalg -> key C -> res A) (found : list bytes)
  (last : option A) : prog (res A) :=
  match found with
  | [] => Ret (ok_or InvalidState last)
  | kid :: found' =>
      let! sec := get_secret kid in
      let! sec := Ret (ok_or InvalidState sec) in
      let! (ka, k) := Ret (sec_key_pair C sec) in
      let! a := Ret (open kid ka k) in
      if all then open_loop all open found' (Some a) else Ret (Ok a)
  end.

(** src/message/unpack/anoncrypt.rs:23-175: _try_unpack_anoncrypt *)
Definition try_anoncrypt (msg : bytes) (o : unpack_options) (md : unpack_metadata)
  : prog (res (option (bytes * unpack_metadata))) :=
  let! j := Ret (soft (jwe_from_str msg)) in
  match j with
  | None => Ret (Ok None)
  | Some j =>
      let! p := Ret (jwe_parse C j) in
      match ph_alg (pj_protected p) with
      | EcdhEsA256kw =>
          let! p := Ret (verify_didcomm C p) in
          let kids := map rc_kid (jwe_recipients j) in
          let! _ := Ret (check_recipients kids) in
          let! found := find_secrets kids in
          match found with
          | [] => Ret (Err SecretNotFound)
          | _ =>
              let! (pt, alg) := open_loop (uo_all_keys o) (anon_open p) found None in
              if utf8 pt then Ret (Ok (Some (pt, md_anon kids alg md))) else Ret (Err Malformed)
          end
      | _ => Ret (Ok None)
      end
  end.

(** src/message/unpack/authcrypt.rs:24-200: _try_unpack_authcrypt *)
Definition try_authcrypt (msg : bytes) (o : unpack_options) (md : unpack_metadata)
  : prog (res (option (bytes * unpack_metadata))) :=
  let! j := Ret (soft (jwe_from_str msg)) in
  match j with
  | None => Ret (Ok None)
  | Some j =>
      let! p := Ret (jwe_parse C j) in
      match ph_alg (pj_protected p) with
      | Ecdh1puA256kw =>
          let! p := Ret (verify_didcomm C p) in
          let! apu := Ret (ok_or Malformed (pj_apu p)) in
          if negb (utf8 apu) then Ret (Err Malformed)
          else
          let (from_did, from_url) := did_or_url apu in
          if negb (is_some from_url) then Ret (Err Malformed)
          else
          let! doc := pkind InvalidState (resolve from_did) in
          let! doc := Ret (ok_or DIDNotResolved doc) in
          let! from_kid := Ret (ok_or DIDUrlNotFound
                             (find_first (fun k => beq k apu) (doc_key_agreement doc))) in
          let! vm := Ret (ok_or DIDUrlNotFound
                       (find_first (fun vm => beq (vm_id vm) from_kid) (doc_verification_method doc))) in
          let! from_key := Ret (vm_key_pair C vm) in
          let kids := map rc_kid (jwe_recipients j) in
          let! _ := Ret (check_recipients kids) in
          let! found := find_secrets kids in
          match found with
          | [] => Ret (Err SecretNotFound)
          | _ =>
              let! pt := open_loop (uo_all_keys o) (auth_open p from_kid from_key) found None in
              if utf8 pt then Ret (Ok (Some (pt, md_auth kids from_kid md))) else Ret (Err Malformed)
          end
      | _ => Ret (Ok None)
      end
  end.

(** unpack/sign.rs:96,107,118 *)
Definition sign_alg_md (a : jws_alg) : res sign_alg :=
  match a with
  | EdDSA => Ok SignEdDSA | Es256 => Ok SignES256 | Es256K => Ok SignES256K
  | JwsAlgOther _ => Err Unsupported
  end.

(** src/message/unpack/sign.rs:13-151: _try_unpack_sign *)
Definition try_sign (msg : bytes) (md : unpack_metadata)
  : prog (res (option (bytes * unpack_metadata))) :=
  let! j := Ret (soft (jws_from_str msg)) in
  match j with
  | None => Ret (Ok None)
  | Some j =>
      let! pj := Ret (jws_parse j) in
      match snd pj, jws_signatures j with
      | [h], sg :: _ =>
          let kid := sig_kid sg in
          let (did, url) := did_or_url kid in
          if negb (is_some url) then Ret (Err Malformed)
          else
          let! doc := resolve did in
          let! doc := Ret (ok_or DIDNotResolved doc) in
          let! kid := Ret (ok_or DIDUrlNotFound (find_first (fun k => beq k kid) (doc_authentication doc))) in
          let! vm := Ret (ok_or DIDUrlNotFound
                       (find_first (fun vm => beq (vm_id vm) kid) (doc_verification_method doc))) in
          let! a := Ret (verify_alg_of (jh_alg h)) in
          let! salg := Ret (sign_alg_md (jh_alg h)) in
          let! k := Ret (vm_as C a vm) in
          let! valid := Ret (jws_verify C pj kid a k) in
          if negb valid then Ret (Err Malformed)
          else
          let! payload := Ret (ok_or Malformed (b64dec (jws_payload j))) in
          if utf8 payload then Ret (Ok (Some (payload, md_sign salg kid msg md)))
          else Ret (Err Malformed)
      | [_], [] => Ret (Err InvalidState)
      | _, _ => Ret (Err Malformed)
      end
  end.

(** src/message/unpack/plaintext.rs:5-26: _try_unpack_plaintext *)
Definition try_plaintext (msg : bytes) (md : unpack_metadata)
  : prog (res (option (message * unpack_metadata))) :=
  let! m := Ret (soft (message_from_str (fparse C) msg)) in
  match m with
  | None => Ret (Ok None)
  | Some m =>
      let! m := Ret (msg_validate m) in
      match msg_from_prior m with
      | Some jwt =>
          let! (p, kid) := from_prior_unpack C jwt in
          Ret (Ok (Some (m, md_prior p kid md)))
      | None => Ret (Ok (Some (m, md)))
      end
  end.

(** src/message/unpack/mod.rs:227-250: has_key_agreement_secret *)
Definition has_secret (did_or_kid : bytes) : prog (res bool) :=
  let! kids := match did_or_url did_or_kid with
               | (_, Some kid) => Ret (Ok [kid])
               | (did, None) =>
                   let! doc := resolve did in
                   let! doc := Ret (ok_or DIDNotResolved doc) in
                   Ret (Ok (doc_key_agreement doc))
               end in
  let! found := find_secrets kids in
  Ret (Ok (match found with [] => false | _ => true end)).

(** src/message/unpack/mod.rs:127-153: _try_unwrap_forwarded_message *)
Definition try_unwrap (msg : bytes) : prog (res (option bytes)) :=
  let! m := Ret (soft (message_from_str (fparse C) msg)) in
  match m with
  | None => Ret (Ok None)
  | Some m =>
      match try_parse_forward m with
      | None => Ret (Ok None)
      | Some f =>
          let! mine := has_secret (pf_next f) in
          Ret (Ok (if mine then Some (print (pf_forwarded f)) else None))
      end
  end.

(** src/message/unpack/mod.rs:105-124: after the loop *)
Definition unpack_rest (msg : bytes) (o : unpack_options) (md : unpack_metadata)
  : prog (res (message * unpack_metadata)) :=
  let! a := try_authcrypt msg o md in
  let (msg, md) := match a with Some (m, d) => (m, d) | None => (msg, md) end in
  let! s := try_sign msg md in
  let (msg, md) := match s with Some (m, d) => (m, d) | None => (msg, md) end in
  let! p := try_plaintext msg md in
  Ret (ok_or Malformed p).

(** src/message/unpack/mod.rs:80-103: the loop; [None] when [fuel] runs out. *)
Fixpoint unpack_loop (fuel : nat) (msg : bytes) (o : unpack_options) (md : unpack_metadata)
  : prog (option (res (message * unpack_metadata))) :=
  match fuel with
  | O => Ret None
  | S f =>
      bind (try_anoncrypt msg o md) (fun r =>
        match r with
        | Err k => Ret (Some (Err k))
        | Panic => Ret (Some Panic)
        | Ok None => bind (unpack_rest msg o md) (fun x => Ret (Some x))
        | Ok (Some (pt, md')) =>
            if uo_unwrap o then
              bind (try_unwrap pt) (fun u =>
                match u with
                | Err k => Ret (Some (Err k))
                | Panic => Ret (Some Panic)
                | Ok (Some fwd) => unpack_loop f fwd o (md_rewrapped md')
                | Ok None => bind (unpack_rest pt o md') (fun x => Ret (Some x))
                end)
            else bind (unpack_rest pt o md') (fun x => Ret (Some x))
        end)
  end.

(** src/message/unpack/mod.rs:53-125: Message::unpack *)
Definition unpack (fuel : nat) (msg : bytes) (o : unpack_options)
  : prog (option (res (message * unpack_metadata))) :=
  unpack_loop fuel msg o um_init.

End Unpack.
