(** src/jwe: encrypted envelopes. *)
From Verif.Model Require Import Prelude Utf8 Json Serde Base64 Crypto Effects Jws.

(** src/jwe/envelope.rs:77-99 *)
Inductive jwe_alg := Ecdh1puA256kw | EcdhEsA256kw | JweAlgOther (s : bytes).
(** src/jwe/envelope.rs:91-99 (as_str) and Serialize_enum_str of 79-89 *)
Definition jwe_alg_str (a : jwe_alg) : bytes :=
  match a with
  | Ecdh1puA256kw => B "ECDH-1PU+A256KW" | EcdhEsA256kw => B "ECDH-ES+A256KW"
  | JweAlgOther s => s
  end.
(** src/jwe/envelope.rs:79-89, Deserialize_enum_str (serde-enum-str, Cargo.toml:40) *)
Definition jwe_alg_of (s : bytes) : jwe_alg :=
  if beq s (B "ECDH-1PU+A256KW") then Ecdh1puA256kw
  else if beq s (B "ECDH-ES+A256KW") then EcdhEsA256kw
  else JweAlgOther s.

(** src/jwe/envelope.rs:101-117 *)
Inductive jwe_enc := A256cbcHs512 | Xc20P | A256Gcm | JweEncOther (s : bytes).
(** src/jwe/envelope.rs:104-117, Serialize_enum_str *)
Definition jwe_enc_str (a : jwe_enc) : bytes :=
  match a with
  | A256cbcHs512 => B "A256CBC-HS512" | Xc20P => B "XC20P" | A256Gcm => B "A256GCM"
  | JweEncOther s => s
  end.
(** src/jwe/envelope.rs:104-117, Deserialize_enum_str *)
Definition jwe_enc_of (s : bytes) : jwe_enc :=
  if beq s (B "A256CBC-HS512") then A256cbcHs512
  else if beq s (B "XC20P") then Xc20P
  else if beq s (B "A256GCM") then A256Gcm
  else JweEncOther s.

(** src/jwe/envelope.rs:59-75 (the per-recipient header is inlined as [rc_kid]) *)
Record recipient := mkRc { rc_kid : bytes; rc_key : bytes }.
(** src/jwe/envelope.rs:6-25 *)
Record jwe := mkJwe {
  jwe_protected : bytes; jwe_recipients : list recipient;
  jwe_iv : bytes; jwe_ciphertext : bytes; jwe_tag : bytes }.
(** src/jwe/envelope.rs:27-58 *)
Record jwe_header := mkPH {
  ph_typ : option bytes; ph_alg : jwe_alg; ph_enc : jwe_enc;
  ph_skid : option bytes; ph_apu : option bytes; ph_apv : bytes; ph_epk : value }.

(** *** Serialize *)
(** src/jwe/envelope.rs:59-75, derived Serialize of Recipient and PerRecipientHeader *)
Definition recipient_tree (r : recipient) : value :=
  VObj [(B "header", VObj [(B "kid", VStr (rc_kid r))]); (B "encrypted_key", VStr (rc_key r))].
(** src/jwe/envelope.rs:8-25, derived Serialize of JWE *)
Definition jwe_tree (j : jwe) : value :=
  VObj [(B "protected", VStr (jwe_protected j));
        (B "recipients", VArr (map recipient_tree (jwe_recipients j)));
        (B "iv", VStr (jwe_iv j));
        (B "ciphertext", VStr (jwe_ciphertext j));
        (B "tag", VStr (jwe_tag j))].
(** src/jwe/envelope.rs:28-58, derived Serialize of ProtectedHeader *)
Definition jwe_header_tree (h : jwe_header) : value :=
  VObj ([(B "typ", match ph_typ h with Some t => VStr t | None => VNull end);
         (B "alg", VStr (jwe_alg_str (ph_alg h)));
         (B "enc", VStr (jwe_enc_str (ph_enc h)))]
        ++ opt_member "skid" VStr (ph_skid h)
        ++ opt_member "apu" VStr (ph_apu h)
        ++ [(B "apv", VStr (ph_apv h)); (B "epk", ph_epk h)]).

(** *** Deserialize *)
(** src/jwe/envelope.rs:59-75, derived Deserialize of Recipient *)
Definition de_recipient (r : raw) : res recipient :=
  match r with
  | RObj l tl =>
      let? s := walk (fun '(h, e) k v =>
          if beq k (B "header") then let? h := once h de_kid_header v in Ok (h, e)
          else if beq k (B "encrypted_key") then let? e := once e de_borrowed v in Ok (h, e)
          else let? _ := skip v in Ok (h, e)) (None, None) l tl in
      let '(h, e) := s in
      let? h := need h in let? e := need e in Ok (mkRc h e)
  | RArr l tl =>
      let? (h, l) := elem de_kid_header l tl in
      let? (e, l) := elem de_borrowed l tl in
      let? _ := end_seq l tl in Ok (mkRc h e)
  | _ => mismatch r
  end.

(** src/jwe/envelope.rs:8-25, derived Deserialize of JWE *)
Definition de_jwe (r : raw) : res jwe :=
  match r with
  | RObj l tl =>
      let? s := walk (fun '(p, rs, i, c, t) k v =>
          if beq k (B "protected") then let? p := once p de_borrowed v in Ok (p, rs, i, c, t)
          else if beq k (B "recipients") then let? rs := once rs (de_vec de_recipient) v in Ok (p, rs, i, c, t)
          else if beq k (B "iv") then let? i := once i de_borrowed v in Ok (p, rs, i, c, t)
          else if beq k (B "ciphertext") then let? c := once c de_borrowed v in Ok (p, rs, i, c, t)
          else if beq k (B "tag") then let? t := once t de_borrowed v in Ok (p, rs, i, c, t)
          else let? _ := skip v in Ok (p, rs, i, c, t)) (None, None, None, None, None) l tl in
      let '(p, rs, i, c, t) := s in
      let? p := need p in let? rs := need rs in let? i := need i in
      let? c := need c in let? t := need t in Ok (mkJwe p rs i c t)
  | RArr l tl =>
      let? (p, l) := elem de_borrowed l tl in
      let? (rs, l) := elem (de_vec de_recipient) l tl in
      let? (i, l) := elem de_borrowed l tl in
      let? (c, l) := elem de_borrowed l tl in
      let? (t, l) := elem de_borrowed l tl in
      let? _ := end_seq l tl in Ok (mkJwe p rs i c t)
  | _ => mismatch r
  end.

(** src/jwe/envelope.rs:79-89, Deserialize_enum_str reads an owned string *)
Definition de_jwe_alg (r : raw) : res jwe_alg := let? s := de_string r in Ok (jwe_alg_of s).
(** src/jwe/envelope.rs:104-117, likewise *)
Definition de_jwe_enc (r : raw) : res jwe_enc := let? s := de_string r in Ok (jwe_enc_of s).

Section Jwe.
Context (C : crypto).

(** [epk: Value] sits inside one container.
    (src/jwe/envelope.rs:57.) *)
Definition de_epk (r : raw) : res value := to_value (fparse C) (pred max_depth) r.

(** src/jwe/envelope.rs:28-58, derived Deserialize of ProtectedHeader *)
Definition de_jwe_header (r : raw) : res jwe_header :=
  match r with
  | RObj l tl =>
      let? s := walk (fun '(t, a, e, s, u, v, k) n x =>
          if beq n (B "typ") then let? t := once t (de_option de_string) x in Ok (t, a, e, s, u, v, k)
          else if beq n (B "alg") then let? a := once a de_jwe_alg x in Ok (t, a, e, s, u, v, k)
          else if beq n (B "enc") then let? e := once e de_jwe_enc x in Ok (t, a, e, s, u, v, k)
          else if beq n (B "skid") then let? s := once s (de_option de_borrowed) x in Ok (t, a, e, s, u, v, k)
          else if beq n (B "apu") then let? u := once u (de_option de_borrowed) x in Ok (t, a, e, s, u, v, k)
          else if beq n (B "apv") then let? v := once v de_borrowed x in Ok (t, a, e, s, u, v, k)
          else if beq n (B "epk") then let? k := once k de_epk x in Ok (t, a, e, s, u, v, k)
          else let? _ := skip x in Ok (t, a, e, s, u, v, k))
          (None, None, None, None, None, None, None) l tl in
      let '(t, a, e, s, u, v, k) := s in
      let? a := need a in let? e := need e in let? v := need v in let? k := need k in
      Ok (mkPH (flat t) a e (flat s) (flat u) v k)
  | RArr l tl =>
      let? (t, l) := elem (de_option de_string) l tl in
      let? (a, l) := elem de_jwe_alg l tl in
      let? (e, l) := elem de_jwe_enc l tl in
      let? (s, l) := elem (de_option de_borrowed) l tl in
      let? (u, l) := elem (de_option de_borrowed) l tl in
      let? (v, l) := elem de_borrowed l tl in
      let? (k, l) := elem de_epk l tl in
      let? _ := end_seq l tl in Ok (mkPH t a e s u v k)
  | _ => mismatch r
  end.

(** src/jwe/parse.rs:22-24: JWE::from_str *)
Definition jwe_from_str (s : bytes) : res jwe := from_json de_jwe s.

(** src/jwe/parse.rs:9-15 *)
Record parsed_jwe := mkPJ { pj_jwe : jwe; pj_protected : jwe_header; pj_apu : option bytes; pj_apv : bytes }.

(** src/jwe/parse.rs:26-50: JWE::parse *)
Definition jwe_parse (j : jwe) : res parsed_jwe :=
  let? b := ok_or Malformed (b64dec (jwe_protected j)) in
  let? h := from_json de_jwe_header b in
  let? apv := ok_or Malformed (b64dec (ph_apv h)) in
  let? apu := match ph_apu h with
              | None => Ok None
              | Some a => let? a := ok_or Malformed (b64dec a) in Ok (Some a)
              end in
  Ok (mkPJ j h apu apv).

(** The apv computation shared by src/jwe/encrypt.rs:40-44 and src/jwe/parse.rs:56-66. *)
Definition apv_of (kids : list bytes) : bytes := sha256 C (join (B ".") (sort kids)).

(** src/jwe/parse.rs:55-88: verify_didcomm *)
Definition verify_didcomm (p : parsed_jwe) : res parsed_jwe :=
  let kids := map rc_kid (jwe_recipients (pj_jwe p)) in
  if negb (beq (pj_apv p) (apv_of kids)) then Err Malformed
  else
    match pj_apu p, ph_skid (pj_protected p) with
    | Some apu, Some skid =>
        if negb (utf8 apu) then Err Malformed
        else if negb (beq apu skid) then Err Malformed else Ok p
    | Some apu, None => if negb (utf8 apu) then Err Malformed else Ok p
    | None, Some _ => Err Malformed
    | None, None => Ok p
    end.

(** The two instances of the JoseKDF trait (src/utils/crypto.rs:67-113). *)
Inductive kdf := KdfEs | Kdf1pu.
(** src/utils/crypto.rs:54-113: JoseKDF::derive_key for Ecdh1PU (67-91) and EcdhEs (93-113) *)
Definition derive_key (d : kdf) (ka : kalg) (ephem : key C) (send : option (key C)) (recip : key C)
  (alg apu apv tag : bytes) (receive : bool) : res bytes :=
  match d with
  | KdfEs => ok_or InvalidState (ecdh_es C ka ephem recip alg apu apv receive)
  | Kdf1pu =>
      match send with
      | None => Err InvalidState
      | Some s => ok_or InvalidState (ecdh_1pu C ka ephem s recip alg apu apv tag receive)
      end
  end.

(** src/jwe/encrypt.rs:97-116 with src/utils/crypto.rs:19-35: one wrapped key per recipient. *)
Definition wrap_one (d : kdf) (ka : kalg) (epk : key C) (skey : option (key C))
  (alg apu apv tag cek : bytes) (r : bytes * key C) : res recipient :=
  let? kw := derive_key d ka epk skey (snd r) alg apu apv tag false in
  let? w := ok_or InvalidState (kw_wrap C kw cek) in
  Ok (mkRc (fst r) (b64enc w)).

(** [unwrap_or(&[])], src/jwe/encrypt.rs:103 and src/jwe/decrypt.rs *)
Definition opt_default (o : option bytes) : bytes := match o with Some x => x | None => [] end.

(** src/jwe/encrypt.rs:19-140: encrypt.  The type parameters CE, KDF, KE of the
    code are the arguments [ce], [d], [ka]. *)
Definition jwe_encrypt (ce : cenc) (d : kdf) (ka : kalg) (plaintext : bytes)
  (alg : jwe_alg) (enc : jwe_enc) (sender : option (bytes * key C))
  (recipients : list (bytes * key C)) : prog (res bytes) :=
  let skid := option_map fst sender in
  let skey := option_map snd sender in
  let! e1 := random (RCek ce) in
  let! cek := Ret (ok_or InvalidState (cek_gen C ce e1)) in
  let apv := apv_of (map fst recipients) in
  let! e2 := random (REpk ka) in
  let! epk := Ret (ok_or InvalidState (key_gen C ka e2)) in
  let! epk_jwk := Ret (ok_or InvalidState (to_jwk_public C ka epk)) in
  let header := mkPH (Some (B "application/didcomm-encrypted+json")) alg enc skid
                     (option_map b64enc skid) (b64enc apv) epk_jwk in
  let protected := b64enc (print (jwe_header_tree header)) in
  let! e3 := random (RNonce ce) in
  let iv := nonce_gen C ce e3 in
  let! (ct, tag) := Ret (ok_or InvalidState (aead_enc C ce cek iv protected plaintext)) in
  let! rcs := Ret (rmap (wrap_one d ka epk skey (jwe_alg_str alg) (opt_default skid) apv tag cek)
                        recipients) in
  Ret (Ok (print (jwe_tree (mkJwe protected rcs (b64enc iv) (b64enc ct) (b64enc tag))))).

(** src/jwe/decrypt.rs:16-90: decrypt *)
Definition jwe_decrypt (ce : cenc) (d : kdf) (ka : kalg) (p : parsed_jwe)
  (sender : option (bytes * key C)) (kid : bytes) (k : key C) : res bytes :=
  let skid := option_map fst sender in
  let skey := option_map snd sender in
  let j := pj_jwe p in
  if negb (beq_opt skid (pj_apu p)) then Err InvalidState
  else
  let? rc := ok_or InvalidState (find_first (fun r => beq (rc_kid r) kid) (jwe_recipients j)) in
  let? ek := ok_or Malformed (b64dec (rc_key rc)) in
  let? epk := ok_or Malformed (from_jwk C ka (ph_epk (pj_protected p))) in
  let? tag := ok_or Malformed (b64dec (jwe_tag j)) in
  let? kw := derive_key d ka epk skey k (jwe_alg_str (ph_alg (pj_protected p)))
                        (opt_default (pj_apu p)) (pj_apv p) tag true in
  let? cek := ok_or Malformed (kw_unwrap C kw ek) in
  let? cek := ok_or Malformed (cek_import C ce cek) in
  let? ct := ok_or Malformed (b64dec (jwe_ciphertext j)) in
  let? iv := ok_or Malformed (b64dec (jwe_iv j)) in
  ok_or Malformed (aead_dec C ce cek iv (jwe_protected j) (ct ++ tag)).

End Jwe.
