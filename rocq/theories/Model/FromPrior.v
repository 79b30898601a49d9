(** src/message/from_prior: DID rotation JWTs. *)
From Verif.Model Require Import Prelude Utf8 Json Serde Base64 DidDoc Crypto Keys Effects Jws Message.

(** src/message/from_prior/mod.rs:6-28 *)
Record from_prior := mkFP {
  fp_iss : bytes; fp_sub : bytes; fp_aud : option bytes;
  fp_exp : option N; fp_nbf : option N; fp_iat : option N; fp_jti : option bytes }.

(** src/message/from_prior/mod.rs:32-97: the builder, seen through finalize. *)
Definition fpb_new (iss sub : bytes) : from_prior := mkFP iss sub None None None None None.
(** src/message/from_prior/mod.rs:61-64: aud *)
Definition fpb_aud (x : bytes) (p : from_prior) : from_prior :=
  mkFP (fp_iss p) (fp_sub p) (Some x) (fp_exp p) (fp_nbf p) (fp_iat p) (fp_jti p).
(** src/message/from_prior/mod.rs:66-69: exp *)
Definition fpb_exp (x : N) (p : from_prior) : from_prior :=
  mkFP (fp_iss p) (fp_sub p) (fp_aud p) (Some x) (fp_nbf p) (fp_iat p) (fp_jti p).
(** src/message/from_prior/mod.rs:71-74: nbf *)
Definition fpb_nbf (x : N) (p : from_prior) : from_prior :=
  mkFP (fp_iss p) (fp_sub p) (fp_aud p) (fp_exp p) (Some x) (fp_iat p) (fp_jti p).
(** src/message/from_prior/mod.rs:76-79: iat *)
Definition fpb_iat (x : N) (p : from_prior) : from_prior :=
  mkFP (fp_iss p) (fp_sub p) (fp_aud p) (fp_exp p) (fp_nbf p) (Some x) (fp_jti p).
(** src/message/from_prior/mod.rs:81-84: jti *)
Definition fpb_jti (x : bytes) (p : from_prior) : from_prior :=
  mkFP (fp_iss p) (fp_sub p) (fp_aud p) (fp_exp p) (fp_nbf p) (fp_iat p) (Some x).

(** Serialize of mod.rs:6-28 *)
Definition from_prior_tree (p : from_prior) : value :=
  VObj ([(B "iss", VStr (fp_iss p)); (B "sub", VStr (fp_sub p))]
        ++ opt_member "aud" VStr (fp_aud p)
        ++ opt_member "exp" VNat (fp_exp p)
        ++ opt_member "nbf" VNat (fp_nbf p)
        ++ opt_member "iat" VNat (fp_iat p)
        ++ opt_member "jti" VStr (fp_jti p)).

(** Deserialize of mod.rs:6-28 *)
Record fpstate := mkFS {
  fs_iss : option bytes; fs_sub : option bytes; fs_aud : option (option bytes);
  fs_exp : option (option N); fs_nbf : option (option N); fs_iat : option (option N);
  fs_jti : option (option bytes) }.

Section FromPrior.
Context (C : crypto).

(** src/message/from_prior/mod.rs:6-28, derived Deserialize: one member *)
Definition fp_step (s : fpstate) (k : bytes) (v : raw) : res fpstate :=
  let '(mkFS i su a e n t j) := s in
  if beq k (B "iss") then let? i := once i de_string v in Ok (mkFS i su a e n t j)
  else if beq k (B "sub") then let? su := once su de_string v in Ok (mkFS i su a e n t j)
  else if beq k (B "aud") then let? a := once a de_ostr v in Ok (mkFS i su a e n t j)
  else if beq k (B "exp") then let? e := once e (de_ou64 (fparse C)) v in Ok (mkFS i su a e n t j)
  else if beq k (B "nbf") then let? n := once n (de_ou64 (fparse C)) v in Ok (mkFS i su a e n t j)
  else if beq k (B "iat") then let? t := once t (de_ou64 (fparse C)) v in Ok (mkFS i su a e n t j)
  else if beq k (B "jti") then let? j := once j de_ostr v in Ok (mkFS i su a e n t j)
  else let? _ := skip v in Ok s.

(** src/message/from_prior/mod.rs:6-28, derived Deserialize: visit_map and visit_seq *)
Definition de_from_prior (r : raw) : res from_prior :=
  match r with
  | RObj l tl =>
      let? s := walk fp_step (mkFS None None None None None None None) l tl in
      let '(mkFS i su a e n t j) := s in
      let? i := need i in let? su := need su in
      Ok (mkFP i su (flat a) (flat e) (flat n) (flat t) (flat j))
  | RArr l tl =>
      let? (i, l) := elem de_string l tl in
      let? (su, l) := elem de_string l tl in
      let? (a, l) := elem de_ostr l tl in
      let? (e, l) := elem (de_ou64 (fparse C)) l tl in
      let? (n, l) := elem (de_ou64 (fparse C)) l tl in
      let? (t, l) := elem (de_ou64 (fparse C)) l tl in
      let? (j, l) := elem de_ostr l tl in
      let? _ := end_seq l tl in Ok (mkFP i su a e n t j)
  | _ => mismatch r
  end.

(** src/message/from_prior/pack.rs:142-183: validate_pack *)
Definition validate_pack (p : from_prior) (issuer_kid : option bytes) : res unit :=
  if negb (is_did (fp_iss p)) || is_some (snd (did_or_url (fp_iss p))) then Err Malformed
  else if negb (is_did (fp_sub p)) || is_some (snd (did_or_url (fp_sub p))) then Err Malformed
  else if beq (fp_iss p) (fp_sub p) then Err Malformed
  else match issuer_kid with
       | None => Ok tt
       | Some ik =>
           let (did, kid) := did_or_url ik in
           if negb (is_some kid) then Err IllegalArgument
           else if negb (beq did (fp_iss p)) then Err IllegalArgument
           else Ok tt
       end.

(** The JWS algorithm used with a signing key: pack.rs:116-136 and
    src/message/pack_signed.rs:97-108. *)
Definition sign_alg_of (a : kalg) : res jws_alg :=
  match a with
  | KEd25519 => Ok EdDSA
  | KP256 => Ok Es256
  | KK256 => Ok Es256K
  | _ => Err Unsupported
  end.

(** src/message/from_prior/pack.rs:34-140: FromPrior::pack *)
Definition from_prior_pack (p : from_prior) (issuer_kid : option bytes)
  : prog (res (bytes * bytes)) :=
  let! _ := Ret (validate_pack p issuer_kid) in
  let text := print (from_prior_tree p) in
  let! doc := resolve (fp_iss p) in
  let! doc := Ret (ok_or DIDNotResolved doc) in
  let! kids :=
    Ret (match issuer_kid with
         | Some ik =>
             let (did, kid) := did_or_url ik in
             let? kid := ok_or IllegalArgument kid in
             if negb (beq did (fp_iss p)) then Err IllegalArgument
             else
               let? kid := ok_or DIDUrlNotFound (find_first (fun a => beq a kid) (doc_authentication doc)) in
               Ok [kid]
         | None => Ok (doc_authentication doc)
         end) in
  let! found := find_secrets kids in
  let! kid := Ret (ok_or SecretNotFound (hd_error found)) in
  let! sec := get_secret kid in
  let! sec := Ret (ok_or SecretNotFound sec) in
  let! (a, k) := Ret (sec_key_pair C sec) in
  let! alg := Ret (sign_alg_of a) in
  let! jwt := Ret (jws_sign_compact C text kid a k (B "JWT") alg) in
  Ret (Ok (jwt, kid)).

(** The key algorithm demanded by a JWS algorithm: unpack.rs:87-119 and
    src/message/unpack/sign.rs:94-132. *)
Definition verify_alg_of (a : jws_alg) : res kalg :=
  match a with
  | EdDSA => Ok KEd25519
  | Es256 => Ok KP256
  | Es256K => Ok KK256
  | JwsAlgOther _ => Err Unsupported
  end.

(** src/message/from_prior/unpack.rs:26-139: FromPrior::unpack *)
Definition from_prior_unpack (jwt : bytes) : prog (res (from_prior * bytes)) :=
  let! pc := Ret (parse_compact jwt) in
  let h := pc_parsed pc in
  if negb (beq (ch_typ h) (B "JWT")) then Ret (Err Malformed)
  else
  let (did, url) := did_or_url (ch_kid h) in
  if negb (is_some url) then Ret (Err Malformed)
  else
  let! doc := resolve did in
  let! doc := Ret (ok_or DIDNotResolved doc) in
  let! kid := Ret (ok_or DIDUrlNotFound (find_first (fun k => beq k (ch_kid h)) (doc_authentication doc))) in
  let! vm := Ret (ok_or DIDUrlNotFound (find_first (fun vm => beq (vm_id vm) kid) (doc_verification_method doc))) in
  let! a := Ret (verify_alg_of (ch_alg h)) in
  let! k := Ret (vm_as C a vm) in
  let! valid := Ret (compact_verify C pc a k) in
  if negb valid then Ret (Err Malformed)
  else
  let! payload := Ret (ok_or Malformed (b64dec (pc_payload pc))) in
  if negb (utf8 payload) then Ret (Err Malformed)
  else
  let! fp := Ret (kind Malformed (from_json de_from_prior payload)) in
  Ret (Ok (fp, kid)).

End FromPrior.
