(** src/jws: signed envelopes. *)
From Verif.Model Require Import Prelude Json Serde Base64 Crypto.

(** src/jws/envelope.rs:67-82 *)
Inductive jws_alg := EdDSA | Es256 | Es256K | JwsAlgOther (s : bytes).

(** Serialize_enum_str / Deserialize_enum_str for the names of envelope.rs:69-82. *)
Definition jws_alg_str (a : jws_alg) : bytes :=
  match a with
  | EdDSA => B "EdDSA" | Es256 => B "ES256" | Es256K => B "ES256K"
  | JwsAlgOther s => s
  end.
(** src/jws/envelope.rs:69-82, Deserialize_enum_str (serde-enum-str, Cargo.toml:40) *)
Definition jws_alg_of (s : bytes) : jws_alg :=
  if beq s (B "EdDSA") then EdDSA
  else if beq s (B "ES256") then Es256
  else if beq s (B "ES256K") then Es256K
  else JwsAlgOther s.

(** src/jws/envelope.rs:84-98: sig_type *)
Definition sig_type (a : jws_alg) : res sigtype :=
  match a with
  | EdDSA => Ok SigEdDSA | Es256 => Ok SigES256 | Es256K => Ok SigES256K
  | JwsAlgOther _ => Err Unsupported
  end.

(** src/jws/envelope.rs:18-33, with Header (47-52) inlined as [sig_kid] *)
Record jws_sig := mkSig { sig_kid : bytes; sig_protected : bytes; sig_signature : bytes }.
(** src/jws/envelope.rs:8-16 *)
Record jws := mkJws { jws_signatures : list jws_sig; jws_payload : bytes }.
(** src/jws/envelope.rs:35-45 *)
Record jws_header := mkJH { jh_typ : bytes; jh_alg : jws_alg }.
(** src/jws/envelope.rs:54-65 *)
Record compact_header := mkCH { ch_typ : bytes; ch_alg : jws_alg; ch_kid : bytes }.

(** *** Serialize *)
(** src/jws/envelope.rs:18-33 and 47-52, derived Serialize of Signature and Header *)
Definition jws_sig_tree (s : jws_sig) : value :=
  VObj [(B "header", VObj [(B "kid", VStr (sig_kid s))]);
        (B "protected", VStr (sig_protected s));
        (B "signature", VStr (sig_signature s))].
(** src/jws/envelope.rs:9-16, derived Serialize of JWS *)
Definition jws_tree (j : jws) : value :=
  VObj [(B "signatures", VArr (map jws_sig_tree (jws_signatures j)));
        (B "payload", VStr (jws_payload j))].
(** src/jws/envelope.rs:36-45, derived Serialize of ProtectedHeader *)
Definition jws_header_tree (h : jws_header) : value :=
  VObj [(B "typ", VStr (jh_typ h)); (B "alg", VStr (jws_alg_str (jh_alg h)))].
(** src/jws/envelope.rs:55-65, derived Serialize of CompactHeader *)
Definition compact_header_tree (h : compact_header) : value :=
  VObj [(B "typ", VStr (ch_typ h)); (B "alg", VStr (jws_alg_str (ch_alg h)));
        (B "kid", VStr (ch_kid h))].

(** *** Deserialize *)
(** src/jws/envelope.rs:69-82, Deserialize_enum_str reads an owned string *)
Definition de_jws_alg (r : raw) : res jws_alg := let? s := de_string r in Ok (jws_alg_of s).

(** src/jws/envelope.rs:47-52: Header; also PerRecipientHeader of src/jwe/envelope.rs:70-75 *)
Definition de_kid_header (r : raw) : res bytes :=
  match r with
  | RObj l tl =>
      let? s := walk (fun s k v => if beq k (B "kid") then once s de_borrowed v
                                   else let? _ := skip v in Ok s) None l tl in
      need s
  | RArr l tl => let? (k, l) := elem de_borrowed l tl in let? _ := end_seq l tl in Ok k
  | _ => mismatch r
  end.

(** src/jws/envelope.rs:20-33, derived Deserialize of Signature *)
Definition de_jws_sig (r : raw) : res jws_sig :=
  match r with
  | RObj l tl =>
      let? s := walk (fun '(h, p, s) k v =>
          if beq k (B "header") then let? h := once h de_kid_header v in Ok (h, p, s)
          else if beq k (B "protected") then let? p := once p de_borrowed v in Ok (h, p, s)
          else if beq k (B "signature") then let? s := once s de_borrowed v in Ok (h, p, s)
          else let? _ := skip v in Ok (h, p, s)) (None, None, None) l tl in
      let '(h, p, s) := s in
      let? h := need h in let? p := need p in let? s := need s in Ok (mkSig h p s)
  | RArr l tl =>
      let? (h, l) := elem de_kid_header l tl in
      let? (p, l) := elem de_borrowed l tl in
      let? (s, l) := elem de_borrowed l tl in
      let? _ := end_seq l tl in Ok (mkSig h p s)
  | _ => mismatch r
  end.

(** src/jws/envelope.rs:9-16, derived Deserialize of JWS *)
Definition de_jws (r : raw) : res jws :=
  match r with
  | RObj l tl =>
      let? s := walk (fun '(sg, p) k v =>
          if beq k (B "signatures") then let? sg := once sg (de_vec de_jws_sig) v in Ok (sg, p)
          else if beq k (B "payload") then let? p := once p de_borrowed v in Ok (sg, p)
          else let? _ := skip v in Ok (sg, p)) (None, None) l tl in
      let '(sg, p) := s in
      let? sg := need sg in let? p := need p in Ok (mkJws sg p)
  | RArr l tl =>
      let? (sg, l) := elem (de_vec de_jws_sig) l tl in
      let? (p, l) := elem de_borrowed l tl in
      let? _ := end_seq l tl in Ok (mkJws sg p)
  | _ => mismatch r
  end.

(** [typ: Cow<'a, str>] has no #[serde(borrow)], so it is read as an owned string. *)
Definition de_jws_header (r : raw) : res jws_header :=
  match r with
  | RObj l tl =>
      let? s := walk (fun '(t, a) k v =>
          if beq k (B "typ") then let? t := once t de_string v in Ok (t, a)
          else if beq k (B "alg") then let? a := once a de_jws_alg v in Ok (t, a)
          else let? _ := skip v in Ok (t, a)) (None, None) l tl in
      let '(t, a) := s in
      let? t := need t in let? a := need a in Ok (mkJH t a)
  | RArr l tl =>
      let? (t, l) := elem de_string l tl in
      let? (a, l) := elem de_jws_alg l tl in
      let? _ := end_seq l tl in Ok (mkJH t a)
  | _ => mismatch r
  end.

(** src/jws/envelope.rs:55-65, derived Deserialize of CompactHeader *)
Definition de_compact_header (r : raw) : res compact_header :=
  match r with
  | RObj l tl =>
      let? s := walk (fun '(t, a, i) k v =>
          if beq k (B "typ") then let? t := once t de_borrowed v in Ok (t, a, i)
          else if beq k (B "alg") then let? a := once a de_jws_alg v in Ok (t, a, i)
          else if beq k (B "kid") then let? i := once i de_borrowed v in Ok (t, a, i)
          else let? _ := skip v in Ok (t, a, i)) (None, None, None) l tl in
      let '(t, a, i) := s in
      let? t := need t in let? a := need a in let? i := need i in Ok (mkCH t a i)
  | RArr l tl =>
      let? (t, l) := elem de_borrowed l tl in
      let? (a, l) := elem de_jws_alg l tl in
      let? (i, l) := elem de_borrowed l tl in
      let? _ := end_seq l tl in Ok (mkCH t a i)
  | _ => mismatch r
  end.

(** src/jws/parse.rs:18-20: JWS::from_str *)
Definition jws_from_str (s : bytes) : res jws := from_json de_jws s.

(** src/jws/parse.rs:22-50: JWS::parse; decodes every protected header in order. *)
Definition parse_jws_header (sg : jws_sig) : res jws_header :=
  let? b := ok_or Malformed (b64dec (sig_protected sg)) in
  from_json de_jws_header b.
(** src/jws/parse.rs:7-11 *)
Definition parsed_jws : Type := jws * list jws_header.
(** src/jws/parse.rs:22-50: JWS::parse *)
Definition jws_parse (j : jws) : res parsed_jws :=
  let? hs := rmap parse_jws_header (jws_signatures j) in Ok (j, hs).

(** src/jws/parse.rs:53-59 *)
Record parsed_compact := mkPC {
  pc_header : bytes; pc_parsed : compact_header; pc_payload : bytes; pc_signature : bytes }.

(** src/jws/parse.rs:61-89: parse_compact *)
Definition parse_compact (s : bytes) : res parsed_compact :=
  match split "." s with
  | [h; p; sg] =>
      let? b := ok_or Malformed (b64dec h) in
      let? ph := kind Malformed (from_json de_compact_header b) in
      Ok (mkPC h ph p sg)
  | _ => Err Malformed
  end.

(** [format!("{}.{}", a, b)]
    (src/jws/sign.rs, src/jws/verify.rs.) *)
Definition dot (a b : bytes) : bytes := a ++ "."%char :: b.

Section Sign.
Context (C : crypto).

(** src/jws/sign.rs:9-59: sign *)
Definition jws_sign (payload kid : bytes) (ka : kalg) (k : key C) (alg : jws_alg) : res bytes :=
  let? st := sig_type alg in
  let protected := b64enc (print (jws_header_tree (mkJH (B "application/didcomm-signed+json") alg))) in
  let payload := b64enc payload in
  let? sg := ok_or InvalidState (key_sign C ka st k (dot protected payload)) in
  Ok (print (jws_tree (mkJws [mkSig kid protected (b64enc sg)] payload))).

(** src/jws/sign.rs:61-98: sign_compact *)
Definition jws_sign_compact (payload kid : bytes) (ka : kalg) (k : key C) (typ : bytes)
  (alg : jws_alg) : res bytes :=
  let? st := sig_type alg in
  let header := b64enc (print (compact_header_tree (mkCH typ alg kid))) in
  let payload := b64enc payload in
  let? sg := ok_or InvalidState (key_sign C ka st k (dot header payload)) in
  Ok (dot header (dot payload (b64enc sg))).

(** Index and element of the first signature with the given kid
    ([enumerate().find(..)], src/jws/verify.rs:12-18). *)
Fixpoint find_sig (kid : bytes) (l : list jws_sig) (hs : list jws_header)
  : res (jws_sig * option jws_header) :=
  match l with
  | [] => Err InvalidState
  | s :: l' => if beq (sig_kid s) kid then Ok (s, hd_error hs)
               else find_sig kid l' (tl hs)
  end.

(** src/jws/verify.rs:9-36: ParsedJWS::verify *)
Definition jws_verify (pj : parsed_jws) (kid : bytes) (ka : kalg) (k : key C) : res bool :=
  let (j, hs) := pj in
  let? (sg, h) := find_sig kid (jws_signatures j) hs in
  let? h := ok_or InvalidState h in
  let? st := sig_type (jh_alg h) in
  let? s := ok_or Malformed (b64dec (sig_signature sg)) in
  ok_or Malformed (key_verify C ka st k (dot (sig_protected sg) (jws_payload j)) s).

(** src/jws/verify.rs:40-52: ParsedCompactJWS::verify *)
Definition compact_verify (pc : parsed_compact) (ka : kalg) (k : key C) : res bool :=
  let? st := sig_type (ch_alg (pc_parsed pc)) in
  let? s := ok_or Malformed (b64dec (pc_signature pc)) in
  ok_or Malformed (key_verify C ka st k (dot (pc_header pc) (pc_payload pc)) s).

End Sign.
