(** The JSON that envelopes, rotation tokens and messages are read from, by member
    names: DIDComm v2 and RFC 7515/7516/7519 names, in any order, with further members
    ignored (or kept as custom headers).  As serde does for records, the envelopes and
    tokens may also be written as arrays of their fields in order. *)
From Verif.Model Require Import Prelude Utf8 Base64 Json Crypto Jws Jwe Message FromPrior.
From Verif.Spec Require Import Codec Small Names World.

(** ** JSON *)
(** JSON with members in any order and possibly repeated, nested at most [d] deep. *)
Inductive json_tree (fparse : bytes -> option bytes) : nat -> value -> Prop :=
| jt_null d : json_tree fparse d VNull
| jt_bool d b : json_tree fparse d (VBool b)
| jt_num d n : json_number fparse n -> json_tree fparse d (VNum n)
| jt_str d s : utf8 s = true -> json_tree fparse d (VStr s)
| jt_arr d l : (forall x, In x l -> json_tree fparse d x) -> json_tree fparse (S d) (VArr l)
| jt_obj d l : (forall k x, In (k, x) l -> utf8 k = true /\ json_tree fparse d x) -> json_tree fparse (S d) (VObj l).

Definition members : Type := list (bytes * value).
(** No member, exactly one member, a last member with the name [k]. *)
Definition none (l : members) (k : bytes) : Prop := ~ In k (map fst l).
Definition one (l : members) (k : bytes) (v : value) : Prop :=
  exists l1 l2, l = l1 ++ (k, v) :: l2 /\ none l1 k /\ none l2 k.
Definition last_of (l : members) (k : bytes) (v : value) : Prop :=
  exists l1 l2, l = l1 ++ (k, v) :: l2 /\ none l2 k.

(** [v], read as a [serde_json::Value], is [b]: members sorted by name, of repeated
    ones the last. *)
Inductive value_read : value -> value -> Prop :=
| vr_null : value_read VNull VNull
| vr_bool b : value_read (VBool b) (VBool b)
| vr_num n : value_read (VNum n) (VNum n)
| vr_str s : value_read (VStr s) (VStr s)
| vr_arr l m : List.length l = List.length m ->
    (forall i x y, nth_error l i = Some x -> nth_error m i = Some y -> value_read x y) -> value_read (VArr l) (VArr m)
| vr_obj l m : sorted_names (map fst m) ->
    (forall k b, In (k, b) m -> exists v, last_of l k v /\ value_read v b) ->
    (forall k, In k (map fst l) -> In k (map fst m)) -> value_read (VObj l) (VObj m).

(** ** Records *)
(** Field [k] of a record with [n] fields, [k] being number [i]: present with the given
    value, or missing from an object. *)
Definition present (n : nat) (v : value) (i : nat) (k : string) (w : value) : Prop :=
  (exists l, v = VObj l /\ one l (B k) w) \/ (exists vs, v = VArr vs /\ List.length vs = n /\ nth_error vs i = Some w).
Definition missing (v : value) (k : string) : Prop := exists l, v = VObj l /\ none l (B k).
(** A required and an optional field; [rd w a]: the JSON [w] is read as [a]. *)
Definition req {A} (rd : value -> A -> Prop) (n : nat) (v : value) (i : nat) (k : string) (a : A) : Prop :=
  exists w, present n v i k w /\ rd w a.
Definition maybe {A} (rd : value -> A -> Prop) (n : nat) (v : value) (i : nat) (k : string) (o : option A) : Prop :=
  match o with
  | None => missing v k \/ present n v i k VNull
  | Some a => exists w, present n v i k w /\ w <> VNull /\ rd w a
  end.

Definition str_read (w : value) (s : bytes) : Prop := w = VStr s.
(** A string that is used in place, so without escapes. *)
Definition plain_read (w : value) (s : bytes) : Prop := w = VStr s /\ ~ escaped s.
Definition num_read (w : value) (n : N) : Prop := w = VNum (PosInt n).
Definition list_read {A} (rd : value -> A -> Prop) (w : value) (l : list A) : Prop := exists vs, w = VArr vs /\ Forall2 rd vs l.

(** ** Envelopes *)
Definition kid_read (w : value) (kid : bytes) : Prop := req plain_read 1 w 0 "kid" kid.
Definition recipient_read (w : value) (r : recipient) : Prop :=
  req kid_read 2 w 0 "header" (rc_kid r) /\ req plain_read 2 w 1 "encrypted_key" (rc_key r).
Definition jwe_read (w : value) (j : jwe) : Prop :=
  req plain_read 5 w 0 "protected" (jwe_protected j)
  /\ req (list_read recipient_read) 5 w 1 "recipients" (jwe_recipients j)
  /\ req plain_read 5 w 2 "iv" (jwe_iv j)
  /\ req plain_read 5 w 3 "ciphertext" (jwe_ciphertext j)
  /\ req plain_read 5 w 4 "tag" (jwe_tag j).

Definition jwe_alg_named (s : bytes) (a : jwe_alg) : Prop :=
  match a with
  | EcdhEsA256kw => s = B "ECDH-ES+A256KW"
  | Ecdh1puA256kw => s = B "ECDH-1PU+A256KW"
  | JweAlgOther t => s = t /\ ~ In s [B "ECDH-ES+A256KW"; B "ECDH-1PU+A256KW"]
  end.
Definition jwe_enc_named (s : bytes) (e : jwe_enc) : Prop :=
  match e with
  | A256cbcHs512 => s = B "A256CBC-HS512"
  | Xc20P => s = B "XC20P"
  | A256Gcm => s = B "A256GCM"
  | JweEncOther t => s = t /\ ~ In s [B "A256CBC-HS512"; B "XC20P"; B "A256GCM"]
  end.
Definition name_read {A} (named : bytes -> A -> Prop) (w : value) (a : A) : Prop := exists s, w = VStr s /\ named s a.
Definition jwe_header_read (w : value) (h : jwe_header) : Prop :=
  maybe str_read 7 w 0 "typ" (ph_typ h)
  /\ req (name_read jwe_alg_named) 7 w 1 "alg" (ph_alg h)
  /\ req (name_read jwe_enc_named) 7 w 2 "enc" (ph_enc h)
  /\ maybe plain_read 7 w 3 "skid" (ph_skid h)
  /\ maybe plain_read 7 w 4 "apu" (ph_apu h)
  /\ req plain_read 7 w 5 "apv" (ph_apv h)
  /\ req value_read 7 w 6 "epk" (ph_epk h).

Definition signature_read (w : value) (s : jws_sig) : Prop :=
  req kid_read 3 w 0 "header" (sig_kid s)
  /\ req plain_read 3 w 1 "protected" (sig_protected s)
  /\ req plain_read 3 w 2 "signature" (sig_signature s).
Definition jws_read (w : value) (j : jws) : Prop :=
  req (list_read signature_read) 2 w 0 "signatures" (jws_signatures j)
  /\ req plain_read 2 w 1 "payload" (jws_payload j).
Definition jws_alg_named (s : bytes) (a : jws_alg) : Prop :=
  match a with
  | EdDSA => s = B "EdDSA"
  | Es256 => s = B "ES256"
  | Es256K => s = B "ES256K"
  | JwsAlgOther t => s = t /\ ~ In s [B "EdDSA"; B "ES256"; B "ES256K"]
  end.
Definition jws_header_read (w : value) (h : jws_header) : Prop :=
  req str_read 2 w 0 "typ" (jh_typ h) /\ req (name_read jws_alg_named) 2 w 1 "alg" (jh_alg h).

(** ** Rotation tokens *)
Definition token_header_read (w : value) (h : compact_header) : Prop :=
  req plain_read 3 w 0 "typ" (ch_typ h) /\ req (name_read jws_alg_named) 3 w 1 "alg" (ch_alg h)
  /\ req plain_read 3 w 2 "kid" (ch_kid h).
Definition prior_read (w : value) (p : from_prior) : Prop :=
  req str_read 7 w 0 "iss" (fp_iss p) /\ req str_read 7 w 1 "sub" (fp_sub p)
  /\ maybe str_read 7 w 2 "aud" (fp_aud p) /\ maybe num_read 7 w 3 "exp" (fp_exp p)
  /\ maybe num_read 7 w 4 "nbf" (fp_nbf p) /\ maybe num_read 7 w 5 "iat" (fp_iat p)
  /\ maybe str_read 7 w 6 "jti" (fp_jti p).

(** ** Messages *)
(** The content of an attachment: [base64] if that fits, else [json], else [links]. *)
Definition with_jws (w : value) (j : option bytes) : Prop := maybe str_read 0 w 0 "jws" j.
Definition base64_read (w : value) (d : attachment_data) : Prop :=
  exists s j, d = ABase64 s j /\ req str_read 0 w 0 "base64" s /\ with_jws w j.
Definition json_read (w : value) (d : attachment_data) : Prop :=
  exists b j, d = AJson b j /\ req value_read 0 w 0 "json" b /\ with_jws w j.
Definition links_read (w : value) (d : attachment_data) : Prop :=
  exists l h j, d = ALinks l h j /\ req (list_read str_read) 0 w 0 "links" l /\ req str_read 0 w 0 "hash" h /\ with_jws w j.
Definition content_read (w : value) (d : attachment_data) : Prop :=
  (exists l, w = VObj l)
  /\ (base64_read w d
      \/ (forall d', ~ base64_read w d') /\ json_read w d
      \/ (forall d', ~ base64_read w d') /\ (forall d', ~ json_read w d') /\ links_read w d).
Definition attachment_read (w : value) (a : attachment) : Prop :=
  req content_read 8 w 0 "data" (att_data a)
  /\ maybe str_read 8 w 1 "id" (att_id a) /\ maybe str_read 8 w 2 "description" (att_description a)
  /\ maybe str_read 8 w 3 "filename" (att_filename a) /\ maybe str_read 8 w 4 "media_type" (att_media_type a)
  /\ maybe str_read 8 w 5 "format" (att_format a) /\ maybe num_read 8 w 6 "lastmod_time" (att_lastmod_time a)
  /\ maybe num_read 8 w 7 "byte_count" (att_byte_count a).

(** A message is an object; members with other than standard names are its custom headers. *)
Definition message_read (w : value) (m : message) : Prop :=
  exists l, w = VObj l
  /\ req str_read 0 w 0 "id" (msg_id m)
  /\ (req str_read 0 w 0 "typ" (msg_typ m) \/ missing w "typ" /\ msg_typ m = B "application/didcomm-plain+json")
  /\ req str_read 0 w 0 "type" (msg_type m) /\ req value_read 0 w 0 "body" (msg_body m)
  /\ maybe str_read 0 w 0 "from" (msg_from m) /\ maybe (list_read str_read) 0 w 0 "to" (msg_to m)
  /\ maybe str_read 0 w 0 "thid" (msg_thid m) /\ maybe str_read 0 w 0 "pthid" (msg_pthid m)
  /\ maybe num_read 0 w 0 "created_time" (msg_created m) /\ maybe num_read 0 w 0 "expires_time" (msg_expires m)
  /\ maybe str_read 0 w 0 "from_prior" (msg_from_prior m)
  /\ maybe (list_read attachment_read) 0 w 0 "attachments" (msg_attachments m)
  /\ forall k, match amap_get k (msg_extra m) with
               | Some b => ~ In k standard_headers /\ exists v, last_of l k v /\ value_read v b
               | None => In k standard_headers \/ none l k
               end.
