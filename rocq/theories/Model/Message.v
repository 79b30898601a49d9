(** src/message/message.rs, src/message/attachment.rs: the plaintext message. *)
From Verif.Model Require Import Prelude Json Serde Crypto.

(** src/message/attachment.rs:157-211 *)
Inductive attachment_data :=
| ABase64 (base64 : bytes) (jws : option bytes)
| AJson (json : value) (jws : option bytes)
| ALinks (links : list bytes) (hash : bytes) (jws : option bytes).

(** src/message/attachment.rs:4-47 *)
Record attachment := mkAtt {
  att_data : attachment_data;
  att_id : option bytes; att_description : option bytes; att_filename : option bytes;
  att_media_type : option bytes; att_format : option bytes;
  att_lastmod_time : option N; att_byte_count : option N }.

(** src/message/message.rs:8-75.  [msg_extra] is the HashMap of custom headers, as
    an association list in iteration order. *)
Record message := mkMsg {
  msg_id : bytes; msg_typ : bytes; msg_type : bytes; msg_body : value;
  msg_from : option bytes; msg_to : option (list bytes);
  msg_thid : option bytes; msg_pthid : option bytes;
  msg_extra : list (bytes * value);
  msg_created : option N; msg_expires : option N;
  msg_from_prior : option bytes;
  msg_attachments : option (list attachment) }.

(** src/message/message.rs:77-81 *)
Definition plaintext_typ : bytes := B "application/didcomm-plain+json".

(** src/message/message.rs:92-100: validate *)
Definition msg_validate (m : message) : res message :=
  if negb (beq (msg_typ m) plaintext_typ) then Err Malformed else Ok m.

(** *** Serialize (derive order = declaration order) *)
(** A u64 member, e.g. src/message/message.rs created_time *)
Definition VNat (n : N) : value := VNum (PosInt n).
(** A Vec<String> member, e.g. src/message/message.rs to *)
Definition VStrs (l : list bytes) : value := VArr (map VStr l).

(** src/message/attachment.rs:163-211, Serialize: untagged and flattened, so only the inner members *)
Definition adata_tree (d : attachment_data) : value :=
  VObj match d with
  | ABase64 s j => (B "base64", VStr s) :: opt_member "jws" VStr j
  | AJson v j => (B "json", v) :: opt_member "jws" VStr j
  | ALinks l h j => (B "links", VStrs l) :: (B "hash", VStr h) :: opt_member "jws" VStr j
  end.

(** src/message/attachment.rs:4-47, derived Serialize *)
Definition attachment_tree (a : attachment) : value :=
  VObj ((B "data", adata_tree (att_data a))
        :: opt_member "id" VStr (att_id a)
        ++ opt_member "description" VStr (att_description a)
        ++ opt_member "filename" VStr (att_filename a)
        ++ opt_member "media_type" VStr (att_media_type a)
        ++ opt_member "format" VStr (att_format a)
        ++ opt_member "lastmod_time" VNat (att_lastmod_time a)
        ++ opt_member "byte_count" VNat (att_byte_count a)).

(** src/message/message.rs:8-75, derived Serialize with the flattened map of custom headers in place *)
Definition message_members (m : message) : list (bytes * value) :=
  [(B "id", VStr (msg_id m)); (B "typ", VStr (msg_typ m)); (B "type", VStr (msg_type m));
   (B "body", msg_body m)]
  ++ opt_member "from" VStr (msg_from m)
  ++ opt_member "to" VStrs (msg_to m)
  ++ opt_member "thid" VStr (msg_thid m)
  ++ opt_member "pthid" VStr (msg_pthid m)
  ++ msg_extra m
  ++ opt_member "created_time" VNat (msg_created m)
  ++ opt_member "expires_time" VNat (msg_expires m)
  ++ opt_member "from_prior" VStr (msg_from_prior m)
  ++ opt_member "attachments" (fun l => VArr (map attachment_tree l)) (msg_attachments m).
(** src/message/message.rs:8-75, derived Serialize *)
Definition message_tree (m : message) : value := VObj (message_members m).

(** [serde_json::to_string(self)] *)
Definition message_text (m : message) : bytes := print (message_tree m).

(** *** Deserialize *)

(** Typed readers on buffered content (serde's ContentRefDeserializer). *)
Definition c_string (v : value) : res bytes := match v with VStr s => Ok s | _ => Err Malformed end.
(** serde 1.0 (Cargo.toml:46-48), Option<String> from buffered content (jws of
    src/message/attachment.rs:180-211) *)
Definition c_opt_string (v : value) : res (option bytes) :=
  match v with VNull => Ok None | _ => let? s := c_string v in Ok (Some s) end.
(** serde 1.0 (Cargo.toml:46-48), Vec<String> from buffered content (links of
    src/message/attachment.rs:200-211) *)
Definition c_strings (v : value) : res (list bytes) :=
  match v with VArr l => rmap c_string l | _ => Err Malformed end.

(** FlatStructAccess: the members of the content with the given name; two of them
    are a duplicate field.
    (serde 1.0 (Cargo.toml:46-48); src/message/attachment.rs:166-177.) *)
Definition c_field (k : string) (l : list (bytes * value)) : res (option value) :=
  match filter (fun kv => beq (fst kv) (B k)) l with
  | [] => Ok None
  | [(_, v)] => Ok (Some v)
  | _ => Err Malformed
  end.
(** "missing field" for buffered content (src/message/attachment.rs:180-211) *)
Definition c_need {A} (f : value -> res A) (o : option value) : res A :=
  match o with Some v => f v | None => Err Malformed end.
(** the optional jws of src/message/attachment.rs:180-211 *)
Definition c_jws (l : list (bytes * value)) : res (option bytes) :=
  let? o := c_field "jws" l in
  match o with Some v => c_opt_string v | None => Ok None end.

(** src/message/attachment.rs:163-178, #[serde(untagged)]: first variant that decodes. *)
Definition de_base64 (l : list (bytes * value)) : res attachment_data :=
  let? o := c_field "base64" l in let? s := c_need c_string o in
  let? j := c_jws l in Ok (ABase64 s j).
(** src/message/attachment.rs:190-198 through 170-173 *)
Definition de_json (l : list (bytes * value)) : res attachment_data :=
  let? o := c_field "json" l in let? v := c_need (fun v => Ok (norm v)) o in
  let? j := c_jws l in Ok (AJson v j).
(** src/message/attachment.rs:200-211 through 174-177 *)
Definition de_links (l : list (bytes * value)) : res attachment_data :=
  let? o := c_field "links" l in let? ls := c_need c_strings o in
  let? o := c_field "hash" l in let? h := c_need c_string o in
  let? j := c_jws l in Ok (ALinks ls h j).
(** src/message/attachment.rs:163-178, #[serde(untagged)]: Base64, Json, Links in this order *)
Definition de_adata_content (v : value) : res attachment_data :=
  match v with
  | VObj l =>
      match de_base64 l with
      | Ok a => Ok a
      | _ => match de_json l with
             | Ok a => Ok a
             | _ => match de_links l with Ok a => Ok a | _ => Err Malformed end
             end
      end
  | _ => Err Malformed
  end.

Section Decode.
(** Number conversion of serde_json, see Json.v. *)
Variable fparse : bytes -> option bytes.

(** The data of an attachment sits under message object, array, attachment object.
    (src/message/attachment.rs:8.) *)
Definition de_adata (r : raw) : res attachment_data :=
  let? c := to_content fparse (max_depth - 3) r in de_adata_content c.

(** Option<String>, e.g. src/message/attachment.rs:17 *)
Definition de_ostr := de_option de_string.
(** Option<u64>, e.g. src/message/attachment.rs:40 *)
Definition de_ou64 := de_option (de_u64 fparse).

(** Fields seen so far while visiting an attachment map.
    (src/message/attachment.rs:4-47, derived Deserialize.) *)
Record astate := mkAS {
  as_data : option attachment_data;
  as_id : option (option bytes); as_description : option (option bytes);
  as_filename : option (option bytes); as_media_type : option (option bytes);
  as_format : option (option bytes); as_lastmod : option (option N); as_count : option (option N) }.

(** src/message/attachment.rs:4-47, derived Deserialize: one member *)
Definition att_step (s : astate) (k : bytes) (v : raw) : res astate :=
  let '(mkAS d i de f m fo l b) := s in
  if beq k (B "data") then let? d := once d de_adata v in Ok (mkAS d i de f m fo l b)
  else if beq k (B "id") then let? i := once i de_ostr v in Ok (mkAS d i de f m fo l b)
  else if beq k (B "description") then let? de := once de de_ostr v in Ok (mkAS d i de f m fo l b)
  else if beq k (B "filename") then let? f := once f de_ostr v in Ok (mkAS d i de f m fo l b)
  else if beq k (B "media_type") then let? m := once m de_ostr v in Ok (mkAS d i de f m fo l b)
  else if beq k (B "format") then let? fo := once fo de_ostr v in Ok (mkAS d i de f m fo l b)
  else if beq k (B "lastmod_time") then let? l := once l de_ou64 v in Ok (mkAS d i de f m fo l b)
  else if beq k (B "byte_count") then let? b := once b de_ou64 v in Ok (mkAS d i de f m fo l b)
  else let? _ := skip v in Ok s.

(** src/message/attachment.rs:4-47, derived Deserialize: visit_map and visit_seq *)
Definition de_attachment (r : raw) : res attachment :=
  match r with
  | RObj l tl =>
      let? s := walk att_step (mkAS None None None None None None None None) l tl in
      let '(mkAS d i de f m fo lt b) := s in
      let? d := need d in
      Ok (mkAtt d (flat i) (flat de) (flat f) (flat m) (flat fo) (flat lt) (flat b))
  | RArr l tl =>
      let? (d, l) := elem de_adata l tl in
      let? (i, l) := elem de_ostr l tl in
      let? (de, l) := elem de_ostr l tl in
      let? (f, l) := elem de_ostr l tl in
      let? (m, l) := elem de_ostr l tl in
      let? (fo, l) := elem de_ostr l tl in
      let? (lt, l) := elem de_ou64 l tl in
      let? (b, l) := elem de_ou64 l tl in
      let? _ := end_seq l tl in Ok (mkAtt d i de f m fo lt b)
  | _ => mismatch r
  end.

(** Fields seen so far while visiting a message map.
    (src/message/message.rs:8-75, derived Deserialize.) *)
Record mstate := mkMS' {
  m_id : option bytes; m_typ : option bytes; m_type : option bytes; m_body : option value;
  m_from : option (option bytes); m_to : option (option (list bytes));
  m_thid : option (option bytes); m_pthid : option (option bytes);
  m_extra : list (bytes * value);
  m_created : option (option N); m_expires : option (option N);
  m_fp : option (option bytes); m_att : option (option (list attachment)) }.
(** src/message/message.rs:8-75, derived Deserialize: nothing seen yet *)
Definition m_init : mstate := mkMS' None None None None None None None None [] None None None None.

(** Unknown members are buffered and become custom headers; for a repeated name
    the last one wins.
    (src/message/message.rs:8-75, derived Deserialize, the map is flattened.) *)
Definition msg_step (s : mstate) (k : bytes) (v : raw) : res mstate :=
  let '(mkMS' i ty t b f to th pt x c e p a) := s in
  if beq k (B "id") then let? i := once i de_string v in Ok (mkMS' i ty t b f to th pt x c e p a)
  else if beq k (B "typ") then let? ty := once ty de_string v in Ok (mkMS' i ty t b f to th pt x c e p a)
  else if beq k (B "type") then let? t := once t de_string v in Ok (mkMS' i ty t b f to th pt x c e p a)
  else if beq k (B "body") then
    let? b := once b (to_value fparse (max_depth - 1)) v in Ok (mkMS' i ty t b f to th pt x c e p a)
  else if beq k (B "from") then let? f := once f de_ostr v in Ok (mkMS' i ty t b f to th pt x c e p a)
  else if beq k (B "to") then
    let? to := once to (de_option (de_vec de_string)) v in Ok (mkMS' i ty t b f to th pt x c e p a)
  else if beq k (B "thid") then let? th := once th de_ostr v in Ok (mkMS' i ty t b f to th pt x c e p a)
  else if beq k (B "pthid") then let? pt := once pt de_ostr v in Ok (mkMS' i ty t b f to th pt x c e p a)
  else if beq k (B "created_time") then let? c := once c de_ou64 v in Ok (mkMS' i ty t b f to th pt x c e p a)
  else if beq k (B "expires_time") then let? e := once e de_ou64 v in Ok (mkMS' i ty t b f to th pt x c e p a)
  else if beq k (B "from_prior") then let? p := once p de_ostr v in Ok (mkMS' i ty t b f to th pt x c e p a)
  else if beq k (B "attachments") then
    let? a := once a (de_option (de_vec de_attachment)) v in Ok (mkMS' i ty t b f to th pt x c e p a)
  else let? w := to_value fparse (max_depth - 1) v in
       Ok (mkMS' i ty t b f to th pt (amap_insert k w x) c e p a).

(** src/message/message.rs:8-75, derived Deserialize: missing members; typ defaults (77-81) *)
Definition msg_finish (s : mstate) : res message :=
  let '(mkMS' i ty t b f to th pt x c e p a) := s in
  let? i := need i in let? t := need t in let? b := need b in
  Ok (mkMsg i (match ty with Some ty => ty | None => plaintext_typ end) t b (flat f) (flat to)
            (flat th) (flat pt) x (flat c) (flat e) (flat p) (flat a)).

(** A struct with a flattened field decodes from an object only.
    (src/message/message.rs:8-75, derived Deserialize.) *)
Definition de_message (r : raw) : res message :=
  match r with
  | RObj l tl => let? s := walk msg_step m_init l tl in msg_finish s
  | _ => mismatch r
  end.

(** src/message/message.rs:88-90: from_str *)
Definition message_from_str (s : bytes) : res message := from_json de_message s.

End Decode.

(** *** Builders *)

(** src/message/message.rs:84-86,103-134 (MessageBuilder::new) followed by finalize
    (213-229): the builder is represented by the message it would finalize to. *)
Definition mb_new (id type_ : bytes) (body : value) : message :=
  mkMsg id plaintext_typ type_ body None None None None [] None None None None.

(** src/message/message.rs:136-144: to *)
Definition mb_to (t : bytes) (m : message) : message :=
  mkMsg (msg_id m) (msg_typ m) (msg_type m) (msg_body m) (msg_from m)
        (match msg_to m with Some l => Some (l ++ [t]) | None => Some [t] end)
        (msg_thid m) (msg_pthid m) (msg_extra m) (msg_created m) (msg_expires m)
        (msg_from_prior m) (msg_attachments m).
(** src/message/message.rs:146-155: to_many *)
Definition mb_to_many (ts : list bytes) (m : message) : message :=
  mkMsg (msg_id m) (msg_typ m) (msg_type m) (msg_body m) (msg_from m)
        (match msg_to m with Some l => Some (l ++ ts) | None => Some ts end)
        (msg_thid m) (msg_pthid m) (msg_extra m) (msg_created m) (msg_expires m)
        (msg_from_prior m) (msg_attachments m).
(** src/message/message.rs:157-160: from *)
Definition mb_from (f : bytes) (m : message) : message :=
  mkMsg (msg_id m) (msg_typ m) (msg_type m) (msg_body m) (Some f) (msg_to m)
        (msg_thid m) (msg_pthid m) (msg_extra m) (msg_created m) (msg_expires m)
        (msg_from_prior m) (msg_attachments m).
(** src/message/message.rs:162-165: thid *)
Definition mb_thid (t : bytes) (m : message) : message :=
  mkMsg (msg_id m) (msg_typ m) (msg_type m) (msg_body m) (msg_from m) (msg_to m)
        (Some t) (msg_pthid m) (msg_extra m) (msg_created m) (msg_expires m)
        (msg_from_prior m) (msg_attachments m).
(** src/message/message.rs:167-170: pthid *)
Definition mb_pthid (t : bytes) (m : message) : message :=
  mkMsg (msg_id m) (msg_typ m) (msg_type m) (msg_body m) (msg_from m) (msg_to m)
        (msg_thid m) (Some t) (msg_extra m) (msg_created m) (msg_expires m)
        (msg_from_prior m) (msg_attachments m).
(** src/message/message.rs:172-175: header *)
Definition mb_header (k : bytes) (v : value) (m : message) : message :=
  mkMsg (msg_id m) (msg_typ m) (msg_type m) (msg_body m) (msg_from m) (msg_to m)
        (msg_thid m) (msg_pthid m) (amap_insert k v (msg_extra m)) (msg_created m) (msg_expires m)
        (msg_from_prior m) (msg_attachments m).
(** src/message/message.rs:177-180: created_time *)
Definition mb_created (n : N) (m : message) : message :=
  mkMsg (msg_id m) (msg_typ m) (msg_type m) (msg_body m) (msg_from m) (msg_to m)
        (msg_thid m) (msg_pthid m) (msg_extra m) (Some n) (msg_expires m)
        (msg_from_prior m) (msg_attachments m).
(** src/message/message.rs:182-185: expires_time *)
Definition mb_expires (n : N) (m : message) : message :=
  mkMsg (msg_id m) (msg_typ m) (msg_type m) (msg_body m) (msg_from m) (msg_to m)
        (msg_thid m) (msg_pthid m) (msg_extra m) (msg_created m) (Some n)
        (msg_from_prior m) (msg_attachments m).
(** src/message/message.rs:187-190: from_prior *)
Definition mb_from_prior (p : bytes) (m : message) : message :=
  mkMsg (msg_id m) (msg_typ m) (msg_type m) (msg_body m) (msg_from m) (msg_to m)
        (msg_thid m) (msg_pthid m) (msg_extra m) (msg_created m) (msg_expires m)
        (Some p) (msg_attachments m).
(** src/message/message.rs:192-200: attachment *)
Definition mb_attachment (a : attachment) (m : message) : message :=
  mkMsg (msg_id m) (msg_typ m) (msg_type m) (msg_body m) (msg_from m) (msg_to m)
        (msg_thid m) (msg_pthid m) (msg_extra m) (msg_created m) (msg_expires m)
        (msg_from_prior m)
        (match msg_attachments m with Some l => Some (l ++ [a]) | None => Some [a] end).
(** src/message/message.rs:202-211: attachments *)
Definition mb_attachments (l' : list attachment) (m : message) : message :=
  mkMsg (msg_id m) (msg_typ m) (msg_type m) (msg_body m) (msg_from m) (msg_to m)
        (msg_thid m) (msg_pthid m) (msg_extra m) (msg_created m) (msg_expires m)
        (msg_from_prior m)
        (match msg_attachments m with Some l => Some (l ++ l') | None => Some l' end).

(** src/message/attachment.rs:49-96: Attachment::{base64,json,links} with
    AttachmentBuilder::new, seen through finalize (143-154). *)
Definition ab_new (d : attachment_data) : attachment := mkAtt d None None None None None None None.
(** src/message/attachment.rs:50-54: base64 *)
Definition ab_base64 (s : bytes) : attachment := ab_new (ABase64 s None).
(** src/message/attachment.rs:56-60: json *)
Definition ab_json (v : value) : attachment := ab_new (AJson v None).
(** src/message/attachment.rs:62-70: links *)
Definition ab_links (l : list bytes) (h : bytes) : attachment := ab_new (ALinks l h None).
(** src/message/attachment.rs:133-141: jws *)
Definition ab_jws (j : bytes) (a : attachment) : attachment :=
  mkAtt (match att_data a with
         | ABase64 s _ => ABase64 s (Some j)
         | AJson v _ => AJson v (Some j)
         | ALinks l h _ => ALinks l h (Some j)
         end)
        (att_id a) (att_description a) (att_filename a) (att_media_type a) (att_format a)
        (att_lastmod_time a) (att_byte_count a).
(** src/message/attachment.rs:98-131: the remaining setters *)
Definition ab_id (x : bytes) (a : attachment) : attachment :=
  mkAtt (att_data a) (Some x) (att_description a) (att_filename a) (att_media_type a)
        (att_format a) (att_lastmod_time a) (att_byte_count a).
(** src/message/attachment.rs:103-106: description *)
Definition ab_description (x : bytes) (a : attachment) : attachment :=
  mkAtt (att_data a) (att_id a) (Some x) (att_filename a) (att_media_type a)
        (att_format a) (att_lastmod_time a) (att_byte_count a).
(** src/message/attachment.rs:108-111: filename *)
Definition ab_filename (x : bytes) (a : attachment) : attachment :=
  mkAtt (att_data a) (att_id a) (att_description a) (Some x) (att_media_type a)
        (att_format a) (att_lastmod_time a) (att_byte_count a).
(** src/message/attachment.rs:113-116: media_type *)
Definition ab_media_type (x : bytes) (a : attachment) : attachment :=
  mkAtt (att_data a) (att_id a) (att_description a) (att_filename a) (Some x)
        (att_format a) (att_lastmod_time a) (att_byte_count a).
(** src/message/attachment.rs:118-121: format *)
Definition ab_format (x : bytes) (a : attachment) : attachment :=
  mkAtt (att_data a) (att_id a) (att_description a) (att_filename a) (att_media_type a)
        (Some x) (att_lastmod_time a) (att_byte_count a).
(** src/message/attachment.rs:123-126: lastmod_time *)
Definition ab_lastmod (x : N) (a : attachment) : attachment :=
  mkAtt (att_data a) (att_id a) (att_description a) (att_filename a) (att_media_type a)
        (att_format a) (Some x) (att_byte_count a).
(** src/message/attachment.rs:128-131: byte_count *)
Definition ab_count (x : N) (a : attachment) : attachment :=
  mkAtt (att_data a) (att_id a) (att_description a) (att_filename a) (att_media_type a)
        (att_format a) (att_lastmod_time a) (Some x).
