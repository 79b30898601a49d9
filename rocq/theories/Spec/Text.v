(** The texts that are written: JSON without white space (RFC 8259), and envelopes,
    tokens and messages with literal member names, member order and algorithm names. *)
From Verif.Model Require Import Prelude Base64 Json Crypto Jws Jwe Message FromPrior.
From Verif.Spec Require Import Codec Small.

(** ** JSON *)
Definition hex_digit (n : nat) : ascii := nth n (B "0123456789abcdef") " "%char.
(** How one byte is written inside a string. *)
Inductive char_text : ascii -> bytes -> Prop :=
| ct_quote : char_text """"%char (B "\""")
| ct_backslash : char_text "\"%char (B "\\")
| ct_b : char_text (ascii_of_nat 8) (B "\b")
| ct_t : char_text (ascii_of_nat 9) (B "\t")
| ct_n : char_text (ascii_of_nat 10) (B "\n")
| ct_f : char_text (ascii_of_nat 12) (B "\f")
| ct_r : char_text (ascii_of_nat 13) (B "\r")
| ct_u c n : n = nat_of_ascii c -> n < 32 -> ~ In n [8; 9; 10; 12; 13] -> char_text c (B "\u00" ++ [hex_digit (n / 16); hex_digit (n mod 16)])
| ct_same c : 32 <= nat_of_ascii c -> c <> """"%char -> c <> "\"%char -> char_text c [c].
Definition string_text (s t : bytes) : Prop := exists us, Forall2 char_text s us /\ t = B """" ++ List.concat us ++ B """".
(** Decimal digits without leading zeros. *)
Definition decimal (n : N) (t : bytes) : Prop := json_int t /\ be_value 10 (map (fun c => N_of_ascii c - 48)%N t) = n.

Fixpoint commas (l : list bytes) : bytes :=
  match l with [] => [] | [t] => t | t :: l => t ++ B "," ++ commas l end.
Inductive json_text : value -> bytes -> Prop :=
| jx_null : json_text VNull (B "null")
| jx_true : json_text (VBool true) (B "true")
| jx_false : json_text (VBool false) (B "false")
| jx_pos n t : decimal n t -> json_text (VNum (PosInt n)) t
| jx_neg n t : decimal n t -> json_text (VNum (NegInt n)) (B "-" ++ t)
| jx_float t : json_text (VNum (Float t)) t
| jx_str s t : string_text s t -> json_text (VStr s) t
| jx_arr l ts : Forall2 json_text l ts -> json_text (VArr l) (B "[" ++ commas ts ++ B "]")
| jx_obj l ts : Forall2 (fun kv t => exists a b, string_text (fst kv) a /\ json_text (snd kv) b /\ t = a ++ B ":" ++ b) l ts ->
    json_text (VObj l) (B "{" ++ commas ts ++ B "}").

(** ** Encrypted envelopes *)
Definition alg_text (a : jwe_alg) : bytes :=
  match a with EcdhEsA256kw => B "ECDH-ES+A256KW" | Ecdh1puA256kw => B "ECDH-1PU+A256KW" | JweAlgOther s => s end.
Definition enc_text (e : jwe_enc) : bytes :=
  match e with A256cbcHs512 => B "A256CBC-HS512" | Xc20P => B "XC20P" | A256Gcm => B "A256GCM" | JweEncOther s => s end.
(** The protected header. *)
Definition jwe_header_text (alg : jwe_alg) (enc : jwe_enc) (skid : option bytes) (apv : bytes) (epk : value) : bytes :=
  B "{""typ"":""application/didcomm-encrypted+json"",""alg"":" ++ print (VStr (alg_text alg)) ++ B ",""enc"":" ++ print (VStr (enc_text enc))
  ++ match skid with
     | Some s => B ",""skid"":" ++ print (VStr s) ++ B ",""apu"":""" ++ b64enc s ++ B """"
     | None => []
     end
  ++ B ",""apv"":""" ++ b64enc apv ++ B """,""epk"":" ++ print epk ++ B "}".
(** The envelope; [rs]: key ids and wrapped keys of the recipients. *)
Definition jwe_text (protected : bytes) (rs : list (bytes * bytes)) (iv ct tag : bytes) : bytes :=
  B "{""protected"":""" ++ protected ++ B """,""recipients"":["
  ++ commas (map (fun r => B "{""header"":{""kid"":" ++ print (VStr (fst r)) ++ B "},""encrypted_key"":""" ++ b64enc (snd r) ++ B """}") rs)
  ++ B "],""iv"":""" ++ b64enc iv ++ B """,""ciphertext"":""" ++ b64enc ct ++ B """,""tag"":""" ++ b64enc tag ++ B """}".

(** ** Signed envelopes and tokens *)
Inductive alg_name : bytes -> Prop :=
| an_ed : alg_name (B "EdDSA") | an_p : alg_name (B "ES256") | an_k : alg_name (B "ES256K").
(** Key algorithm, signature algorithm and its registered name. *)
Inductive signs_with : kalg -> sigtype -> bytes -> Prop :=
| sw_ed : signs_with KEd25519 SigEdDSA (B "EdDSA")
| sw_p : signs_with KP256 SigES256 (B "ES256")
| sw_k : signs_with KK256 SigES256K (B "ES256K").
Definition jws_header_text (a : bytes) : bytes := B "{""typ"":""application/didcomm-signed+json"",""alg"":""" ++ a ++ B """}".
Definition jws_text (payload kid a sg : bytes) : bytes :=
  B "{""signatures"":[{""header"":{""kid"":" ++ print (VStr kid) ++ B "},""protected"":""" ++ b64enc (jws_header_text a)
  ++ B """,""signature"":""" ++ b64enc sg ++ B """}],""payload"":""" ++ b64enc payload ++ B """}".
Definition token_header_text (kid a : bytes) : bytes :=
  B "{""typ"":""JWT"",""alg"":""" ++ a ++ B """,""kid"":" ++ print (VStr kid) ++ B "}".
Definition token_text (payload kid a sg : bytes) : bytes :=
  b64enc (token_header_text kid a) ++ B "." ++ b64enc payload ++ B "." ++ b64enc sg.

(** ** Members *)
Definition entry (k : string) (t : bytes) : bytes := B """" ++ B k ++ B """:" ++ t.
Definition entries {A} (k : string) (f : A -> bytes) (o : option A) : list bytes := match o with Some a => [entry k (f a)] | None => [] end.
Definition str_text (s : bytes) : bytes := print (VStr s).
Definition num_text (n : N) : bytes := print (VNum (PosInt n)).
Definition list_text {A} (f : A -> bytes) (l : list A) : bytes := B "[" ++ commas (map f l) ++ B "]".
Definition obj_text (l : list bytes) : bytes := B "{" ++ commas l ++ B "}".

Definition prior_text (p : from_prior) : bytes :=
  obj_text ([entry "iss" (str_text (fp_iss p)); entry "sub" (str_text (fp_sub p))] ++ entries "aud" str_text (fp_aud p)
    ++ entries "exp" num_text (fp_exp p) ++ entries "nbf" num_text (fp_nbf p) ++ entries "iat" num_text (fp_iat p)
    ++ entries "jti" str_text (fp_jti p)).

(** ** Messages *)
Definition content_text (d : attachment_data) : bytes :=
  obj_text match d with
  | ABase64 s j => entry "base64" (str_text s) :: entries "jws" str_text j
  | AJson v j => entry "json" (print v) :: entries "jws" str_text j
  | ALinks l h j => entry "links" (list_text str_text l) :: entry "hash" (str_text h) :: entries "jws" str_text j
  end.
Definition attachment_text (a : attachment) : bytes :=
  obj_text (entry "data" (content_text (att_data a)) :: entries "id" str_text (att_id a)
    ++ entries "description" str_text (att_description a) ++ entries "filename" str_text (att_filename a)
    ++ entries "media_type" str_text (att_media_type a) ++ entries "format" str_text (att_format a)
    ++ entries "lastmod_time" num_text (att_lastmod_time a) ++ entries "byte_count" num_text (att_byte_count a)).
(** Custom headers stand between [pthid] and [created_time]. *)
Definition plain_text (m : message) : bytes :=
  obj_text ([entry "id" (str_text (msg_id m)); entry "typ" (str_text (msg_typ m)); entry "type" (str_text (msg_type m)); entry "body" (print (msg_body m))]
    ++ entries "from" str_text (msg_from m) ++ entries "to" (list_text str_text) (msg_to m)
    ++ entries "thid" str_text (msg_thid m) ++ entries "pthid" str_text (msg_pthid m)
    ++ map (fun kv => str_text (fst kv) ++ B ":" ++ print (snd kv)) (msg_extra m)
    ++ entries "created_time" num_text (msg_created m) ++ entries "expires_time" num_text (msg_expires m)
    ++ entries "from_prior" str_text (msg_from_prior m) ++ entries "attachments" (list_text attachment_text) (msg_attachments m)).

(** A forward message: to the next hop [next], the forwarded JSON as attachment,
    [headers] as custom headers. *)
Definition forward_text (id next : bytes) (headers : list (bytes * value)) (fwd : value) : bytes :=
  obj_text ([entry "id" (str_text id); entry "typ" (B """application/didcomm-plain+json"""); entry "type" (B """https://didcomm.org/routing/2.0/forward""");
             entry "body" (obj_text [entry "next" (str_text next)])]
    ++ map (fun kv => str_text (fst kv) ++ B ":" ++ print (snd kv)) headers
    ++ [entry "attachments" (B "[{""data"":{""json"":" ++ print fwd ++ B "}}]")]).
