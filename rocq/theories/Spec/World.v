(** Sender and receiver in one world: what is assumed of the cryptographic
    primitives, of the documents and of the secrets when a message that was packed
    is unpacked again, and which messages can be carried. *)
From Verif.Model Require Import Prelude Utf8 Base64 Json Serde DidDoc Crypto Keys Effects Jws Jwe Message FromPrior Pack Routing Unpack.
From Verif.Spec Require Import Small Codec Events.

(** ** Primitives *)
(** [lawful C pair]: primitives that undo each other, for key pairs related by [pair]
    (algorithm, public key, key with the secret). *)
Record lawful (C : crypto) (pair : kalg -> key C -> key C -> Prop) : Prop := {
  law_sign : forall a st p s m sg, pair a p s ->
    key_sign C a st s m = Some sg -> key_verify C a st p m sg = Some true;
  law_es : forall a e epk jwk p s alg apu apv kw, pair a p s ->
    key_gen C a e = Some epk -> to_jwk_public C a epk = Some jwk ->
    ecdh_es C a epk p alg apu apv false = Some kw ->
    exists epk', from_jwk C a jwk = Some epk' /\ ecdh_es C a epk' s alg apu apv true = Some kw;
  law_1pu : forall a e epk jwk p s p' s' alg apu apv tag kw, pair a p s -> pair a p' s' ->
    key_gen C a e = Some epk -> to_jwk_public C a epk = Some jwk ->
    ecdh_1pu C a epk s' p alg apu apv tag false = Some kw ->
    exists epk', from_jwk C a jwk = Some epk' /\ ecdh_1pu C a epk' p' s alg apu apv tag true = Some kw;
  law_kw : forall kw x w, kw_wrap C kw x = Some w -> kw_unwrap C kw w = Some x;
  law_cek : forall ce e k, cek_gen C ce e = Some k -> cek_import C ce k = Some k;
  law_aead : forall ce k iv aad pt ct tag, aead_enc C ce k iv aad pt = Some (ct, tag) ->
    aead_dec C ce k iv aad (ct ++ tag) = Some pt;
  (** A public JWK is JSON and not deeply nested. *)
  law_jwk : forall a e k v, key_gen C a e = Some k -> to_jwk_public C a k = Some v -> json_value (fparse C) 126 v }.

(** ** Documents and secrets *)
(** Answers of a DID resolver with the directory [dir] and a secrets resolver of
    somebody who holds the secrets [own] (in any order, and repetitions allowed). *)
Definition answers (dir : bytes -> option diddoc) (own : bytes -> option secret) (e : event) : Prop :=
  match e with
  | Ev (OResolve did) r => r = Ok (dir did)
  | Ev (OFindSecrets ids) r =>
      exists found, r = Ok found /\ forall i, In i found <-> In i ids /\ exists s, own i = Some s
  | Ev (OGetSecret i) r => r = Ok (own i)
  | Ev (ORandom RUuid) r => utf8 r = true
  | Ev (ORandom _) _ => True
  end.

(** A key id that is written in JSON without escapes. *)
Definition key_id_ok (s : bytes) : Prop :=
  utf8 s = true /\ Forall (fun c => (32 <= N_of_ascii c)%N /\ c <> """"%char /\ c <> "\"%char) s.
(** Key ids of a document are DID URLs of its DID. *)
Definition own_keys (did : bytes) (doc : diddoc) : Prop :=
  forall kid, In kid (doc_key_agreement doc ++ doc_authentication doc) -> url_of did kid /\ key_id_ok kid.
Definition directory (dir : bytes -> option diddoc) : Prop := forall did doc, dir did = Some doc -> own_keys did doc.

(** The key id [kid] names a DID whose document lists it. *)
Definition known (dir : bytes -> option diddoc) (rel : diddoc -> list bytes) (kid : bytes) : Prop :=
  key_id_ok kid /\ exists did doc, url_of did kid /\ dir did = Some doc /\ In kid (rel doc).
(** The key ids are DID URLs of one DID. *)
Definition together (kids : list bytes) : Prop := exists did, Forall (fun kid => url_of did kid /\ key_id_ok kid) kids.

(** A held secret of a published key belongs to that key. *)
Definition secrets_match (C : crypto) (pair : kalg -> key C -> key C -> Prop) (dir : bytes -> option diddoc)
  (own : bytes -> option secret) : Prop :=
  forall did doc kid sec (rel : diddoc -> list bytes), (rel = doc_key_agreement \/ rel = doc_authentication) ->
    dir did = Some doc -> In kid (rel doc) -> own kid = Some sec ->
    exists a p s, publishes C rel doc kid a p /\ sec_key_pair C sec = Ok (a, s) /\ pair a p s.

(** The secret of one of these keys is held. *)
Definition holds_one (own : bytes -> option secret) (kids : list bytes) : Prop := exists kid sec, In kid kids /\ own kid = Some sec.

(** ** Messages that can be carried *)
Section Fits.
Context (C : crypto).
Definition text_ok (s : bytes) : Prop := utf8 s = true.
Definition opt {A} (P : A -> Prop) (o : option A) : Prop := forall a, o = Some a -> P a.
Definition time_ok (n : N) : Prop := (n < 2 ^ 64)%N.

Definition attachment_fits (a : attachment) : Prop :=
  match att_data a with
  | ABase64 s j => text_ok s /\ opt text_ok j
  | AJson v j => json_value (fparse C) 123 v /\ opt text_ok j
  | ALinks l h j => Forall text_ok l /\ text_ok h /\ opt text_ok j
  end
  /\ opt text_ok (att_id a) /\ opt text_ok (att_description a) /\ opt text_ok (att_filename a)
  /\ opt text_ok (att_media_type a) /\ opt text_ok (att_format a)
  /\ opt time_ok (att_lastmod_time a) /\ opt time_ok (att_byte_count a).

Definition standard_headers : list bytes :=
  map B ["id"; "typ"; "type"; "body"; "from"; "to"; "thid"; "pthid"; "created_time"; "expires_time";
         "from_prior"; "attachments"]%string.
Definition jwe_names : list bytes := map B ["protected"; "recipients"; "iv"; "ciphertext"; "tag"]%string.
Definition jws_names : list bytes := map B ["signatures"; "payload"]%string.

(** Strings are UTF-8 and numbers are u64 (always so in Rust), JSON is not nested too
    deep, the typ is the plaintext one, and custom header names are distinct, differ
    from the standard ones and do not imitate an envelope. *)
Definition message_fits (m : message) : Prop :=
  text_ok (msg_id m) /\ msg_typ m = B "application/didcomm-plain+json" /\ text_ok (msg_type m)
  /\ json_value (fparse C) 126 (msg_body m)
  /\ opt text_ok (msg_from m) /\ opt (Forall text_ok) (msg_to m)
  /\ opt text_ok (msg_thid m) /\ opt text_ok (msg_pthid m)
  /\ opt time_ok (msg_created m) /\ opt time_ok (msg_expires m)
  /\ opt text_ok (msg_from_prior m) /\ opt (Forall attachment_fits) (msg_attachments m)
  /\ NoDup (map fst (msg_extra m))
  /\ (forall k v, In (k, v) (msg_extra m) -> text_ok k /\ ~ In k standard_headers /\ json_value (fparse C) 126 v)
  /\ ~ incl jwe_names (map fst (msg_extra m)) /\ ~ incl jws_names (map fst (msg_extra m)).

Definition prior_fits (p : from_prior) : Prop :=
  text_ok (fp_iss p) /\ text_ok (fp_sub p) /\ opt text_ok (fp_aud p) /\ opt text_ok (fp_jti p)
  /\ opt time_ok (fp_exp p) /\ opt time_ok (fp_nbf p) /\ opt time_ok (fp_iat p).

(** The rotation carried by a message, as verified when it was packed. *)
Definition rotation_of (tr : list event) (m : message) (prior : option (from_prior * bytes)) : Prop :=
  match prior with
  | None => msg_from_prior m = None
  | Some (p, kid) => exists jwt, msg_from_prior m = Some jwt /\ rotation_by C tr jwt p kid
  end.

(** [sign] is the key id, algorithm and text of the signed layer made for [sign_by]:
    the text is what pack_signed returned, the algorithm the one of the published key. *)
Definition signature_of (dir : bytes -> option diddoc) (tr : list event) (m : message) (sign_by : option bytes)
  (sign : option (bytes * sign_alg * bytes)) : Prop :=
  match sign_by, sign with
  | None, None => True
  | Some by_, Some (kid, sa, text) =>
      (exists tr0, incl tr0 tr /\ exec (pack_signed C m by_) tr0 (Ok (text, kid)))
      /\ exists did doc alg ka k st, url_of did kid /\ dir did = Some doc
           /\ publishes C doc_authentication doc kid ka k /\ alg_row alg ka st sa
  | _, _ => False
  end.

(** Opened anoncrypt, [m] is not taken for a forward message to us. *)
Definition kept (dir : bytes -> option diddoc) (own : bytes -> option secret) (o : unpack_options) (m : message) : Prop :=
  uo_unwrap o = true -> msg_type m = B "https://didcomm.org/routing/2.0/forward" ->
  forall body next, msg_body m = VObj body -> amap_get (B "next") body = Some (VStr next) ->
    (exists did, url_of did next) /\ own next = None
    \/ ~ In "#"%char next /\ exists doc, dir next = Some doc /\ forall kid, In kid (doc_key_agreement doc) -> own kid = None.
End Fits.

(** Metadata of an unpacked message, from its layers: [anon] the recipient key ids and
    algorithm of an anoncrypt layer, [auth] recipient and sender key ids, [sign] key
    id, algorithm and text of the signed layer, [prior] rotation. *)
Definition metadata (anon : option (list bytes * anon_alg)) (auth : option (list bytes * bytes))
  (sign : option (bytes * sign_alg * bytes)) (prior : option (from_prior * bytes)) : unpack_metadata :=
  {| um_encrypted := is_some anon || is_some auth;
     um_authenticated := is_some auth || is_some sign;
     um_non_repudiation := is_some sign;
     um_anonymous_sender := is_some anon;
     um_re_wrapped := false;
     um_encrypted_from_kid := option_map snd auth;
     um_encrypted_to_kids := match anon with Some a => Some (fst a) | None => option_map fst auth end;
     um_sign_from := option_map (fun s => fst (fst s)) sign;
     um_from_prior_issuer_kid := option_map snd prior;
     um_enc_alg_auth := option_map (fun _ => AuthA256cbcHs512) auth;
     um_enc_alg_anon := option_map snd anon;
     um_sign_alg := option_map (fun s => snd (fst s)) sign;
     um_signed_message := option_map snd sign;
     um_from_prior := option_map fst prior |}.
