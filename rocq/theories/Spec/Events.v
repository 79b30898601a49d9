(** What an execution did: resolver answers, keys published in documents, and what
    it means that an envelope was opened or a signature verified. *)
From Verif.Model Require Import Prelude Utf8 Base64 Json Serde DidDoc Crypto Keys Effects Jws Jwe Message FromPrior Pack Routing Unpack.
From Verif.Spec Require Import Small.
From Coq Require Import Permutation.

(** The DID resolver answered [did] with the document [doc]. *)
Definition resolved (tr : list event) (did : bytes) (doc : diddoc) : Prop :=
  In (Ev (OResolve did) (Ok (Some doc))) tr.
(** find_secrets([ids]) was answered with [found]. *)
Definition reported (tr : list event) (ids found : list bytes) : Prop :=
  In (Ev (OFindSecrets ids) (Ok found)) tr.
(** get_secret([kid]) was answered with [sec]. *)
Definition held (tr : list event) (kid : bytes) (sec : secret) : Prop :=
  In (Ev (OGetSecret kid) (Ok (Some sec))) tr.
(** A call to the secrets resolver. *)
Definition secret_call (e : event) : Prop :=
  match e with Ev (OFindSecrets _) _ | Ev (OGetSecret _) _ => True | _ => False end.

(** [url] is a DID URL of [did]: [did] is what precedes the first #. *)
Definition url_of (did url : bytes) : Prop := exists f, url = did ++ "#"%char :: f /\ ~ In "#"%char did.

(** A DID URL with a single #. *)
Definition plain_url (did url : bytes) : Prop :=
  exists f, url = did ++ "#"%char :: f /\ ~ In "#"%char did /\ ~ In "#"%char f.

(** Document [doc] lists [kid] under the relationship [rel] and its entry for [kid]
    is the key [k] of algorithm [a]. *)
Definition publishes (C : crypto) (rel : diddoc -> list bytes) (doc : diddoc) (kid : bytes) (a : kalg) (k : key C) : Prop :=
  In kid (rel doc) /\ exists vm, first_with (fun v => vm_id v = kid) (doc_verification_method doc) vm
                                 /\ vm_key_pair C vm = Ok (a, k).

(** ** Encrypted envelopes *)
Section Envelope.
Context (C : crypto).

(** [text] is the JWE [j] with protected header [h]. *)
Definition envelope (text : bytes) (j : jwe) (h : jwe_header) : Prop :=
  jwe_from_str text = Ok j
  /\ exists hb, b64dec (jwe_protected j) = Some hb /\ from_json (de_jwe_header C) hb = Ok h.
Definition recipient_kids (j : jwe) : list bytes := map rc_kid (jwe_recipients j).

(** Order of byte strings. *)
Inductive lex_le : bytes -> bytes -> Prop :=
| lex_nil b : lex_le [] b
| lex_lt x a y b : (N_of_ascii x < N_of_ascii y)%N -> lex_le (x :: a) (y :: b)
| lex_eq x a b : lex_le a b -> lex_le (x :: a) (x :: b).
Inductive lex_sorted : list bytes -> Prop :=
| ls_nil : lex_sorted []
| ls_cons x l : (forall y, In y l -> lex_le x y) -> lex_sorted l -> lex_sorted (x :: l).
(** The digest DIDComm requires as apv: of the sorted key ids joined with dots. *)
Definition apv_for (kids : list bytes) (apv : bytes) : Prop :=
  exists l, Permutation l kids /\ lex_sorted l /\ apv = sha256 C (join (B ".") l).

(** All key ids are DID URLs of one DID, and there is at least one. *)
Definition one_did (kids : list bytes) : Prop := kids <> [] /\ exists did, Forall (url_of did) kids.

(** Sender key id announced by the header: [None] for no apu. *)
Definition announces (h : jwe_header) (apu : option bytes) : Prop :=
  match ph_apu h, apu with
  | None, None => True
  | Some t, Some a => b64dec t = Some a
  | _, _ => False
  end.

(** The content key [cek] is what the holder of [k] for recipient [kid] unwraps.
    [sender = None] is ECDH-ES, [Some (apu, key)] is ECDH-1PU. *)
Definition content_key (ce : cenc) (ka : kalg) (j : jwe) (h : jwe_header) (sender : option (bytes * key C))
  (kid : bytes) (k : key C) (cek : bytes) : Prop :=
  exists rc ek epk apv tag kw c,
    first_with (fun r => rc_kid r = kid) (jwe_recipients j) rc
    /\ b64dec (rc_key rc) = Some ek
    /\ from_jwk C ka (ph_epk h) = Some epk
    /\ b64dec (ph_apv h) = Some apv
    /\ b64dec (jwe_tag j) = Some tag
    /\ match sender with
       | None => ecdh_es C ka epk k (jwe_alg_str (ph_alg h)) [] apv true
       | Some (apu, s) => ecdh_1pu C ka epk s k (jwe_alg_str (ph_alg h)) apu apv tag true
       end = Some kw
    /\ kw_unwrap C kw ek = Some c
    /\ cek_import C ce c = Some cek.

(** [pt] is the decryption of the ciphertext under that key, with the protected
    header as associated data. *)
Definition opened (ce : cenc) (ka : kalg) (j : jwe) (h : jwe_header) (sender : option (bytes * key C))
  (kid : bytes) (k : key C) (pt : bytes) : Prop :=
  exists cek iv ct tag,
    content_key ce ka j h sender kid k cek
    /\ b64dec (jwe_iv j) = Some iv /\ b64dec (jwe_ciphertext j) = Some ct /\ b64dec (jwe_tag j) = Some tag
    /\ aead_dec C ce cek iv (jwe_protected j) (ct ++ tag) = Some pt.

(** Content encryption named by the header. *)
Definition enc_of (e : jwe_enc) (ce : cenc) (alg : anon_alg) : Prop :=
  (e, ce, alg) = (A256cbcHs512, CA256CbcHs512, AnonA256cbcHs512)
  \/ (e, ce, alg) = (Xc20P, CXC20P, AnonXc20p) \/ (e, ce, alg) = (A256Gcm, CA256Gcm, AnonA256gcm).

(** [pt] comes out of [open] for the keys tried: the first found one, or, with [all],
    every found one, the last giving the result. *)
Definition tried (tr : list event) (all : bool) (found : list bytes)
  (open : bytes -> kalg -> key C -> bytes -> Prop) (pt : bytes) : Prop :=
  let ok kid pt := exists sec ka k, held tr kid sec /\ sec_key_pair C sec = Ok (ka, k) /\ open kid ka k pt in
  if all then exists l kid, found = l ++ [kid] /\ ok kid pt /\ forall kid', In kid' l -> exists pt', ok kid' pt'
  else exists kid l, found = kid :: l /\ ok kid pt.

(** [text] was opened as an anoncrypt envelope. *)
Definition anon_opened (tr : list event) (all : bool) (text : bytes) (j : jwe) (alg : anon_alg) (pt : bytes) : Prop :=
  exists h apv found ce,
    envelope text j h /\ ph_alg h = EcdhEsA256kw /\ enc_of (ph_enc h) ce alg
    /\ announces h None /\ ph_skid h = None
    /\ b64dec (ph_apv h) = Some apv /\ apv_for (recipient_kids j) apv
    /\ one_did (recipient_kids j)
    /\ reported tr (recipient_kids j) found
    /\ tried tr all found (fun kid ka k pt => (ka = KX25519 \/ ka = KP256) /\ opened ce ka j h None kid k pt) pt.

(** [text] was opened as an authcrypt envelope sent by the key [from]. *)
Definition auth_opened (tr : list event) (all : bool) (text : bytes) (j : jwe) (from pt : bytes) : Prop :=
  exists h apv found did doc ka fk,
    envelope text j h /\ ph_alg h = Ecdh1puA256kw /\ ph_enc h = A256cbcHs512
    /\ announces h (Some from) /\ utf8 from = true /\ (ph_skid h = None \/ ph_skid h = Some from)
    /\ b64dec (ph_apv h) = Some apv /\ apv_for (recipient_kids j) apv
    /\ one_did (recipient_kids j)
    /\ url_of did from /\ resolved tr did doc /\ publishes C doc_key_agreement doc from ka fk
    /\ reported tr (recipient_kids j) found
    /\ (ka = KX25519 \/ ka = KP256)
    /\ tried tr all found (fun kid ka' k pt => ka' = ka /\ opened CA256CbcHs512 ka j h (Some (from, fk)) kid k pt) pt.
End Envelope.

(** ** Signatures *)
(** JWS algorithm, key algorithm, signature type and reported algorithm go together. *)
Definition alg_row (a : jws_alg) (ka : kalg) (st : sigtype) (sa : sign_alg) : Prop :=
  (a, ka, st, sa) = (EdDSA, KEd25519, SigEdDSA, SignEdDSA)
  \/ (a, ka, st, sa) = (Es256, KP256, SigES256, SignES256)
  \/ (a, ka, st, sa) = (Es256K, KK256, SigES256K, SignES256K).

(** [text] is a JWS with one signature, by [kid], that verifies under a published
    authentication key of [kid], over [protected.payload]. *)
Definition signed_by (C : crypto) (tr : list event) (text kid : bytes) (sa : sign_alg) (payload : bytes) : Prop :=
  exists j sg hb h did doc ka k st s,
    jws_from_str text = Ok j /\ jws_signatures j = [sg] /\ sig_kid sg = kid
    /\ b64dec (sig_protected sg) = Some hb /\ from_json de_jws_header hb = Ok h
    /\ alg_row (jh_alg h) ka st sa
    /\ url_of did kid /\ resolved tr did doc /\ publishes C doc_authentication doc kid ka k
    /\ b64dec (sig_signature sg) = Some s
    /\ key_verify C ka st k (sig_protected sg ++ "."%char :: jws_payload j) s = Some true
    /\ b64dec (jws_payload j) = Some payload /\ utf8 payload = true.

(** [jwt] is a rotation token of [p], signed by the published authentication key [kid]. *)
Definition rotation_by (C : crypto) (tr : list event) (jwt : bytes) (p : from_prior) (kid : bytes) : Prop :=
  exists hd pl sg hb h did doc ka k st sa s payload,
    jwt = hd ++ "."%char :: pl ++ "."%char :: sg
    /\ ~ In "."%char hd /\ ~ In "."%char pl /\ ~ In "."%char sg
    /\ b64dec hd = Some hb /\ from_json de_compact_header hb = Ok h
    /\ ch_typ h = B "JWT" /\ ch_kid h = kid /\ alg_row (ch_alg h) ka st sa
    /\ url_of did kid /\ resolved tr did doc /\ publishes C doc_authentication doc kid ka k
    /\ b64dec sg = Some s
    /\ key_verify C ka st k (hd ++ "."%char :: pl) s = Some true
    /\ b64dec pl = Some payload /\ utf8 payload = true /\ from_json (de_from_prior C) payload = Ok p.

(** ** A whole unpack *)
Section Unpacked.
Context (C : crypto).

(** [pt] is a plaintext forward message to [next] that carries the JSON value [v]. *)
Definition forward_to (pt next : bytes) (v : value) : Prop :=
  exists m body att rest js,
    message_from_str (fparse C) pt = Ok m
    /\ msg_type m = B "https://didcomm.org/routing/2.0/forward"
    /\ msg_body m = VObj body /\ amap_get (B "next") body = Some (VStr next)
    /\ msg_attachments m = Some (att :: rest) /\ att_data att = AJson v js.

(** The secrets resolver was asked for the key [next], or for the keyAgreement keys
    of the DID [next], and reported [found]. *)
Definition asked_next (tr : list event) (next : bytes) (found : list bytes) : Prop :=
  exists ids, reported tr ids found
    /\ ((exists did, url_of did next) /\ ids = [next]
        \/ ~ In "#"%char next /\ exists doc, resolved tr next doc /\ ids = doc_key_agreement doc).

(** [text] is not an envelope with algorithm [alg]. *)
Definition not_jwe (alg : jwe_alg) (text : bytes) : Prop :=
  jwe_from_str text = Err Malformed \/ exists j h, envelope C text j h /\ ph_alg h <> alg.

(** The anoncrypt layers: [outer o tr text rew last text']: starting from [text], the
    anoncrypt envelope and any forwards re-wrapped for us were opened, leaving
    [text'].  [rew]: some forward was unwrapped.  [last]: recipients and algorithm
    of the last anoncrypt envelope opened. *)
Inductive outer (o : unpack_options) (tr : list event) : bytes -> bool -> option (list bytes * anon_alg) -> bytes -> Prop :=
| outer_none text : not_jwe EcdhEsA256kw text -> outer o tr text false None text
| outer_anon text j alg pt :
    anon_opened C tr (uo_all_keys o) text j alg pt ->
    (uo_unwrap o = true ->
       message_from_str (fparse C) pt = Err Malformed
       \/ (exists m, message_from_str (fparse C) pt = Ok m /\ forall next v, ~ forward_to pt next v)
       \/ exists next v, forward_to pt next v /\ asked_next tr next []) ->
    outer o tr text false (Some (recipient_kids j, alg)) pt
| outer_fwd text j alg pt next v kid found rew last text' :
    anon_opened C tr (uo_all_keys o) text j alg pt ->
    uo_unwrap o = true -> forward_to pt next v -> asked_next tr next (kid :: found) ->
    outer o tr (print v) rew last text' ->
    outer o tr text true (match last with Some l => Some l | None => Some (recipient_kids j, alg) end) text'.

Definition unpacked (o : unpack_options) (tr : list event) (text : bytes) (m : message) (md : unpack_metadata) : Prop :=
  exists rew anon auth sign prior text1 text2 text3,
    outer o tr text rew anon text1
    /\ match auth with
       | None => text2 = text1 /\ not_jwe Ecdh1puA256kw text1
       | Some (kids, from) => exists j, auth_opened C tr (uo_all_keys o) text1 j from text2 /\ kids = recipient_kids j
       end
    /\ match sign with
       | None => text3 = text2 /\ jws_from_str text2 = Err Malformed
       | Some (kid, sa) => signed_by C tr text2 kid sa text3
       end
    /\ message_from_str (fparse C) text3 = Ok m
    /\ msg_typ m = B "application/didcomm-plain+json"
    /\ match prior with
       | None => msg_from_prior m = None
       | Some (p, kid) => exists jwt, msg_from_prior m = Some jwt /\ rotation_by C tr jwt p kid
       end
    /\ md = {| um_encrypted := is_some anon || is_some auth;
               um_authenticated := is_some auth || is_some sign;
               um_non_repudiation := is_some sign;
               um_anonymous_sender := is_some anon;
               um_re_wrapped := rew;
               um_encrypted_from_kid := option_map snd auth;
               um_encrypted_to_kids := match anon with Some a => Some (fst a) | None => option_map fst auth end;
               um_sign_from := option_map fst sign;
               um_from_prior_issuer_kid := option_map snd prior;
               um_enc_alg_auth := option_map (fun _ => AuthA256cbcHs512) auth;
               um_enc_alg_anon := option_map snd anon;
               um_sign_alg := option_map snd sign;
               um_signed_message := option_map (fun _ => text2) sign;
               um_from_prior := option_map fst prior |}.
End Unpacked.

(** ** Texts met while unpacking *)
(** [reach C text t]: [t] is [text] itself, or the decryption of an envelope met on
    the way, or the payload of a forward message met on the way. *)
Inductive reach (C : crypto) (text : bytes) : bytes -> Prop :=
| reach_here : reach C text text
| reach_open t j h ce ka sender kid k pt :
    reach C text t -> envelope C t j h -> opened C ce ka j h sender kid k pt -> reach C text pt
| reach_fwd t next v : reach C text t -> forward_to C t next v -> reach C text (print v).

(** The calls that unpacking [text] may make after the calls [h]; [all]: every reported
    secret may be fetched, otherwise only the first of a report. *)
Definition unpack_call (C : crypto) (text : bytes) (all : bool) (h : list event) (o : op) : Prop :=
  match o with
  | OResolve _ => True
  | OFindSecrets ids =>
      exists t, reach C text t /\
        ((exists j hd, envelope C t j hd /\ ids = recipient_kids j)
         \/ exists next v, forward_to C t next v /\
              ((exists did, url_of did next) /\ ids = [next]
               \/ ~ In "#"%char next /\ exists doc, resolved h next doc /\ ids = doc_key_agreement doc))
  | OGetSecret id => exists ids l l', reported h ids (l ++ id :: l') /\ (all = false -> l = [])
  | ORandom _ => False
  end.
