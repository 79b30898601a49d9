(** Valid messages once more, as somebody would describe them who only knows the RFCs
    and the DIDComm specification: [valid] of Spec/Accept.v without the readers of the
    model.  JSON is that of Spec/Grammar.v, base64url that of Spec/Codec.v, and what the
    members of an object mean is said in Spec/Wire.v. *)
From Verif.Model Require Import Prelude Json Serde DidDoc Crypto Keys Effects Jws Jwe Message FromPrior Pack Unpack.
From Verif.Spec Require Import Codec Small Events World Text Grammar Wire Accept.

Section Outside.
Context (C : crypto) (dir : bytes -> option diddoc) (own : bytes -> option secret).

(** The text [t] is JSON that says [a]... *)
Definition says {A} (read : value -> A -> Prop) (t : bytes) (a : A) : Prop := exists v, denotes_plainly (fparse C) t v /\ read v a.
(** ... or nothing of this kind... *)
Definition mute {A} (read : value -> A -> Prop) (t : bytes) : Prop := exists v, denotes_plainly (fparse C) t v /\ forall a, ~ read v a.
(** ... and a base64url text of such JSON. *)
Definition encloses {A} (read : value -> A -> Prop) (t : bytes) (a : A) : Prop := exists s, is_base64url s t /\ says read s a.

(** ** Envelopes *)
Definition jwe_text (text : bytes) (j : jwe) (h : jwe_header) : Prop :=
  says jwe_read text j /\ encloses jwe_header_read (jwe_protected j) h.
Definition sender_named (h : jwe_header) (apu : option bytes) : Prop :=
  match ph_apu h, apu with None, None => True | Some t, Some a => is_base64url a t | _, _ => False end.
(** The ciphertext of [j] decrypts to [pt] for the holder of the key [k] named [kid]; the
    content key is wrapped with a key agreed upon with the ephemeral key and, for
    authcrypt, with the sender's. *)
Definition decrypts (ce : cenc) (ka : kalg) (j : jwe) (h : jwe_header) (sender : option (bytes * key C))
  (kid : bytes) (k : key C) (pt : bytes) : Prop :=
  exists rc ek epk apv tag kw c cek iv ct,
    first_with (fun r => rc_kid r = kid) (jwe_recipients j) rc
    /\ is_base64url ek (rc_key rc) /\ from_jwk C ka (ph_epk h) = Some epk
    /\ is_base64url apv (ph_apv h) /\ is_base64url tag (jwe_tag j)
    /\ match sender with
       | None => ecdh_es C ka epk k (B "ECDH-ES+A256KW") [] apv true
       | Some (apu, s) => ecdh_1pu C ka epk s k (B "ECDH-1PU+A256KW") apu apv tag true
       end = Some kw
    /\ kw_unwrap C kw ek = Some c /\ cek_import C ce c = Some cek
    /\ is_base64url iv (jwe_iv j) /\ is_base64url ct (jwe_ciphertext j)
    /\ aead_dec C ce cek iv (jwe_protected j) (ct ++ tag) = Some pt.
(** So for every key of ours among the recipients, and there is one. *)
Definition for_us (j : jwe) (open : bytes -> kalg -> key C -> Prop) : Prop :=
  holds_one own (recipient_kids j)
  /\ forall kid sec, In kid (recipient_kids j) -> own kid = Some sec -> exists ka k, sec_key_pair C sec = Ok (ka, k) /\ open kid ka k.
Definition recipients_digest (j : jwe) (h : jwe_header) : Prop :=
  one_did (recipient_kids j) /\ exists apv, is_base64url apv (ph_apv h) /\ apv_for C (recipient_kids j) apv.

Definition anonymous (text : bytes) (j : jwe) (alg : anon_alg) (pt : bytes) : Prop :=
  exists h ce, jwe_text text j h /\ ph_alg h = EcdhEsA256kw /\ enc_of (ph_enc h) ce alg
    /\ sender_named h None /\ ph_skid h = None /\ recipients_digest j h /\ utf8_text pt
    /\ for_us j (fun kid ka k => (ka = KX25519 \/ ka = KP256) /\ decrypts ce ka j h None kid k pt).
Definition authenticated (text : bytes) (j : jwe) (from pt : bytes) : Prop :=
  exists h did doc ka fk, jwe_text text j h /\ ph_alg h = Ecdh1puA256kw /\ ph_enc h = A256cbcHs512
    /\ sender_named h (Some from) /\ utf8_text from /\ (ph_skid h = None \/ ph_skid h = Some from)
    /\ recipients_digest j h /\ utf8_text pt
    /\ url_of did from /\ dir did = Some doc /\ publishes C doc_key_agreement doc from ka fk /\ (ka = KX25519 \/ ka = KP256)
    /\ for_us j (fun kid ka' k => ka' = ka /\ decrypts CA256CbcHs512 ka j h (Some (from, fk)) kid k pt).
(** Not an envelope, or one of the other kind. *)
Definition not_sealed (alg : jwe_alg) (text : bytes) : Prop :=
  mute jwe_read text
  \/ exists j h apv apu, jwe_text text j h /\ ph_alg h <> alg /\ is_base64url apv (ph_apv h) /\ sender_named h apu.

(** ** Signatures *)
Definition verifies (kid : bytes) (alg : jws_alg) (sa : sign_alg) (input sig64 : bytes) : Prop :=
  exists did doc ka k st s, alg_row alg ka st sa /\ url_of did kid /\ dir did = Some doc /\ publishes C doc_authentication doc kid ka k
    /\ is_base64url s sig64 /\ key_verify C ka st k input s = Some true.
Definition signed_text (text kid : bytes) (sa : sign_alg) (payload : bytes) : Prop :=
  exists j sg h, says jws_read text j /\ jws_signatures j = [sg] /\ sig_kid sg = kid
    /\ encloses jws_header_read (sig_protected sg) h
    /\ verifies kid (jh_alg h) sa (sig_protected sg ++ B "." ++ jws_payload j) (sig_signature sg)
    /\ is_base64url payload (jws_payload j) /\ utf8_text payload.
Definition token_text (jwt : bytes) (p : from_prior) (kid : bytes) : Prop :=
  exists hd pl sg h sa, jwt = hd ++ B "." ++ pl ++ B "." ++ sg
    /\ encloses token_header_read hd h /\ ch_typ h = B "JWT" /\ ch_kid h = kid
    /\ verifies kid (ch_alg h) sa (hd ++ B "." ++ pl) sg
    /\ exists payload, is_base64url payload pl /\ utf8_text payload /\ says prior_read payload p.

(** ** Messages *)
Definition forwards (m : message) (next : bytes) (v : value) : Prop :=
  exists body att rest js, msg_type m = B "https://didcomm.org/routing/2.0/forward"
    /\ msg_body m = VObj body /\ amap_get (B "next") body = Some (VStr next)
    /\ msg_attachments m = Some (att :: rest) /\ att_data att = AJson v js.
(** [n] envelopes around forwards to ourselves, and at most one more. *)
Inductive peeled (o : unpack_options) : nat -> bytes -> bool -> option (list bytes * anon_alg) -> bytes -> Prop :=
| peeled_none text : not_sealed EcdhEsA256kw text -> peeled o 0 text false None text
| peeled_last text j alg pt : anonymous text j alg pt ->
    (uo_unwrap o = true ->
       mute message_read pt
       \/ exists m, says message_read pt m /\ forall next v, forwards m next v -> foreign dir own next) ->
    peeled o 0 text false (Some (recipient_kids j, alg)) pt
| peeled_more n text j alg pt m next v rew last text' : anonymous text j alg pt -> uo_unwrap o = true ->
    says message_read pt m -> forwards m next v -> mine dir own next ->
    peeled o n (print v) rew last text' ->
    peeled o (S n) text true (match last with Some l => Some l | None => Some (recipient_kids j, alg) end) text'.

(** [text] carries the message [m] to us, and [md] describes how. *)
Definition conveys (o : unpack_options) (n : nat) (text : bytes) (m : message) (md : unpack_metadata) : Prop :=
  exists rew anon auth sign prior text1 text2 text3,
    peeled o n text rew anon text1
    /\ match auth with
       | None => text2 = text1 /\ not_sealed Ecdh1puA256kw text1
       | Some (kids, from) => exists j, authenticated text1 j from text2 /\ kids = recipient_kids j
       end
    /\ match sign with
       | None => text3 = text2 /\ mute jws_read text2
       | Some (kid, sa) => signed_text text2 kid sa text3
       end
    /\ says message_read text3 m
    /\ msg_typ m = B "application/didcomm-plain+json"
    /\ match prior with
       | None => msg_from_prior m = None
       | Some (p, kid) => exists jwt, msg_from_prior m = Some jwt /\ token_text jwt p kid
       end
    /\ md = {| um_encrypted := is_some anon || is_some auth;
               um_authenticated := is_some auth || is_some sign;
               um_non_repudiation := is_some sign;
               um_anonymous_sender := is_some anon;
               um_re_wrapped := rew;
               um_encrypted_from_kid := option_map snd auth;
               um_encrypted_to_kids := match anon with Some a => Some (fst a) | None => option_map fst auth end;
               um_sign_from := option_map fst sign;
               um_from_prior_issuer_kid := option_map snd prior;
               um_enc_alg_auth := option_map (fun _ => AuthA256cbcHs512) auth;
               um_enc_alg_anon := option_map snd anon;
               um_sign_alg := option_map snd sign;
               um_signed_message := option_map (fun _ => text2) sign;
               um_from_prior := option_map fst prior |}.
End Outside.
