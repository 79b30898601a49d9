(** Texts that should be accepted by their recipient, whoever made them: what
    [unpacked] (Spec/Events.v) says after the fact, said in advance of a DID
    directory [dir] and the recipient's secrets [own]. *)
From Verif.Model Require Import Prelude Utf8 Base64 Json Serde DidDoc Crypto Keys Effects Jws Jwe Message FromPrior Pack Routing Unpack.
From Verif.Spec Require Import Small Events World.

Section Accept.
Context (C : crypto) (dir : bytes -> option diddoc) (own : bytes -> option secret).

(** How an envelope opens to [pt] for somebody who holds the secrets [own]; see
    [opens_each] and [opens_some] below. *)
Context (opens : list bytes -> (bytes -> kalg -> key C -> bytes -> Prop) -> bytes -> Prop).

(** An anoncrypt envelope of [pt]. *)
Definition anon_valid (text : bytes) (j : jwe) (alg : anon_alg) (pt : bytes) : Prop :=
  exists h apv ce,
    envelope C text j h /\ ph_alg h = EcdhEsA256kw /\ enc_of (ph_enc h) ce alg
    /\ announces h None /\ ph_skid h = None
    /\ b64dec (ph_apv h) = Some apv /\ apv_for C (recipient_kids j) apv
    /\ one_did (recipient_kids j) /\ utf8 pt = true
    /\ opens (recipient_kids j) (fun kid ka k pt => (ka = KX25519 \/ ka = KP256) /\ opened C ce ka j h None kid k pt) pt.

(** An authcrypt envelope of [pt] by the published key [from]; skid may be missing. *)
Definition auth_valid (text : bytes) (j : jwe) (from pt : bytes) : Prop :=
  exists h apv did doc ka fk,
    envelope C text j h /\ ph_alg h = Ecdh1puA256kw /\ ph_enc h = A256cbcHs512
    /\ announces h (Some from) /\ utf8 from = true /\ (ph_skid h = None \/ ph_skid h = Some from)
    /\ b64dec (ph_apv h) = Some apv /\ apv_for C (recipient_kids j) apv
    /\ one_did (recipient_kids j) /\ utf8 pt = true
    /\ url_of did from /\ dir did = Some doc /\ publishes C doc_key_agreement doc from ka fk
    /\ (ka = KX25519 \/ ka = KP256)
    /\ opens (recipient_kids j) (fun kid ka' k pt => ka' = ka /\ opened C CA256CbcHs512 ka j h (Some (from, fk)) kid k pt) pt.

(** Not an envelope at all, or one with another algorithm and decodable apv and apu. *)
Definition other_jwe (alg : jwe_alg) (text : bytes) : Prop :=
  jwe_from_str text = Err Malformed
  \/ exists j h apv apu, envelope C text j h /\ ph_alg h <> alg /\ b64dec (ph_apv h) = Some apv /\ announces h apu.

(** Neither the encrypted nor the signed layers apply to [text]. *)
Definition only_plain (text : bytes) : Prop :=
  other_jwe EcdhEsA256kw text /\ other_jwe Ecdh1puA256kw text /\ jws_from_str text = Err Malformed.

(** A JWS with a single signature, by the published authentication key [kid]. *)
Definition signed_valid (text kid : bytes) (sa : sign_alg) (payload : bytes) : Prop :=
  exists j sg hb h did doc ka k st s,
    jws_from_str text = Ok j /\ jws_signatures j = [sg] /\ sig_kid sg = kid
    /\ b64dec (sig_protected sg) = Some hb /\ from_json de_jws_header hb = Ok h
    /\ alg_row (jh_alg h) ka st sa
    /\ url_of did kid /\ dir did = Some doc /\ publishes C doc_authentication doc kid ka k
    /\ b64dec (sig_signature sg) = Some s
    /\ key_verify C ka st k (sig_protected sg ++ "."%char :: jws_payload j) s = Some true
    /\ b64dec (jws_payload j) = Some payload /\ utf8 payload = true.

(** A rotation token of [p], by the published authentication key [kid]. *)
Definition rotation_valid (jwt : bytes) (p : from_prior) (kid : bytes) : Prop :=
  exists hd pl sg hb h did doc ka k st sa s payload,
    jwt = hd ++ "."%char :: pl ++ "."%char :: sg
    /\ ~ In "."%char hd /\ ~ In "."%char pl /\ ~ In "."%char sg
    /\ b64dec hd = Some hb /\ from_json de_compact_header hb = Ok h
    /\ ch_typ h = B "JWT" /\ ch_kid h = kid /\ alg_row (ch_alg h) ka st sa
    /\ url_of did kid /\ dir did = Some doc /\ publishes C doc_authentication doc kid ka k
    /\ b64dec sg = Some s
    /\ key_verify C ka st k (hd ++ "."%char :: pl) s = Some true
    /\ b64dec pl = Some payload /\ utf8 payload = true /\ from_json (de_from_prior C) payload = Ok p.

(** [next] is the recipient: a key of theirs, or a DID with a key of theirs... *)
Definition mine (next : bytes) : Prop :=
  (exists did, url_of did next) /\ own next <> None
  \/ ~ In "#"%char next /\ exists doc, dir next = Some doc /\ holds_one own (doc_key_agreement doc).
(** ... or is known to be somebody else. *)
Definition foreign (next : bytes) : Prop :=
  (exists did, url_of did next) /\ own next = None
  \/ ~ In "#"%char next /\ exists doc, dir next = Some doc /\ forall kid, In kid (doc_key_agreement doc) -> own kid = None.

(** [n] anoncrypt envelopes around forwards to the recipient, and at most one more; see
    [outer]. *)
Inductive layers (o : unpack_options) : nat -> bytes -> bool -> option (list bytes * anon_alg) -> bytes -> Prop :=
| layers_none text : other_jwe EcdhEsA256kw text -> layers o 0 text false None text
| layers_anon text j alg pt :
    anon_valid text j alg pt ->
    (uo_unwrap o = true ->
       message_from_str (fparse C) pt = Err Malformed
       \/ (exists m, message_from_str (fparse C) pt = Ok m /\ forall next v, ~ forward_to C pt next v)
       \/ exists next v, forward_to C pt next v /\ foreign next) ->
    layers o 0 text false (Some (recipient_kids j, alg)) pt
| layers_fwd n text j alg pt next v rew last text' :
    anon_valid text j alg pt -> uo_unwrap o = true -> forward_to C pt next v -> mine next ->
    layers o n (print v) rew last text' ->
    layers o (S n) text true (match last with Some l => Some l | None => Some (recipient_kids j, alg) end) text'.

(** [text] carries [m] to the recipient, [n] times forwarded to themselves, and
    [md] describes the layers. *)
Definition carries (o : unpack_options) (n : nat) (text : bytes) (m : message) (md : unpack_metadata) : Prop :=
  exists rew anon auth sign prior text1 text2 text3,
    layers o n text rew anon text1
    /\ match auth with
       | None => text2 = text1 /\ other_jwe Ecdh1puA256kw text1
       | Some (kids, from) => exists j, auth_valid text1 j from text2 /\ kids = recipient_kids j
       end
    /\ match sign with
       | None => text3 = text2 /\ jws_from_str text2 = Err Malformed
       | Some (kid, sa) => signed_valid text2 kid sa text3
       end
    /\ message_from_str (fparse C) text3 = Ok m
    /\ msg_typ m = B "application/didcomm-plain+json"
    /\ match prior with
       | None => msg_from_prior m = None
       | Some (p, kid) => exists jwt, msg_from_prior m = Some jwt /\ rotation_valid jwt p kid
       end
    /\ md = {| um_encrypted := is_some anon || is_some auth;
               um_authenticated := is_some auth || is_some sign;
               um_non_repudiation := is_some sign;
               um_anonymous_sender := is_some anon;
               um_re_wrapped := rew;
               um_encrypted_from_kid := option_map snd auth;
               um_encrypted_to_kids := match anon with Some a => Some (fst a) | None => option_map fst auth end;
               um_sign_from := option_map fst sign;
               um_from_prior_issuer_kid := option_map snd prior;
               um_enc_alg_auth := option_map (fun _ => AuthA256cbcHs512) auth;
               um_enc_alg_anon := option_map snd anon;
               um_sign_alg := option_map snd sign;
               um_signed_message := option_map (fun _ => text2) sign;
               um_from_prior := option_map fst prior |}.

(** A secret of one of the keys is held, and every held one opens the envelope to [pt]. *)
Definition opens_each (kids : list bytes) (open : bytes -> kalg -> key C -> bytes -> Prop) (pt : bytes) : Prop :=
  holds_one own kids
  /\ forall kid sec, In kid kids -> own kid = Some sec -> exists ka k, sec_key_pair C sec = Ok (ka, k) /\ open kid ka k pt.
(** Some held secret opens the envelope to [pt]; if [all] are to be tried, then the
    others open it to something. *)
Definition opens_some (all : bool) (kids : list bytes) (open : bytes -> kalg -> key C -> bytes -> Prop) (pt : bytes) : Prop :=
  let opening kid sec pt := own kid = Some sec /\ exists ka k, sec_key_pair C sec = Ok (ka, k) /\ open kid ka k pt in
  (exists kid sec, In kid kids /\ opening kid sec pt)
  /\ (all = true -> forall kid sec, In kid kids -> own kid = Some sec -> exists pt', opening kid sec pt').
End Accept.

Section Carries.
Context (C : crypto) (dir : bytes -> option diddoc) (own : bytes -> option secret).
(** The text is a way of carrying [m], whichever of their keys the recipient uses. *)
Definition valid := carries C dir own (opens_each C own).
(** The text is a way of carrying [m] with a lucky choice of keys. *)
Definition acceptable (o : unpack_options) := carries C dir own (opens_some C own (uo_all_keys o)) o.
End Carries.
