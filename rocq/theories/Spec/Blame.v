(** What an error kind says about the world: which call or which argument is to blame. *)
From Verif.Model Require Import Prelude Utf8 Base64 Json Serde DidDoc Crypto Keys Effects Jws Jwe Message FromPrior Pack Routing Unpack.
From Verif.Spec Require Import Small Events Packing Conc Asked.

Definition last_call (tr : list event) (e : event) : Prop := exists t, tr = t ++ [e].
(** The last call was answered with an error of this kind. *)
Definition raised (tr : list event) (k : errkind) : Prop := exists e, last_call tr e /\ failed e k.

(** The document does not have [kid] for this use: it is not listed, or not described. *)
Definition unlisted (use : diddoc -> list bytes) (doc : diddoc) (kid : bytes) : Prop :=
  ~ In kid (use doc) \/ forall vm, In vm (doc_verification_method doc) -> vm_id vm <> kid.

(** The id of the key that signed a rotation token. *)
Definition token_key (jwt kid : bytes) : Prop :=
  exists hd pl sg hb h,
    jwt = hd ++ "."%char :: pl ++ "."%char :: sg /\ ~ In "."%char hd /\ ~ In "."%char pl /\ ~ In "."%char sg
    /\ b64dec hd = Some hb /\ from_json de_compact_header hb = Ok h /\ ch_kid h = kid.

(** Keys of others that a text, or something inside it, names. *)
Inductive names_key (C : crypto) (text : bytes) : (diddoc -> list bytes) -> bytes -> Prop :=
| nk_sender t j h kid :
    met C text t -> envelope C t j h -> ph_alg h = Ecdh1puA256kw -> announces h (Some kid) ->
    names_key C text doc_key_agreement kid
| nk_signer t j sg :
    met C text t -> jws_from_str t = Ok j -> jws_signatures j = [sg] -> names_key C text doc_authentication (sig_kid sg)
| nk_prior t m jwt kid :
    met C text t -> message_from_str (fparse C) t = Ok m -> msg_from_prior m = Some jwt -> token_key jwt kid ->
    names_key C text doc_authentication kid.

(** A key in multibase form that was obtained from a resolver. *)
Definition multibase_key_seen (tr : list event) : Prop :=
  (exists did doc vm s, resolved tr did doc /\ In vm (doc_verification_method doc) /\ vm_material vm = MMultibase s)
  \/ (exists id sec s, In (Ev (OGetSecret id) (Ok (Some sec))) tr /\ sec_material sec = MMultibase s).

(** Why [unpack text] may end with an error of kind [k] after the calls [tr]. *)
Definition unpack_blames (C : crypto) (text : bytes) (tr : list event) (k : errkind) : Prop :=
  raised tr k \/
  match k with
  | DIDNotResolved => exists did, last_call tr (Ev (OResolve did) (Ok None))
  | DIDUrlNotFound =>
      exists use kid did doc, names_key C text use kid /\ url_of did kid
        /\ last_call tr (Ev (OResolve did) (Ok (Some doc))) /\ unlisted use doc kid
  | SecretNotFound =>
      exists t j h, met C text t /\ envelope C t j h /\ last_call tr (Ev (OFindSecrets (recipient_kids j)) (Ok []))
  | IllegalArgument => multibase_key_seen tr
  | IoError | NoCompatibleCrypto => False
  | Malformed | InvalidState | Unsupported => True
  end.

(** ** Packing *)
(** The DIDs or key ids that packing has to find keys for. *)
Inductive pack_names (m : message) (to : bytes) (from sign_by : option bytes) (o : pack_options) (tr : list event)
  : (diddoc -> list bytes) -> bytes -> Prop :=
| pn_to : pack_names m to from sign_by o tr doc_key_agreement to
| pn_from f : from = Some f -> pack_names m to from sign_by o tr doc_key_agreement f
| pn_signer s : sign_by = Some s -> pack_names m to from sign_by o tr doc_authentication s
| pn_prior jwt kid : msg_from_prior m = Some jwt -> token_key jwt kid -> pack_names m to from sign_by o tr doc_authentication kid
| pn_hop to_did doc id ms k :
    po_forward o = true -> did_part to to_did -> resolved tr to_did doc -> chosen doc (po_messaging_service o) id ms ->
    k = ms_uri ms \/ In k (ms_routing_keys ms) -> pack_names m to from sign_by o tr doc_key_agreement k.
(** The document has no key for [arg]: no key at all for a DID, not that key for a key id. *)
Definition lacks (use : diddoc -> list bytes) (doc : diddoc) (arg : bytes) : Prop :=
  In "#"%char arg /\ unlisted use doc arg \/ ~ In "#"%char arg /\ use doc = [].
(** The messaging service with the given id cannot be used. *)
Definition service_unusable (doc : diddoc) (sid : bytes) : Prop := forall id ms, ~ chosen doc (Some sid) id ms.
(** The rotation token was signed with a key of another DID than the one it rotates from. *)
Definition foreign_rotation (C : crypto) (m : message) (tr : list event) : Prop :=
  exists jwt p kid, msg_from_prior m = Some jwt /\ rotation_by C tr jwt p kid /\ ~ url_of (fp_iss p) kid.

Definition pack_blames (C : crypto) (m : message) (to : bytes) (from sign_by : option bytes) (o : pack_options)
  (tr : list event) (k : errkind) : Prop :=
  raised tr k \/
  match k with
  | DIDNotResolved => exists did, last_call tr (Ev (OResolve did) (Ok None))
  | DIDUrlNotFound =>
      exists use arg did doc, pack_names m to from sign_by o tr use arg /\ did_part arg did
        /\ resolved tr did doc /\ lacks use doc arg
  | SecretNotFound =>
      (exists ids, last_call tr (Ev (OFindSecrets ids) (Ok []))) \/ (exists id, last_call tr (Ev (OGetSecret id) (Ok None)))
  | NoCompatibleCrypto =>
      exists f did doc fdid fdoc asked found all, from = Some f /\ did_part to did /\ did_part f fdid
        /\ resolved tr did doc /\ resolved tr fdid fdoc /\ reported tr asked found
        /\ wanted f (doc_key_agreement fdoc) asked /\ wanted to (doc_key_agreement doc) all
        /\ forall k k' a, In k found -> In k' all -> on_curve fdoc a k -> on_curve doc a k' -> a = KUnsupported
  | IllegalArgument =>
      refused m to from sign_by
      \/ (exists did doc sid, po_messaging_service o = Some sid /\ did_part to did /\ resolved tr did doc /\ service_unusable doc sid)
      \/ foreign_rotation C m tr \/ multibase_key_seen tr
  | IoError => False
  | Malformed | InvalidState | Unsupported => True
  end.
(** Answers that end packing with a given kind. *)
Definition ends_pack (e : event) (k : errkind) : Prop :=
  failed e k
  \/ (exists did, e = Ev (OResolve did) (Ok None)) /\ k = DIDNotResolved
  \/ (exists ids, e = Ev (OFindSecrets ids) (Ok [])) /\ k = SecretNotFound.
