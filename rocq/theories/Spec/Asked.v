(** Whom an operation may ask about: the DIDs and keys that its arguments, and the texts met on
    the way, name. *)
From Verif.Model Require Import Prelude Utf8 Base64 Json Serde DidDoc Crypto Keys Effects Jws Jwe Message FromPrior Pack Routing Unpack.
From Verif.Spec Require Import Small Events Packing.

Section Asked.
Context (C : crypto).

(** [met text t]: [t] is [text], the decryption of an envelope met, the payload of a signed
    message met, or the message in a forward met. *)
Inductive met (text : bytes) : bytes -> Prop :=
| met_here : met text text
| met_open t j h ce ka sender kid k pt :
    met text t -> envelope C t j h -> opened C ce ka j h sender kid k pt -> met text pt
| met_signed t j pl : met text t -> jws_from_str t = Ok j -> b64dec (jws_payload j) = Some pl -> met text pl
| met_forward t next v : met text t -> forward_to C t next v -> met text (print v).

(** The rotation token [jwt] names [did] as the DID of its key. *)
Definition token_names (jwt did : bytes) : Prop :=
  exists hd pl sg hb h,
    jwt = hd ++ "."%char :: pl ++ "."%char :: sg /\ ~ In "."%char hd /\ ~ In "."%char pl /\ ~ In "."%char sg
    /\ b64dec hd = Some hb /\ from_json de_compact_header hb = Ok h /\ url_of did (ch_kid h).

(** [t] names [did]: as the sender of an authcrypt envelope, as the signer, as the next hop of a
    forward message, or in its rotation token. *)
Inductive mentions (t did : bytes) : Prop :=
| mentions_sender j h apu :
    envelope C t j h -> ph_alg h = Ecdh1puA256kw -> announces h (Some apu) -> url_of did apu -> mentions t did
| mentions_signer j sg :
    jws_from_str t = Ok j -> jws_signatures j = [sg] -> url_of did (sig_kid sg) -> mentions t did
| mentions_next v : forward_to C t did v -> ~ In "#"%char did -> mentions t did
| mentions_prior m jwt :
    message_from_str (fparse C) t = Ok m -> msg_from_prior m = Some jwt -> token_names jwt did -> mentions t did.

(** Unpacking [text] needs to know about [did]. *)
Definition concerns (text did : bytes) : Prop := exists t, met text t /\ mentions t did.

(** The keys unpacking [text] may look for, when DIDs resolve as in [dir]. *)
Definition addresses (dir : bytes -> diddoc -> Prop) (text : bytes) (ids : list bytes) : Prop :=
  exists t, met text t /\
    ((exists j h, envelope C t j h /\ ids = recipient_kids j)
     \/ exists next v, forward_to C t next v /\
          ((exists did, url_of did next) /\ ids = [next]
           \/ ~ In "#"%char next /\ exists doc, dir next doc /\ ids = doc_key_agreement doc)).

(** The answers of a resolver, among all its answers, that unpacking [text] depends on. *)
Definition unpack_needs (h : handler) (text : bytes) (o : op) : Prop :=
  match o with
  | OResolve did => concerns text did
  | OFindSecrets ids => addresses (fun did doc => h (OResolve did) = Ok (Some doc)) text ids
  | OGetSecret id =>
      exists ids found, addresses (fun did doc => h (OResolve did) = Ok (Some doc)) text ids
        /\ h (OFindSecrets ids) = Ok found /\ In id found
  | ORandom _ => False
  end.

(** ** Packing *)
(** The DIDs packing may ask for after the calls [h]: those of the arguments and of the rotation
    token; with forwarding, also the endpoint of the messaging service chosen for the recipient and
    the DIDs of its routing keys. *)
Inductive pack_resolves (m : message) (to : bytes) (from sign_by : option bytes) (o : pack_options)
  (h : list event) (did : bytes) : Prop :=
| pr_to : did_part to did -> pack_resolves m to from sign_by o h did
| pr_from f : from = Some f -> did_part f did -> pack_resolves m to from sign_by o h did
| pr_signer s : sign_by = Some s -> did_part s did -> pack_resolves m to from sign_by o h did
| pr_prior jwt : msg_from_prior m = Some jwt -> token_names jwt did -> pack_resolves m to from sign_by o h did
| pr_endpoint to_did doc id ms :
    po_forward o = true -> did_part to to_did -> resolved h to_did doc ->
    chosen doc (po_messaging_service o) id ms -> did_text (ms_uri ms) ->
    did = ms_uri ms \/ did_part (ms_uri ms) did -> pack_resolves m to from sign_by o h did
| pr_hop to_did doc id ms k :
    po_forward o = true -> did_part to to_did -> resolved h to_did doc ->
    chosen doc (po_messaging_service o) id ms -> In k (ms_routing_keys ms) -> did_part k did ->
    pack_resolves m to from sign_by o h did.

(** The keys packing may look for: the signer's authentication keys and the sender's keyAgreement
    keys. *)
Definition pack_seeks (from sign_by : option bytes) (h : list event) (ids : list bytes) : Prop :=
  (exists s did doc, sign_by = Some s /\ did_part s did /\ resolved h did doc /\ auth_wanted s doc ids)
  \/ (exists f did doc, from = Some f /\ did_part f did /\ resolved h did doc /\ wanted f (doc_key_agreement doc) ids).

Definition pack_call (m : message) (to : bytes) (from sign_by : option bytes) (o : pack_options)
  (h : list event) (c : op) : Prop :=
  match c with
  | OResolve did => pack_resolves m to from sign_by o h did
  | OFindSecrets ids => pack_seeks from sign_by h ids
  | OGetSecret id => exists ids found, pack_seeks from sign_by h ids /\ reported h ids found /\ In id found
  | ORandom _ => True
  end.
End Asked.

(** The answers among those of [h] that packing depends on. *)
Definition told (h : handler) (tr : list event) : Prop := forall o r, In (Ev o r) tr -> r = h o.
Definition pack_needs (h : handler) (m : message) (to : bytes) (from sign_by : option bytes) (o : pack_options) (c : op) : Prop :=
  exists tr, told h tr /\ pack_call m to from sign_by o tr c.
