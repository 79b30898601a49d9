(** What packing a message should do: which keys, which envelopes, which random
    values, which services. *)
From Verif.Model Require Import Prelude Utf8 Base64 Json Serde DidDoc Crypto Keys Effects Jws Jwe Message FromPrior Pack Routing Unpack.
From Verif.Spec Require Import Small Events Text.

(** ** Arguments *)
Definition did_text (s : bytes) : Prop := exists a b, s = B "did:" ++ a ++ ":"%char :: b.
(** The DID of a DID or DID URL. *)
Definition did_part (s did : bytes) : Prop := url_of did s \/ ~ In "#"%char s /\ did = s.

(** The arguments of pack_encrypted are refused. *)
Definition refused (m : message) (to : bytes) (from sign_by : option bytes) : Prop :=
  ~ did_text to \/ (exists f, from = Some f /\ ~ did_text f) \/ (exists s, sign_by = Some s /\ ~ did_text s)
  \/ (exists did l, did_part to did /\ msg_to m = Some l /\ ~ In did l)
  \/ (exists f did mf, from = Some f /\ did_part f did /\ msg_from m = Some mf /\ mf <> did).

(** ** Keys *)
(** The elements of a list with a property, in order. *)
Inductive picked {A} (P : A -> Prop) : list A -> list A -> Prop :=
| picked_nil : picked P [] []
| picked_keep x l l' : P x -> picked P l l' -> picked P (x :: l) (x :: l')
| picked_skip x l l' : ~ P x -> picked P l l' -> picked P (x :: l) l'.

(** The key ids meant by a DID (all of them) or a key id (only that one). *)
Definition wanted (to : bytes) (l kids : list bytes) : Prop :=
  In "#"%char to /\ picked (fun k => k = to) l kids \/ ~ In "#"%char to /\ kids = l.

(** The entry of [kid] in the document has the key algorithm [a]. *)
Definition on_curve (doc : diddoc) (a : kalg) (kid : bytes) : Prop :=
  exists vm, first_with (fun v => vm_id v = kid) (doc_verification_method doc) vm /\ vm_key_alg vm = a.

Definition agreement (a : kalg) : Prop := a = KX25519 \/ a = KP256.

(** A secrets resolver that goes through the ids it is asked for in order. *)
Definition in_order (e : event) : Prop :=
  match e with Ev (OFindSecrets ids) (Ok found) => exists P, picked P ids found | _ => True end.

(** ** Envelopes *)
(** [text] is the envelope of [pt] for the recipients [rs], made with the content key
    drawn as [e1], the ephemeral key drawn as [e2] and the nonce drawn as [e3]; the
    content encryption gave [ct] and [tag]. *)
Definition seals (C : crypto) (ce : cenc) (d : kdf) (ka : kalg) (alg : jwe_alg) (enc : jwe_enc)
  (sender : option (bytes * key C)) (rs : list (bytes * key C)) (e1 e2 e3 pt ct tag text : bytes) : Prop :=
  exists cek epk jwk apv protected ws,
    cek_gen C ce e1 = Some cek /\ key_gen C ka e2 = Some epk /\ to_jwk_public C ka epk = Some jwk
    /\ apv_for C (map fst rs) apv
    /\ protected = b64enc (jwe_header_text alg enc (option_map fst sender) apv jwk)
    /\ aead_enc C ce cek (nonce_gen C ce e3) protected pt = Some (ct, tag)
    /\ Forall2 (fun r w => exists kw, kw_wrap C kw cek = Some w
         /\ match d, sender with
            | KdfEs, _ => ecdh_es C ka epk (snd r) (alg_text alg) (match sender with Some s => fst s | None => [] end) apv false = Some kw
            | Kdf1pu, Some (sk, s) => ecdh_1pu C ka epk s (snd r) (alg_text alg) sk apv tag false = Some kw
            | Kdf1pu, None => False
            end) rs ws
    /\ text = jwe_text protected (combine (map fst rs) ws) (nonce_gen C ce e3) ct tag.

(** The random values drawn in an execution, in order. *)
Definition draw_of (e : event) : list (rand_use * bytes) :=
  match e with
  | Ev (ORandom u) r => [(u, r)]
  | _ => []
  end.
Definition draws (tr : list event) : list (rand_use * bytes) := flat_map draw_of tr.

(** [onion ds t text]: starting from [t], envelopes and forward messages were put
    around it, giving [text]; they used the random values [ds], each once and in
    this order. *)
Inductive onion (C : crypto) : list (rand_use * bytes) -> bytes -> bytes -> Prop :=
| onion_done t : onion C [] t t
| onion_seal ce d ka alg enc sender rs e1 e2 e3 pt ct tag t text ds :
    seals C ce d ka alg enc sender rs e1 e2 e3 pt ct tag t -> onion C ds t text ->
    onion C ((RCek ce, e1) :: (REpk ka, e2) :: (RNonce ce, e3) :: ds) pt text
| onion_forward id next headers v t text ds :
    from_json (to_value (fparse C) max_depth) t = Ok v ->
    onion C ds (forward_text id next headers v) text ->
    onion C ((RUuid, id) :: ds) t text.

(** ** Services *)
(** A messaging service that takes DIDComm v2 messages. *)
Definition usable (s : service) (ms : messaging_service) : Prop :=
  svc_kind s = DIDCommMessaging ms
  /\ (ms_accept ms = None \/ ms_accept ms = Some [] \/ exists l, ms_accept ms = Some l /\ In (B "didcomm/v2") l).
(** The service chosen in a document: the first usable one, or the one with the
    given id. *)
Definition chosen (doc : diddoc) (sid : option bytes) (id : bytes) (ms : messaging_service) : Prop :=
  match sid with
  | None => exists s, first_with (fun s => exists ms, usable s ms) (doc_service doc) s /\ usable s ms /\ id = svc_id s
  | Some i => exists s, first_with (fun s => svc_id s = i) (doc_service doc) s /\ usable s ms /\ id = svc_id s
  end.

(** Replace the content encryption. *)
Definition with_aead (C : crypto) (e : cenc -> bytes -> bytes -> bytes -> bytes -> option (bytes * bytes)) : crypto := {|
  key := key C; from_jwk := from_jwk C; to_jwk_public := to_jwk_public C; x25519_from_secret := x25519_from_secret C;
  x25519_public_bytes := x25519_public_bytes C; x25519_secret_bytes := x25519_secret_bytes C; key_gen := key_gen C;
  key_sign := key_sign C; key_verify := key_verify C; ecdh_es := ecdh_es C; ecdh_1pu := ecdh_1pu C;
  kw_wrap := kw_wrap C; kw_unwrap := kw_unwrap C; cek_gen := cek_gen C; cek_import := cek_import C; nonce_gen := nonce_gen C;
  aead_enc := e; aead_dec := aead_dec C; sha256 := sha256 C; fparse := fparse C |}.

(** The route to a recipient: id of its messaging service, uri of the outermost
    endpoint and routing keys, when it has a messaging service at all; an endpoint
    that is a DID is replaced by the endpoint of that mediator, once. *)
Inductive route (dir : bytes -> option diddoc) (to : bytes) (sid : option bytes) : option (bytes * bytes * list bytes) -> Prop :=
| route_none did doc : did_part to did -> dir did = Some doc -> sid = None ->
    (forall s ms, In s (doc_service doc) -> ~ usable s ms) -> route dir to sid None
| route_direct did doc id ms : did_part to did -> dir did = Some doc -> chosen doc sid id ms ->
    ~ did_text (ms_uri ms) -> route dir to sid (Some (id, ms_uri ms, ms_routing_keys ms))
| route_mediated did doc id ms mdoc mid mms : did_part to did -> dir did = Some doc -> chosen doc sid id ms ->
    did_text (ms_uri ms) -> dir (ms_uri ms) = Some mdoc -> chosen mdoc None mid mms -> ~ did_text (ms_uri mms) ->
    route dir to sid (Some (id, ms_uri mms, ms_uri ms :: ms_routing_keys ms)).

(** The options with forwarding switched off. *)
Definition no_forward (o : pack_options) : pack_options :=
  mkPO (po_protect_sender o) false (po_forward_headers o) (po_messaging_service o) (po_enc_alg_auth o) (po_enc_alg_anon o).

(** The primitives used to encrypt do not fail, on keys that were generated or read. *)
Definition sealing_works (C : crypto) : Prop :=
  (forall ce e, cek_gen C ce e <> None) /\ (forall a e, agreement a -> key_gen C a e <> None)
  /\ (forall a e k, agreement a -> key_gen C a e = Some k -> to_jwk_public C a k <> None)
  /\ (forall ce e cek n aad pt, cek_gen C ce e = Some cek -> aead_enc C ce cek (nonce_gen C ce n) aad pt <> None)
  /\ (forall ce e cek kw, cek_gen C ce e = Some cek -> kw_wrap C kw cek <> None)
  /\ (forall a e epk v p alg apu apv, agreement a -> key_gen C a e = Some epk -> from_jwk C a v = Some p ->
        ecdh_es C a epk p alg apu apv false <> None).

(** Every id in the list has an entry in the document. *)
Definition described (doc : diddoc) (kids : list bytes) : Prop := forall k, In k kids -> exists a, on_curve doc a k.

Section Keys.
Context (C : crypto).
(** A recipient: key id and published key. *)
Definition keyed (doc : diddoc) (ka : kalg) (kid : bytes) (r : bytes * key C) : Prop :=
  fst r = kid /\ publishes C doc_key_agreement doc kid ka (snd r).

(** Key choice for an anonymous envelope. *)
Definition anon_keys (to : bytes) (doc : diddoc) (ka : kalg) (kids : list bytes) (rs : list (bytes * key C)) : Prop :=
  exists all k0, wanted to (doc_key_agreement doc) all
    /\ first_with (fun k => ~ on_curve doc KUnsupported k) all k0 /\ on_curve doc ka k0 /\ agreement ka
    /\ picked (on_curve doc ka) all kids /\ Forall2 (keyed doc ka) kids rs.

(** Key choice for an authenticated envelope. *)
Definition shares (fdoc doc : diddoc) (all : list bytes) (k : bytes) : Prop :=
  exists a, agreement a /\ on_curve fdoc a k /\ exists k', In k' all /\ on_curve doc a k'.
Definition auth_keys (fdoc : diddoc) (found : list bytes) (to : bytes) (doc : diddoc) (ka : kalg) (fk : bytes) (kids : list bytes)
  (rs : list (bytes * key C)) : Prop :=
  exists all, wanted to (doc_key_agreement doc) all
    /\ first_with (shares fdoc doc all) found fk /\ on_curve fdoc ka fk /\ agreement ka
    /\ picked (on_curve doc ka) all kids /\ Forall2 (keyed doc ka) kids rs.


(** The rotation in a message, when there is one, was verified and is consistent. *)
Definition rotation_ok (tr : list event) (m : message) : Prop :=
  forall jwt, msg_from_prior m = Some jwt -> exists p kid, rotation_by C tr jwt p kid
    /\ did_text (fp_iss p) /\ ~ In "#"%char (fp_iss p) /\ did_text (fp_sub p) /\ ~ In "#"%char (fp_sub p) /\ fp_iss p <> fp_sub p
    /\ url_of (fp_iss p) kid /\ forall f, msg_from m = Some f -> f = fp_sub p.

(** The authentication keys meant by a DID, or the key with that id. *)
Definition auth_wanted (by_ : bytes) (doc : diddoc) (asked : list bytes) : Prop :=
  ~ In "#"%char by_ /\ asked = doc_authentication doc
  \/ In "#"%char by_ /\ In by_ (doc_authentication doc) /\ asked = [by_].


(** The plaintext or signed text of a message, as made for [sign_by]. *)
Definition written (m : message) (sign_by : option bytes) (tr : list event) (msg : bytes) (skid : option bytes) : Prop :=
  match sign_by with
  | None => exec (pack_plaintext C m) tr (Ok msg) /\ skid = None
  | Some s => exists kid, exec (pack_signed C m s) tr (Ok (msg, kid)) /\ skid = Some kid
  end.
End Keys.
