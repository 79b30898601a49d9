(** What the error kinds InvalidState and Unsupported of unpacking say about the world. *)
From Verif.Model Require Import Prelude Utf8 Base64 Json Serde DidDoc Crypto Keys Effects Jws Jwe Message FromPrior Pack Routing Unpack.
From Verif.Spec Require Import Small Events Packing Conc Asked Blame Grammar Cut.

(** The key of a signature that is to be checked, with the algorithm its header names: of a
    signed message, or of a rotation token. *)
Inductive signed_with (C : crypto) (text : bytes) : bytes -> jws_alg -> Prop :=
| sw_message t j sg hb h :
    met C text t -> jws_from_str t = Ok j -> jws_signatures j = [sg] ->
    b64dec (sig_protected sg) = Some hb -> from_json de_jws_header hb = Ok h -> signed_with C text (sig_kid sg) (jh_alg h)
| sw_token t m jwt hd pl sg hb h :
    met C text t -> message_from_str (fparse C) t = Ok m -> msg_from_prior m = Some jwt ->
    jwt = hd ++ "."%char :: pl ++ "."%char :: sg -> ~ In "."%char hd -> ~ In "."%char pl -> ~ In "."%char sg ->
    b64dec hd = Some hb -> from_json de_compact_header hb = Ok h -> signed_with C text (ch_kid h) (ch_alg h).
(** The keys an algorithm works with. *)
Inductive works_with : jws_alg -> kalg -> Prop :=
| ww_eddsa : works_with EdDSA KEd25519 | ww_es256 : works_with Es256 KP256 | ww_es256k : works_with Es256K KK256.

(** Why unpacking may end with InvalidState. *)
Inductive state_trouble (C : crypto) (text : bytes) (tr : list event) : Prop :=
(** a text that is only the beginning of JSON: the one given or one met inside, or a header *)
| st_text t : met C text t -> cut_off t -> state_trouble C text tr
| st_header t j b : met C text t -> jwe_from_str t = Ok j -> b64dec (jwe_protected j) = Some b -> cut_off b -> state_trouble C text tr
| st_sig_header t j sg b : met C text t -> jws_from_str t = Ok j -> In sg (jws_signatures j) -> b64dec (sig_protected sg) = Some b -> cut_off b ->
    state_trouble C text tr
(** the sender of an encrypted message could not be resolved because of some error *)
| st_sender did kid k : names_key C text doc_key_agreement kid -> url_of did kid -> last_call tr (Ev (OResolve did) (Err k)) -> state_trouble C text tr
(** a secret that was reported is not there, or was not asked for *)
| st_secret ids found id : reported tr ids found -> In id found -> last_call tr (Ev (OGetSecret id) (Ok None)) -> state_trouble C text tr
| st_stranger ids found id : reported tr ids found -> In id found -> ~ In id ids -> state_trouble C text tr
(** an anonymous envelope that names a sender *)
| st_apu t j h apu : met C text t -> envelope C t j h -> ph_alg h = EcdhEsA256kw -> announces h (Some apu) -> state_trouble C text tr
(** the back end refuses to derive a key *)
| st_es ka epk k alg apu apv : ecdh_es C ka epk k alg apu apv true = None -> state_trouble C text tr
| st_1pu ka epk s k alg apu apv tag : ecdh_1pu C ka epk s k alg apu apv tag true = None -> state_trouble C text tr
(** the key of a signature is of another type than its algorithm *)
| st_type kid alg a did doc vm : signed_with C text kid alg -> works_with alg a -> last_call tr (Ev (OResolve did) (Ok (Some doc))) ->
    In vm (doc_verification_method doc) -> vm_id vm = kid -> vm_key_alg vm <> a -> state_trouble C text tr
(** a key in multibase form without a codec prefix *)
| st_multibase : multibase_key_seen tr -> state_trouble C text tr.

(** Why unpacking may end with Unsupported. *)
Inductive beyond (C : crypto) (text : bytes) (tr : list event) : Prop :=
(** content encryption or signature algorithm that the library does not know, or does not
    use for this purpose *)
| by_enc t j h n : met C text t -> envelope C t j h -> ph_enc h = JweEncOther n -> beyond C text tr
| by_auth_enc t j h : met C text t -> envelope C t j h -> ph_alg h = Ecdh1puA256kw -> ph_enc h <> A256cbcHs512 -> beyond C text tr
| by_alg kid n : signed_with C text kid (JwsAlgOther n) -> beyond C text tr
(** a key of the sender or a secret that is not good for key agreement *)
| by_sender did doc vm kid : names_key C text doc_key_agreement kid -> resolved tr did doc -> In vm (doc_verification_method doc) -> vm_id vm = kid ->
    ~ agreement (vm_key_alg vm) -> beyond C text tr
| by_secret id sec : held tr id sec -> ~ agreement (sec_key_alg sec) -> beyond C text tr.

Definition unpack_cause (C : crypto) (text : bytes) (tr : list event) (k : errkind) : Prop :=
  raised tr k \/
  match k with
  | InvalidState => state_trouble C text tr
  | Unsupported => beyond C text tr
  | _ => True
  end.

(** ** Packing *)
(** The back end refuses an operation that packing needs. *)
Inductive refusing (C : crypto) : Prop :=
| rf_sign ka st k t : key_sign C ka st k t = None -> refusing C
| rf_es ka e k alg apu apv : ecdh_es C ka e k alg apu apv false = None -> refusing C
| rf_1pu ka e s k alg apu apv tag : ecdh_1pu C ka e s k alg apu apv tag false = None -> refusing C
| rf_wrap kw cek : kw_wrap C kw cek = None -> refusing C
| rf_cek ce r : cek_gen C ce r = None -> refusing C
| rf_key ka r : key_gen C ka r = None -> refusing C
| rf_jwk ka k : to_jwk_public C ka k = None -> refusing C
| rf_seal ce cek iv aad t : aead_enc C ce cek iv aad t = None -> refusing C.

(** The header of the rotation token of the message. *)
Definition token_header (m : message) (kid : bytes) (alg : jws_alg) : Prop :=
  exists hd pl sg hb h, msg_from_prior m = Some (hd ++ "."%char :: pl ++ "."%char :: sg)
    /\ ~ In "."%char hd /\ ~ In "."%char pl /\ ~ In "."%char sg
    /\ b64dec hd = Some hb /\ from_json de_compact_header hb = Ok h /\ kid = ch_kid h /\ alg = ch_alg h.

Section PackCause.
Variables (C : crypto) (m : message) (to : bytes) (from sign_by : option bytes) (o : pack_options) (tr : list event).
(** [all] are the keyAgreement keys of [doc] that encryption for [arg] uses. *)
Definition asks_for (arg : bytes) (doc : diddoc) (all : list bytes) : Prop :=
  exists did, pack_names m to from sign_by o tr doc_key_agreement arg /\ did_part arg did /\ resolved tr did doc
    /\ wanted arg (doc_key_agreement doc) all.
Definition undescribed (doc : diddoc) (kid : bytes) : Prop := forall vm, In vm (doc_verification_method doc) -> vm_id vm <> kid.

Inductive pack_state : Prop :=
| ps_backend : refusing C -> pack_state
| ps_multibase : multibase_key_seen tr -> pack_state
(** the key of the rotation token is of another type than its algorithm *)
| ps_token kid alg a did doc vm : token_header m kid alg -> works_with alg a -> resolved tr did doc ->
    In vm (doc_verification_method doc) -> vm_id vm = kid -> vm_key_alg vm <> a -> pack_state
(** a recipient lists a key that is not good for key agreement *)
| ps_recipient arg doc all kid vm : asks_for arg doc all -> In kid all -> In vm (doc_verification_method doc) -> vm_id vm = kid ->
    ~ agreement (vm_key_alg vm) -> pack_state
(** the secret of the sender is not there though reported, or is another kind of key than the document says *)
| ps_secret ids found id : reported tr ids found -> In id found -> last_call tr (Ev (OGetSecret id) (Ok None)) -> pack_state
| ps_secret_type id sec did doc vm : held tr id sec -> resolved tr did doc -> In vm (doc_verification_method doc) -> vm_id vm = id ->
    sec_key_alg sec <> vm_key_alg vm -> pack_state
(** the DID that the recipient names as endpoint is no mediator, or is reached through a DID itself *)
| ps_no_mediator did doc id ms mdoc : po_forward o = true -> did_part to did -> resolved tr did doc -> chosen doc (po_messaging_service o) id ms ->
    did_text (ms_uri ms) -> last_call tr (Ev (OResolve (ms_uri ms)) (Ok (Some mdoc))) ->
    (forall mid mms, chosen mdoc None mid mms -> did_text (ms_uri mms)) -> pack_state.

Inductive pack_beyond : Prop :=
(** a recipient or a hop lists a key that its document does not describe *)
| pb_undescribed arg doc all kid : asks_for arg doc all -> In kid all -> undescribed doc kid -> pack_beyond
(** the secret to sign with is no signing key *)
| pb_signer s id sec : sign_by = Some s -> held tr id sec -> (forall alg, ~ works_with alg (sec_key_alg sec)) -> pack_beyond
(** a key of the sender is not good for key agreement *)
| pb_sender f doc all kid vm : from = Some f -> asks_for f doc all -> In vm (doc_verification_method doc) -> vm_id vm = kid ->
    ~ agreement (vm_key_alg vm) -> pack_beyond
| pb_token kid n : token_header m kid (JwsAlgOther n) -> pack_beyond.

Inductive pack_malformed : Prop :=
| pm_token : msg_from_prior m <> None -> pack_malformed
| pm_key did doc vm : resolved tr did doc -> In vm (doc_verification_method doc) -> vm_key_pair C vm = Err Malformed -> pack_malformed
| pm_secret id sec : held tr id sec -> sec_key_pair C sec = Err Malformed -> pack_malformed
(** the sender packs with authentication, and the document of the recipient, or their own, does not
    describe a key that it lists, or that the secrets resolver reported *)
| pm_undescribed f doc all kid : from = Some f -> asks_for to doc all -> In kid all -> undescribed doc kid -> pack_malformed
| pm_reported f did doc ids found kid : from = Some f -> did_part f did -> resolved tr did doc -> reported tr ids found -> In kid found -> undescribed doc kid ->
    pack_malformed
(** the packed message cannot be put into a forward message *)
| pm_forward : po_forward o = true -> pack_malformed.
End PackCause.

Definition pack_cause (C : crypto) (m : message) (to : bytes) (from sign_by : option bytes) (o : pack_options)
  (tr : list event) (k : errkind) : Prop :=
  raised tr k \/
  match k with
  | InvalidState => pack_state C m to from sign_by o tr
  | Unsupported => pack_beyond m to from sign_by o tr
  | Malformed => pack_malformed C m to from sign_by o tr
  | _ => True
  end.

(** ** Rotation tokens *)
(** The DIDs rotated from and to are to be two different DIDs. *)
Definition improper (p : from_prior) : Prop :=
  fp_iss p = fp_sub p \/ exists d, (d = fp_iss p \/ d = fp_sub p) /\ (~ did_text d \/ In "#"%char d).
Definition token_cause (C : crypto) (p : from_prior) (tr : list event) (k : errkind) : Prop :=
  raised tr k \/
  match k with
  | InvalidState => multibase_key_seen tr \/ exists ka st key t, key_sign C ka st key t = None
  | Unsupported => exists id sec, held tr id sec /\ forall alg, ~ works_with alg (sec_key_alg sec)
  | Malformed => improper p \/ exists id sec, held tr id sec /\ sec_key_pair C sec = Err Malformed
  | _ => True
  end.
