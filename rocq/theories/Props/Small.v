(** Properties C33, C43-C48 and C50: key representations, DID splitting, example
    resolvers, builders and the bindings. *)
From Verif.Model Require Import Prelude Utf8 Base64 Json Serde Base58 DidDoc Crypto Keys Effects Message FromPrior Pack Unpack Bindings.
From Verif.Spec Require Import Small.
From Verif.Proofs Require Import Lib SmallP Base58P.

(** C33.  Base58 decoding is the standard one. *)
Theorem C33_base58 : forall t x, b58dec t = Some x <-> is_base58 x t.
Proof. exact b58dec_spec. Qed.
Print Assumptions C33_base58.

(** C33.  The same X25519 public key as JWK, Base58 or Multibase. *)
Theorem C33_x25519_public : forall C i c x t u,
  is_base58 x t -> is_base58 (prefix_of CX25519Pub ++ x) u ->
  let jwk := mkVM i JsonWebKey2020 c (MJwk (okp_jwk "X25519" (b64enc x))) in
  let b58 := mkVM i X25519KeyAgreementKey2019 c (MBase58 t) in
  let mb := mkVM i X25519KeyAgreementKey2020 c (MMultibase ("z"%char :: u)) in
  vm_key_pair C b58 = vm_key_pair C jwk /\ vm_key_pair C mb = vm_key_pair C jwk
  /\ vm_key_alg b58 = vm_key_alg jwk /\ vm_key_alg mb = vm_key_alg jwk.
Proof. exact x25519_public_reps. Qed.
Print Assumptions C33_x25519_public.

(** C33.  The same Ed25519 public key as JWK, Base58 or Multibase. *)
Theorem C33_ed25519_public : forall C i c x t u,
  is_base58 x t -> is_base58 (prefix_of CEd25519Pub ++ x) u ->
  let jwk := mkVM i JsonWebKey2020 c (MJwk (okp_jwk "Ed25519" (b64enc x))) in
  let b58 := mkVM i Ed25519VerificationKey2018 c (MBase58 t) in
  let mb := mkVM i Ed25519VerificationKey2020 c (MMultibase ("z"%char :: u)) in
  vm_key_pair C b58 = vm_key_pair C jwk /\ vm_key_pair C mb = vm_key_pair C jwk
  /\ vm_key_alg b58 = vm_key_alg jwk /\ vm_key_alg mb = vm_key_alg jwk.
Proof. exact ed25519_public_reps. Qed.
Print Assumptions C33_ed25519_public.

(** C33.  The same X25519 secret in its three forms, when the primitive gives the
    secret bytes back. *)
Theorem C33_x25519_secret : forall C i d t u kp,
  is_base58 d t -> is_base58 (prefix_of CX25519Priv ++ d) u ->
  x25519_from_secret C d = Some kp -> x25519_secret_bytes C kp = Some d ->
  let jwk := mkSecret i JsonWebKey2020 (MJwk (okp_jwk_priv "X25519" (b64enc d) (b64enc (x25519_public_bytes C kp)))) in
  let b58 := mkSecret i X25519KeyAgreementKey2019 (MBase58 t) in
  let mb := mkSecret i X25519KeyAgreementKey2020 (MMultibase ("z"%char :: u)) in
  sec_key_pair C b58 = sec_key_pair C jwk /\ sec_key_pair C mb = sec_key_pair C jwk
  /\ sec_key_alg b58 = sec_key_alg jwk /\ sec_key_alg mb = sec_key_alg jwk.
Proof. exact x25519_secret_reps. Qed.
Print Assumptions C33_x25519_secret.

(** C33.  The same Ed25519 secret (32 secret bytes, then the public bytes). *)
Theorem C33_ed25519_secret : forall C i d x t u, List.length d = 32 ->
  is_base58 (d ++ x) t -> is_base58 (prefix_of CEd25519Priv ++ d ++ x) u ->
  let jwk := mkSecret i JsonWebKey2020 (MJwk (okp_jwk_priv "Ed25519" (b64enc d) (b64enc x))) in
  let b58 := mkSecret i Ed25519VerificationKey2018 (MBase58 t) in
  let mb := mkSecret i Ed25519VerificationKey2020 (MMultibase ("z"%char :: u)) in
  sec_key_pair C b58 = sec_key_pair C jwk /\ sec_key_pair C mb = sec_key_pair C jwk
  /\ sec_key_alg b58 = sec_key_alg jwk /\ sec_key_alg mb = sec_key_alg jwk.
Proof. exact ed25519_secret_reps. Qed.
Print Assumptions C33_ed25519_secret.

(** The Ed25519 key of test_vectors/did_doc (32 bytes), in Base58 and in Multibase. *)
Example C33_case :
  let x := map ascii_of_N [215; 90; 152; 1; 130; 177; 10; 183; 213; 75; 254; 211; 201; 100; 7; 58; 14; 225; 114; 243; 218; 166; 35; 37; 175; 2; 26; 104; 247; 7; 81; 26]%N in
  is_base58 x (B "FVen3X669xLzsi6N2V91DoiyzHzg1uAgqiT8jZ9nS96Z")
  /\ is_base58 (prefix_of CEd25519Pub ++ x) (B "6MktwupdmLXVVqTzCw4i46r4uGyosGXRnR3XjN4Zq7oMMsw")
  /\ is_base58 [zero; zero; ascii_of_N 58] (B "1121").
Proof. cbn zeta. split; [|split]; apply b58dec_spec; vm_compute; reflexivity. Qed.

(** C43.  The example DID resolver returns the first document with the id. *)
Theorem C43_resolver : forall known did,
  (forall d, example_resolve known did = Ok (Some d) <-> first_with (fun x => doc_id x = did) known d)
  /\ (example_resolve known did = Ok None <-> forall d, In d known -> doc_id d <> did).
Proof. intros known did. split; [exact (example_resolve_some known did)|exact (example_resolve_none known did)]. Qed.
Print Assumptions C43_resolver.

(** C43.  The example secrets resolver: the stored ones among the requested ids, in
    request order and with the requested multiplicity; get_secret answers for exactly these. *)
Theorem C43_secrets : forall known ids, exists l, example_find_secrets known ids = Ok l /\ sublist l ids
  /\ (forall x, In x l <-> In x ids /\ exists s, In s known /\ sec_id s = x)
  /\ (forall x, In x l <-> In x ids /\ exists s, example_get_secret known x = Ok (Some s))
  /\ (forall x, count_occ (list_eq_dec ascii_dec) l x = 0
                \/ count_occ (list_eq_dec ascii_dec) l x = count_occ (list_eq_dec ascii_dec) ids x).
Proof. exact example_find. Qed.
Print Assumptions C43_secrets.
Theorem C43_get_secret : forall known id s,
  example_get_secret known id = Ok (Some s) <-> first_with (fun x => sec_id x = id) known s.
Proof. exact example_get_some. Qed.
Print Assumptions C43_get_secret.

Example C43_case :
  let s i := mkSecret (B i) OtherType (MBase58 []) in
  example_find_secrets [s "b"; s "a"]%string [B "a"; B "x"; B "b"; B "a"] = Ok [B "a"; B "b"; B "a"].
Proof. reflexivity. Qed.

(** C44.  A message built by any sequence of setters: the last value of the
    overwriting ones, the concatenation of the appending ones, nothing else. *)
Theorem C44_builder : forall id t b ops, let m := build id t b ops in
  msg_id m = id /\ msg_typ m = B "application/didcomm-plain+json" /\ msg_type m = t /\ msg_body m = b
  /\ msg_to m = appended set_to ops /\ msg_from m = last_set set_from ops
  /\ msg_thid m = last_set set_thid ops /\ msg_pthid m = last_set set_pthid ops
  /\ msg_created m = last_set set_created ops /\ msg_expires m = last_set set_expires ops
  /\ msg_from_prior m = last_set set_from_prior ops /\ msg_attachments m = appended set_attachments ops
  /\ (forall k, amap_get k (msg_extra m) = last_set (set_header k) ops)
  /\ NoDup (map fst (msg_extra m)).
Proof. exact build_spec. Qed.
Print Assumptions C44_builder.

(** C44.  Setters of different parts commute. *)
Theorem C44_commute : forall id t b l o1 o2 l', field_of o1 <> field_of o2 ->
  same_message (build id t b (l ++ o1 :: o2 :: l')) (build id t b (l ++ o2 :: o1 :: l')).
Proof. exact build_commute. Qed.
Print Assumptions C44_commute.

(** C44.  The attachment builder. *)
Theorem C44_attachment : forall d ops, let a := fold_left abuild_op ops (ab_new d) in
  att_data a = with_jws d (last_set (fun o => match o with AJws x => Some x | _ => None end) ops)
  /\ att_id a = last_set (fun o => match o with AId x => Some x | _ => None end) ops
  /\ att_description a = last_set (fun o => match o with ADescription x => Some x | _ => None end) ops
  /\ att_filename a = last_set (fun o => match o with AFilename x => Some x | _ => None end) ops
  /\ att_media_type a = last_set (fun o => match o with AMediaType x => Some x | _ => None end) ops
  /\ att_format a = last_set (fun o => match o with AFormat x => Some x | _ => None end) ops
  /\ att_lastmod_time a = last_set (fun o => match o with ALastmod x => Some x | _ => None end) ops
  /\ att_byte_count a = last_set (fun o => match o with AByteCount x => Some x | _ => None end) ops.
Proof. exact abuild_spec. Qed.
Print Assumptions C44_attachment.

(** C44.  The from_prior builder. *)
Theorem C44_from_prior : forall iss sub ops, fold_left fbuild_op ops (fpb_new iss sub) =
  mkFP iss sub
    (last_set (fun o => match o with FAud x => Some x | _ => None end) ops)
    (last_set (fun o => match o with FExp x => Some x | _ => None end) ops)
    (last_set (fun o => match o with FNbf x => Some x | _ => None end) ops)
    (last_set (fun o => match o with FIat x => Some x | _ => None end) ops)
    (last_set (fun o => match o with FJti x => Some x | _ => None end) ops).
Proof. exact fbuild_spec. Qed.
Print Assumptions C44_from_prior.

Example C44_case :
  build (B "1") (B "t") VNull [BTo (B "a"); BFrom (B "x"); BHeader (B "k") VNull; BToMany [B "b"; B "c"]; BFrom (B "y"); BHeader (B "k") (VBool true)]
  = mkMsg (B "1") (B "application/didcomm-plain+json") (B "t") VNull (Some (B "y")) (Some [B "a"; B "b"; B "c"])
      None None [(B "k", VBool true)] None None None None.
Proof. reflexivity. Qed.

(** C45.  [did_or_url]: the DID is what precedes the first #. *)
Theorem C45_split : forall s,
  (forall d u, did_or_url s = (d, Some u) <-> u = s /\ exists f, s = d ++ "#"%char :: f /\ ~ In "#"%char d)
  /\ (forall d, did_or_url s = (d, None) <-> d = s /\ ~ In "#"%char s).
Proof.
  intros s. split; [exact (did_or_url_some s)|]. intros d. rewrite did_or_url_none. split.
  - intros H. assert (D : d = s) by (unfold did_or_url in H; destruct (split_once "#" s) as [[? ?]|]; [discriminate|now injection H]).
    subst. auto.
  - now intros [-> H].
Qed.
Print Assumptions C45_split.

(** C45.  [is_did]. *)
Theorem C45_is_did : forall s, is_did s = true <-> exists a b, s = B "did:" ++ a ++ ":"%char :: b.
Proof. exact is_did_spec. Qed.
Print Assumptions C45_is_did.

(** C45.  A key id of a DID is accepted as a DID argument, and splits into that DID. *)
Theorem C45_key_id : forall d f, is_did d = true -> ~ In "#"%char d ->
  is_did (d ++ "#"%char :: f) = true /\ did_or_url (d ++ "#"%char :: f) = (d, Some (d ++ "#"%char :: f)).
Proof. exact key_id_is_did. Qed.
Print Assumptions C45_key_id.

Example C45_case : is_did (B "did:example:alice#key-1") = true /\ is_did (B "did:example") = false
  /\ is_did (B "urn:did:example:x") = false
  /\ did_or_url (B "did:a:b#c#d") = (B "did:a:b", Some (B "did:a:b#c#d")).
Proof. repeat split. Qed.

(** C46.  While the library waits, the first answer is delivered, all later calls
    are refused and change nothing. *)
Theorem C46_first_wins : forall A (r : res A) (rs : list (res A)),
  let (outs, s) := cb_run cb_new (map CCall (r :: rs)) in
  outs = Ok tt :: map (fun _ => Err InvalidState) rs /\ cb_get s = Some r.
Proof. exact @cb_calls_only. Qed.
Print Assumptions C46_first_wins.

(** C46.  Under any interleaving with cancellation of the wait and release of the
    object: either nothing was delivered and every call was refused (the waiting
    side gets InvalidState once the object is gone), or exactly the first answer was. *)
Theorem C46_at_most_once : forall A (l : list (cb_op A)), let (outs, s) := cb_run cb_new l in
  (outs = map (fun _ => Err InvalidState) (cb_answers l) /\ cb_value s = None
     /\ (cb_sender s = true -> cb_get s = None /\ cb_answers l = [])
     /\ (cb_sender s = false -> cb_get s = Some (Err InvalidState)))
  \/ (exists r rest, cb_answers l = r :: rest /\ outs = Ok tt :: map (fun _ => Err InvalidState) rest
                     /\ cb_get s = Some r).
Proof. exact @cb_at_most_once. Qed.
Print Assumptions C46_at_most_once.

Example C46_case :
  cb_run cb_new [CCall (Ok 1); CCall (Err IoError); CDrop]
  = ([Ok tt; Err InvalidState], mkCB false true (Some (Ok 1)))
  /\ fst (cb_run cb_new [CCancel; CCall (Ok 1)]) = [Err InvalidState]
  /\ cb_get (snd (cb_run (@cb_new nat) [CDrop])) = Some (Err InvalidState).
Proof. repeat split. Qed.

(** C47.  The adapters hand on requested ids only, in the requested order: exactly
    those the foreign code returned. *)
Theorem C47_wasm : forall ids ans l, js_find_secrets ids ans = Ok l -> exists arr, ans = inr (Some arr)
  /\ sublist l ids /\ forall x, In x l <-> In x ids /\ In (Some x) arr.
Proof. exact js_find_ok. Qed.
Print Assumptions C47_wasm.
Theorem C47_uniffi : forall ids ans l, ffi_find_secrets ids ans = Ok l -> exists arr, ans = Ok arr
  /\ sublist l ids /\ forall x, In x l <-> In x ids /\ In x arr.
Proof. exact ffi_find_ok. Qed.
Print Assumptions C47_uniffi.

Example C47_case : js_find_secrets [B "a"; B "b"; B "c"] (inr (Some [Some (B "c"); None; Some (B "evil"); Some (B "a")])) = Ok [B "a"; B "c"]
  /\ ffi_find_secrets [B "a"; B "b"] (Ok [B "evil"; B "b"]) = Ok [B "b"].
Proof. split; reflexivity. Qed.

(** C48.  SecretNotFound becomes InvalidState on its way through JavaScript. *)
Theorem C48_error_kinds_refuted : exists k, from_js (JsErr (js_name k)) <> k.
Proof. exists SecretNotFound. vm_compute. discriminate. Qed.
Print Assumptions C48_error_kinds_refuted.

(** C48.  All other kinds survive; missing: SecretNotFound (refuted above). *)
Theorem C48_error_kinds_partial : forall k, k <> SecretNotFound -> from_js (JsErr (js_name k)) = k.
Proof. exact from_js_name. Qed.
Print Assumptions C48_error_kinds_partial.
(** C48.  The JavaScript names are distinct, so a JavaScript caller can tell all kinds apart. *)
Theorem C48_names_distinct : forall k k', js_name k = js_name k' -> k = k'.
Proof. exact js_name_inj. Qed.
Print Assumptions C48_names_distinct.
(** C48.  The name is the kind's own name after DIDComm, as the TypeScript users match it. *)
Theorem C48_names : forall k n, js_name k = B "DIDComm" ++ n <->
  In (k, n) [(DIDNotResolved, B "DIDNotResolved"); (DIDUrlNotFound, B "DIDUrlNotFound"); (SecretNotFound, B "SecretNotFound");
             (Malformed, B "Malformed"); (IoError, B "IoError"); (InvalidState, B "InvalidState");
             (NoCompatibleCrypto, B "NoCompatibleCrypto"); (Unsupported, B "Unsupported"); (IllegalArgument, B "IllegalArgument")].
Proof.
  intros k n. split.
  - intros E. assert (X : exists n0, js_name k = B "DIDComm" ++ n0 /\ In (k, n0) [(DIDNotResolved, B "DIDNotResolved"); (DIDUrlNotFound, B "DIDUrlNotFound"); (SecretNotFound, B "SecretNotFound");
             (Malformed, B "Malformed"); (IoError, B "IoError"); (InvalidState, B "InvalidState");
             (NoCompatibleCrypto, B "NoCompatibleCrypto"); (Unsupported, B "Unsupported"); (IllegalArgument, B "IllegalArgument")]).
    { destruct k; eexists; (split; [reflexivity|]); cbn [In]; tauto. }
    destruct X as (n0 & E0 & I). rewrite E0 in E. apply app_inv_head in E. now subst.
  - cbn [In]. intros I. repeat destruct I as [I|I]; try (injection I as <- <-; reflexivity). destruct I.
Qed.
Print Assumptions C48_names.
Example C48_case : from_js (JsErr (B "DIDCommMalformed")) = Malformed /\ js_name Malformed = B "DIDCommMalformed".
Proof. split; reflexivity. Qed.

(** C50.  An empty options object means the default pack options, however it is
    spaced. *)
Theorem C50_pack_options : forall fp w1 w2 w3, white w1 -> white w2 -> white w3 ->
  js_pack_options fp (w1 ++ "{"%char :: w2 ++ "}"%char :: w3) = Ok default_pack_options.
Proof. exact empty_pack_options. Qed.
Print Assumptions C50_pack_options.

(** C50.  For unpacking it does not: re-wrapped forwards are unwrapped by default
    but not with an empty options object. *)
Theorem C50_unpack_options_refuted : exists text, text = B "{}" /\ js_unpack_options text <> Ok default_unpack_options.
Proof. exists (B "{}"). split; [reflexivity|]. vm_compute. discriminate. Qed.
Print Assumptions C50_unpack_options_refuted.

(** C50.  Missing: [unwrap_re_wrapping_forward]; the other option does agree. *)
Theorem C50_unpack_options_partial : forall w1 w2 w3, white w1 -> white w2 -> white w3 -> exists o,
  js_unpack_options (w1 ++ "{"%char :: w2 ++ "}"%char :: w3) = Ok o
  /\ uo_all_keys o = uo_all_keys default_unpack_options.
Proof. exact empty_unpack_options. Qed.
Print Assumptions C50_unpack_options_partial.

Example C50_case : js_pack_options (fun _ => None) (B " { } ") = Ok (mkPO false true None None AuthA256cbcHs512 AnonXc20p)
  /\ js_unpack_options (B "{}") = Ok (mkUO false false) /\ default_unpack_options = mkUO false true.
Proof. repeat split. Qed.
