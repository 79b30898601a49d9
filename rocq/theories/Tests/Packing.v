(** The tests of src/message/pack_plaintext.rs, pack_signed.rs, pack_encrypted/mod.rs,
    from_prior/*.rs, message.rs, attachment.rs, src/did/did_doc.rs and the remaining ones of
    src/utils/did.rs, transcribed by hand; of the tests that pack and unpack again, and of those
    with mediators, some cases. *)
From Verif.Model Require Import Prelude Json Serde Base64 Crypto DidDoc Effects Keys Jws Jwe Message FromPrior Pack Routing Unpack DocJson.
From Verif.Spec Require Import Sha2.
From Verif.Tests Require Import Real Vectors Check.
Open Scope N_scope.

(** *** src/utils/did.rs *)
(** src/utils/did.rs:720-732 *)
Example did_or_url_works :
  map (fun s => did_or_url (B s)) ["did:example:alice"; "did:example:alice#key-1"; "#key-1"; "#"]%string
  = [(B "did:example:alice", None); (B "did:example:alice", Some (B "did:example:alice#key-1"));
     (B "", Some (B "#key-1")); (B "", Some (B "#"))].
Proof. reflexivity. Qed.
(** src/utils/did.rs:735-741 *)
Example is_did_works :
  map (fun s => is_did (B s)) [""; "did:example:alice"; "did::"; "example:example:alice"; "example:alice"]%string
  = [false; true; true; false; false].
Proof. reflexivity. Qed.
(** src/utils/did.rs:744-768 *)
Definition eve_secret : secret :=
  mkSecret (B "did:example:eve#key-x25519-1") X25519KeyAgreementKey2019
    (MBase58 (B "2b5J8uecvwAo9HUGge5NKQ7HoRNKUKCjZ7Fr4mDgWkwqFyjLPWt7rv5kL3UPeG3e4B9Sy4H2Q2zAuWcP2RNtgJ4t")).
(** [json!(key)] goes through Value, so the members come out sorted. *)
Example serialization_for_base58_key_representation_works :
  print (norm (secret_tree eve_secret))
  = B "{""id"":""did:example:eve#key-x25519-1"",""privateKeyBase58"":""2b5J8uecvwAo9HUGge5NKQ7HoRNKUKCjZ7Fr4mDgWkwqFyjLPWt7rv5kL3UPeG3e4B9Sy4H2Q2zAuWcP2RNtgJ4t"",""type"":""X25519KeyAgreementKey2019""}".
Proof. vm_compute. reflexivity. Qed.
Example deserialization_for_base58_key_representation_works :
  secret_from_str (fparse real) (print (norm (secret_tree eve_secret))) = Ok eve_secret.
Proof. vm_compute. reflexivity. Qed.

(** *** src/did/did_doc.rs:113-120 *)
Example parsing_minimal_didcomm_messaging_service_works :
  c_messaging [(B "uri", VStr (B "https://example.com/path"))] = Ok (mkMS (B "https://example.com/path") None []).
Proof. vm_compute. reflexivity. Qed.

(** *** The builders *)
Definition attachment_fields (a : attachment) : attachment :=
  ab_jws (B "jws") (ab_count 200 (ab_lastmod 10000 (ab_format (B "json") (ab_media_type (B "message/example")
    (ab_filename (B "attachment-1") (ab_description (B "example-1-description") (ab_id (B "example-1") a))))))).
Definition attachment_with (d : attachment_data) : attachment :=
  mkAtt d (Some (B "example-1")) (Some (B "example-1-description")) (Some (B "attachment-1"))
    (Some (B "message/example")) (Some (B "json")) (Some 10000) (Some 200).
(** src/message/attachment.rs:221-252, 255-286, 289-332 *)
Example attachment_base64_works :
  attachment_fields (ab_base64 (B "ZXhhbXBsZQ==")) = attachment_with (ABase64 (B "ZXhhbXBsZQ==") (Some (B "jws"))).
Proof. reflexivity. Qed.
Example attachment_json_works :
  attachment_fields (ab_json (VStr (B "example"))) = attachment_with (AJson (VStr (B "example")) (Some (B "jws"))).
Proof. reflexivity. Qed.
Example attachment_links_works :
  attachment_fields (ab_links [B "http://example1"; B "https://example2"] (B "50d8"))
  = attachment_with (ALinks [B "http://example1"; B "https://example2"] (B "50d8") (Some (B "jws"))).
Proof. reflexivity. Qed.
(** src/message/message.rs:239-310 *)
Definition built : message :=
  mb_attachments [ab_id (B "attachment2") (ab_json (VStr (B "example"))); ab_id (B "attachment3") (ab_json (VStr (B "example")))]
  (mb_attachment (ab_id (B "attachment1") (ab_base64 (B "ZXhhbXBsZQ=="))) (mb_expires 20000 (mb_created 10000
  (mb_header (B "example-header-2") (VStr (B "example-header-2-value")) (mb_header (B "example-header-1") (VStr (B "example-header-1-value"))
  (mb_pthid (B "example-parent-thread-1") (mb_thid (B "example-thread-1") (mb_from (B "did:example:4")
  (mb_to_many [B "did:example:2"; B "did:example:3"] (mb_to (B "did:example:1")
  (mb_new (B "example-1") (B "example/v1") (VStr (B "example-body"))))))))))))).
Example message_build_works :
  (msg_id built, msg_typ built, msg_type built, msg_body built) =
    (B "example-1", B "application/didcomm-plain+json", B "example/v1", VStr (B "example-body"))
  /\ (msg_from built, msg_thid built, msg_pthid built) = (Some (B "did:example:4"), Some (B "example-thread-1"), Some (B "example-parent-thread-1"))
  /\ (msg_created built, msg_expires built) = (Some 10000, Some 20000)
  /\ msg_to built = Some [B "did:example:1"; B "did:example:2"; B "did:example:3"]
  /\ List.length (msg_extra built) = 2%nat
  /\ amap_get (B "example-header-1") (msg_extra built) = Some (VStr (B "example-header-1-value"))
  /\ amap_get (B "example-header-2") (msg_extra built) = Some (VStr (B "example-header-2-value"))
  /\ option_map (map att_id) (msg_attachments built) = Some [Some (B "attachment1"); Some (B "attachment2"); Some (B "attachment3")].
Proof. vm_compute. repeat split. Qed.

(** *** from_prior *)
(** src/test_vectors/secrets/charlie_rotated_to_alice.rs *)
Definition CHARLIE_ROTATED_TO_ALICE_SECRETS : list secret := CHARLIE_SECRETS ++ ALICE_SECRETS.
Definition prior_env : handler := test_env "prior" [ALICE_DID_DOC; CHARLIE_DID_DOC] CHARLIE_ROTATED_TO_ALICE_SECRETS.
Definition prior_alice_env : handler := test_env "prior" [ALICE_DID_DOC; CHARLIE_DID_DOC] ALICE_SECRETS.
Definition prior_eq (x : from_prior * bytes) (p : from_prior) (kid : bytes) : bool :=
  (if from_prior_dec (fst x) p then true else false) && beq (snd x) kid.
(** src/message/from_prior/unpack.rs:155-200 *)
Definition r_prior_unpack := Eval vm_compute in
  (match run prior_env (from_prior_unpack real FROM_PRIOR_JWT_FULL) with
   | Ok x => prior_eq x FROM_PRIOR_FULL (vm_id CHARLIE_AUTH_METHOD_25519) | _ => false end,
   map (fun t => err_of (run prior_env (from_prior_unpack real t))) [FROM_PRIOR_JWT_INVALID; FROM_PRIOR_JWT_INVALID_SIGNATURE]).
Example from_prior_unpack_works : r_prior_unpack = (true, [Some Malformed; Some Malformed]). Proof. reflexivity. Qed.
(** src/message/from_prior/pack.rs:204-267 *)
Definition prior_round (p : from_prior) (kid : option bytes) : bool :=
  match run prior_env (from_prior_pack real p kid) with
  | Ok (jwt, k) =>
      match run prior_env (from_prior_unpack real jwt) with Ok x => prior_eq x p k | _ => false end
      && beq (fst (did_or_url k)) CHARLIE_DID && match kid with Some k' => beq k k' | None => true end
  | _ => false
  end.
Definition r_prior_pack := Eval vm_compute in
  [prior_round FROM_PRIOR_MINIMAL (Some (sec_id CHARLIE_SECRET_AUTH_KEY_ED25519)); prior_round FROM_PRIOR_FULL None].
Example from_prior_pack_works : r_prior_pack = [true; true]. Proof. reflexivity. Qed.
(** The packed token is the one of src/test_vectors/from_prior_jwt.rs: EdDSA is deterministic. *)
Definition r_prior_token := Eval vm_compute in
  is_ok pair_dec (run prior_env (from_prior_pack real FROM_PRIOR_FULL None))
    (FROM_PRIOR_JWT_FULL, sec_id CHARLIE_SECRET_AUTH_KEY_ED25519).
Example from_prior_token : r_prior_token = true. Proof. reflexivity. Qed.
(** src/message/from_prior/pack.rs:270-313 *)
Definition r_prior_kid := Eval vm_compute in
  map (fun k => err_of (run prior_alice_env (from_prior_pack real FROM_PRIOR_FULL (Some k))))
    [sec_id ALICE_SECRET_AUTH_KEY_ED25519; ALICE_DID; B "invalid"].
Example from_prior_pack_works_wrong_issuer_kid :
  r_prior_kid = [Some IllegalArgument; Some IllegalArgument; Some IllegalArgument].
Proof. reflexivity. Qed.
(** src/message/from_prior/pack.rs:316-375 *)
Definition r_prior_invalid := Eval vm_compute in
  map (fun p => err_of (run prior_env (from_prior_pack real p None)))
    [FROM_PRIOR_INVALID_ISS; FROM_PRIOR_INVALID_ISS_DID_URL; FROM_PRIOR_INVALID_SUB; FROM_PRIOR_INVALID_SUB_DID_URL;
     FROM_PRIOR_INVALID_EQUAL_ISS_AND_SUB].
Example from_prior_pack_works_invalid : r_prior_invalid = repeat (Some Malformed) 5. Proof. reflexivity. Qed.

(** *** src/message/pack_plaintext.rs *)
Definition all_docs : list diddoc := [ALICE_DID_DOC; BOB_DID_DOC; CHARLIE_DID_DOC].
(** src/message/pack_plaintext.rs:92-125: equality of the JSON values *)
Definition same_json (a b : bytes) : bool :=
  match from_json (to_value (fparse real) max_depth) a, from_json (to_value (fparse real) max_depth) b with
  | Ok x, Ok y => if value_dec x y then true else false
  | _, _ => false
  end.
Definition r_plain := Eval vm_compute in
  map (fun p => match run (test_env "p" [ALICE_DID_DOC] []) (pack_plaintext real (fst p)) with Ok t => same_json t (snd p) | _ => false end)
    [(MESSAGE_SIMPLE, PLAINTEXT_MSG_SIMPLE); (MESSAGE_MINIMAL, PLAINTEXT_MSG_MINIMAL);
     (MESSAGE_ATTACHMENT_BASE64, PLAINTEXT_MSG_ATTACHMENT_BASE64); (MESSAGE_ATTACHMENT_JSON, PLAINTEXT_MSG_ATTACHMENT_JSON);
     (MESSAGE_ATTACHMENT_LINKS, PLAINTEXT_MSG_ATTACHMENT_LINKS); (MESSAGE_ATTACHMENT_MULTI_1, PLAINTEXT_MSG_ATTACHMENT_MULTI_1);
     (MESSAGE_ATTACHMENT_MULTI_2, PLAINTEXT_MSG_ATTACHMENT_MULTI_2)].
Example pack_plaintext_works : r_plain = repeat true 7. Proof. reflexivity. Qed.
(** src/message/pack_plaintext.rs:128-156: from_prior *)
Definition prior_reported (r : res (message * unpack_metadata)) : bool :=
  match r with
  | Ok (m, md) =>
      (if message_dec m MESSAGE_FROM_PRIOR_FULL then true else false)
      && (if option_dec bytes_dec (um_from_prior_issuer_kid md) (Some (sec_id CHARLIE_SECRET_AUTH_KEY_ED25519)) then true else false)
      && (if option_dec from_prior_dec (um_from_prior md) (Some FROM_PRIOR_FULL) then true else false)
  | _ => false
  end.
Definition r_plain_prior := Eval vm_compute in
  match run bob_env (pack_plaintext real MESSAGE_FROM_PRIOR_FULL) with Ok t => prior_reported (unpack_as bob_env t) | _ => false end.
Example pack_plaintext_works_from_prior : r_plain_prior = true. Proof. reflexivity. Qed.
(** src/message/pack_plaintext.rs:159-180 *)
Definition r_plain_mismatch := Eval vm_compute in err_of (run bob_env (pack_plaintext real MESSAGE_FROM_PRIOR_MISMATCHED_SUB_AND_FROM)).
Example pack_plaintext_works_mismatched : r_plain_mismatch = Some Malformed. Proof. reflexivity. Qed.

(** *** src/message/pack_signed.rs *)
Definition signed_err (docs : list diddoc) (secs : list secret) (by_ : bytes) : option errkind :=
  err_of (run (test_env "s" docs secs) (pack_signed real MESSAGE_SIMPLE by_)).
(** src/message/pack_signed.rs:388-410: the document and the secrets with a key of an unknown curve *)
Definition odd_doc : diddoc :=
  mkDoc (doc_id ALICE_DID_DOC) (doc_key_agreement ALICE_DID_DOC)
    (doc_authentication ALICE_DID_DOC ++ [B "did:example:alice#key-d25519-1"]) (doc_verification_method ALICE_DID_DOC) (doc_service ALICE_DID_DOC).
Definition odd_secret : secret :=
  mkSecret (B "did:example:alice#key-d25519-1") JsonWebKey2020
    (MJwk (VObj [(B "crv", VStr (B "A-256")); (B "d", VStr (B "sB0bYtpaXyp-h17dDpMx91N3Du1AdN4z1FUq02GbmLw")); (B "kty", VStr (B "EC"));
                 (B "x", VStr (B "L0crjMN1g0Ih4sYAJ_nGoHUck2cloltUpUVQDhF2nHE")); (B "y", VStr (B "SxYgE7CmEJYi7IDhgK5jI4ZiajO8jPRZDldVhqFpYoo"))])).
(** src/message/pack_signed.rs:289-301, 304-321, 324-343, 366-385, 388-425 *)
Definition r_signed_err := Eval vm_compute in
  [signed_err [ALICE_DID_DOC] ALICE_SECRETS (B "did:example:unknown");
   signed_err [mkDoc (B "not-a-did") (doc_key_agreement ALICE_DID_DOC) (doc_authentication ALICE_DID_DOC)
                 (doc_verification_method ALICE_DID_DOC) (doc_service ALICE_DID_DOC)] ALICE_SECRETS (B "not-a-did");
   signed_err [ALICE_DID_DOC] ALICE_SECRETS (B "did:example:alice#unkown");
   signed_err [ALICE_DID_DOC_WITH_NO_SECRETS] ALICE_SECRETS (B "did:example:alice#key-not-in-secrets-1");
   signed_err [odd_doc] (ALICE_SECRETS ++ [odd_secret]) (B "did:example:alice#key-d25519-1")].
Example pack_signed_errors :
  r_signed_err = [Some DIDNotResolved; Some IllegalArgument; Some DIDUrlNotFound; Some SecretNotFound; Some Unsupported].
Proof. reflexivity. Qed.
(** src/message/pack_signed.rs:346-363: the resolver fails *)
Definition failing_env : handler := fun o =>
  match o return resp o with
  | OResolve _ => Err InvalidState
  | OFindSecrets ids => example_find_secrets ALICE_SECRETS ids
  | OGetSecret id => example_get_secret ALICE_SECRETS id
  | ORandom u => seeded "" u
  end.
Example pack_signed_works_signer_did_resolving_err :
  run failing_env (pack_signed real MESSAGE_SIMPLE ALICE_DID) = Err InvalidState.
Proof. reflexivity. Qed.
(** src/message/unpack/mod.rs:460-528: signing by DID and with each of the keys, and unpacking *)
Definition signed_round (by_ kid : bytes) (alg : sign_alg) : bool :=
  match run (test_env "s" [ALICE_DID_DOC] ALICE_SECRETS) (pack_signed real MESSAGE_SIMPLE by_) with
  | Ok (t, _) => unpacked t MESSAGE_SIMPLE
      (mkUM false true true false false None None (Some kid) None None None (Some alg) (Some t) None)
  | _ => false
  end.
Definition r_signed := Eval vm_compute in
  [signed_round ALICE_DID (vm_id ALICE_AUTH_METHOD_25519) SignEdDSA;
   signed_round (vm_id ALICE_AUTH_METHOD_25519) (vm_id ALICE_AUTH_METHOD_25519) SignEdDSA;
   signed_round (vm_id ALICE_AUTH_METHOD_P256) (vm_id ALICE_AUTH_METHOD_P256) SignES256;
   signed_round (vm_id ALICE_AUTH_METHOD_SECPP256K1) (vm_id ALICE_AUTH_METHOD_SECPP256K1) SignES256K].
Example unpack_works_signed_2way : r_signed = repeat true 4. Proof. reflexivity. Qed.

(** *** src/message/pack_encrypted/mod.rs *)
Definition no_forward : pack_options := mkPO false false None None AuthA256cbcHs512 AnonXc20p.
Definition with_from (f : bytes) : message :=
  mkMsg (msg_id MESSAGE_SIMPLE) (msg_typ MESSAGE_SIMPLE) (msg_type MESSAGE_SIMPLE) (msg_body MESSAGE_SIMPLE) (Some f) (msg_to MESSAGE_SIMPLE)
    None None [] (msg_created MESSAGE_SIMPLE) (msg_expires MESSAGE_SIMPLE) None None.
Definition with_to (l : list bytes) : message :=
  mkMsg (msg_id MESSAGE_SIMPLE) (msg_typ MESSAGE_SIMPLE) (msg_type MESSAGE_SIMPLE) (msg_body MESSAGE_SIMPLE) (msg_from MESSAGE_SIMPLE) (Some l)
    None None [] (msg_created MESSAGE_SIMPLE) (msg_expires MESSAGE_SIMPLE) None None.
Definition enc_err (docs : list diddoc) (m : message) (to : bytes) (from sign_by : option bytes) : option errkind :=
  err_of (run (test_env "e" docs ALICE_SECRETS) (pack_encrypted real m to from sign_by no_forward)).
Definition ab_docs : list diddoc := [ALICE_DID_DOC; BOB_DID_DOC].
(** src/message/pack_encrypted/mod.rs, in the order of the file: 2112, 2142, 2172, 2202, 2234, 2290, 2322, 2422, 2455 *)
Definition r_enc_args := Eval vm_compute in
  [enc_err ab_docs MESSAGE_SIMPLE BOB_DID (Some (B "not-a-did")) None;
   enc_err ab_docs MESSAGE_SIMPLE (B "not-a-did") None None;
   enc_err ab_docs MESSAGE_SIMPLE BOB_DID (Some ALICE_DID) (Some (B "not-a-did"));
   enc_err ab_docs (with_from CHARLIE_DID) BOB_DID (Some ALICE_DID) None;
   enc_err ab_docs (with_to [CHARLIE_DID]) BOB_DID (Some ALICE_DID) None;
   enc_err ab_docs (with_from (B "not-a-did")) BOB_DID (Some (B "not-a-did")) None;
   enc_err ab_docs (with_to [B "not-a-did"]) (B "not-a-did") (Some ALICE_DID) None;
   enc_err ab_docs (with_from (B "did:example:alice#key-x25519-1")) BOB_DID (Some ALICE_DID) None;
   enc_err ab_docs (with_to [B "did:example:bob#key-x25519-1"]) BOB_DID (Some ALICE_DID) None].
Example pack_encrypted_illegal_arguments : r_enc_args = repeat (Some IllegalArgument) 9. Proof. reflexivity. Qed.
(** 2487, 2516, 2547, 2579, 2610, 2641, 2671 *)
Definition r_enc_unknown := Eval vm_compute in
  [enc_err ab_docs (with_from (B "did:example:unknown")) BOB_DID (Some (B "did:example:unknown")) None;
   enc_err ab_docs MESSAGE_SIMPLE BOB_DID (Some (B "did:example:alice#unknown-key")) None;
   enc_err ab_docs (with_to [B "did:example:unknown"]) (B "did:example:unknown") None None;
   enc_err ab_docs MESSAGE_SIMPLE (B "did:example:bob#unknown-key") (Some ALICE_DID) None;
   enc_err ab_docs MESSAGE_SIMPLE BOB_DID (Some ALICE_DID) (Some (B "did:example:alice#unknown-key"));
   enc_err ab_docs MESSAGE_SIMPLE BOB_DID (Some (B "did:example:alice#key-x25519-not-in-secrets-1")) None;
   enc_err [ALICE_DID_DOC_WITH_NO_SECRETS; BOB_DID_DOC] MESSAGE_SIMPLE BOB_DID (Some ALICE_DID) (Some (B "did:example:alice#key-not-in-secrets-1"))].
Example pack_encrypted_unknown :
  r_enc_unknown = [Some DIDNotResolved; Some DIDUrlNotFound; Some DIDNotResolved; Some DIDUrlNotFound; Some DIDUrlNotFound;
                   Some SecretNotFound; Some SecretNotFound].
Proof. reflexivity. Qed.
(** 2726-2786 *)
Definition r_enc_curves := Eval vm_compute in
  map (fun p => enc_err ab_docs MESSAGE_SIMPLE (B (snd p)) (Some (B (fst p))) None)
    [("did:example:alice#key-x25519-1", "did:example:bob#key-p256-1"); ("did:example:alice#key-x25519-1", "did:example:bob#key-p384-1");
     ("did:example:alice#key-x25519-1", "did:example:bob#key-p521-1"); ("did:example:alice#key-p256-1", "did:example:bob#key-p384-1");
     ("did:example:alice#key-p256-1", "did:example:bob#key-p521-1"); ("did:example:alice#key-p521-1", "did:example:bob#key-p384-1")]%string.
Example pack_encrypted_works_to_from_different_curves : r_enc_curves = repeat (Some NoCompatibleCrypto) 6. Proof. reflexivity. Qed.

(** Packing and unpacking again: one case of each of src/message/unpack/mod.rs:876-1045, 1049-1180, 1242-1370, 1373-1547 *)
Definition alice_env : handler := test_env "alice" all_docs ALICE_SECRETS.
Definition enc_round (to : bytes) (from sign_by : option bytes) (o : pack_options)
  (check : unpack_metadata -> bool) : bool :=
  match run alice_env (pack_encrypted real MESSAGE_SIMPLE to from sign_by o) with
  | Ok (t, _) =>
      match unpack_as bob_env t with
      | Ok (m, md) => (if message_dec m MESSAGE_SIMPLE then true else false) && check md
      | _ => false
      end
  | _ => false
  end.
Definition is_anon (md : unpack_metadata) : bool := um_encrypted md && um_anonymous_sender md && negb (um_authenticated md) && negb (um_non_repudiation md).
Definition is_auth (md : unpack_metadata) : bool := um_encrypted md && negb (um_anonymous_sender md) && um_authenticated md && negb (um_non_repudiation md).
Definition is_protected (md : unpack_metadata) : bool := um_encrypted md && um_anonymous_sender md && um_authenticated md && negb (um_non_repudiation md).
Definition is_signed (md : unpack_metadata) : bool := um_encrypted md && um_anonymous_sender md && um_authenticated md && um_non_repudiation md.
Definition r_enc_round := Eval vm_compute in
  [enc_round (B "did:example:bob#key-x25519-2") None None (mkPO false false None None AuthA256cbcHs512 AnonA256gcm) is_anon;
   enc_round (B "did:example:bob#key-p256-1") None None (mkPO false false None None AuthA256cbcHs512 AnonA256cbcHs512) is_anon;
   enc_round BOB_DID None (Some ALICE_DID) no_forward is_signed;
   enc_round BOB_DID (Some ALICE_DID) None no_forward is_auth;
   enc_round (B "did:example:bob#key-x25519-1") (Some ALICE_DID) None (mkPO true false None None AuthA256cbcHs512 AnonXc20p) is_protected].
Example unpack_works_encrypted_2way : r_enc_round = repeat true 5. Proof. reflexivity. Qed.

(** src/message/unpack/mod.rs:584-706: packed for a recipient behind a mediator, unpacked by the
    mediator, wrapped again and unpacked by the recipient *)
Definition mediated : list diddoc := [ALICE_DID_DOC; BOB_DID_DOC; MEDIATOR1_DID_DOC].
Definition rewrap (to : bytes) (from sign_by : option bytes) : option (bool * bool * bool) :=
  match run (test_env "a" mediated ALICE_SECRETS) (pack_encrypted real MESSAGE_SIMPLE to from sign_by default_pack_options) with
  | Ok (t, pm) =>
      match unpack_as (test_env "m" mediated MEDIATOR1_SECRETS) t with
      | Ok (fm, fmd) =>
          match try_parse_forward fm with
          | Some pf =>
              match run (test_env "r" mediated []) (wrap_in_forward real (print (pf_forwarded pf)) None to [to] AnonXc20p) with
              | Ok t' =>
                  match unpack_as (test_env "b" mediated BOB_SECRETS) t' with
                  | Ok (m, md) =>
                      Some (match pm_service pm with
                            | Some s => beq (smd_id s) (svc_id BOB_SERVICE) && beq (smd_endpoint s) (ms_uri BOB_DID_COMM_MESSAGING_SERVICE)
                            | None => false end,
                            beq (pf_next pf) to && is_anon fmd && negb (um_re_wrapped fmd),
                            (if message_dec m MESSAGE_SIMPLE then true else false) && um_re_wrapped md)
                  | _ => None
                  end
              | _ => None
              end
          | None => None
          end
      | _ => None
      end
  | _ => None
  end.
Definition r_rewrap := Eval vm_compute in rewrap (sec_id BOB_SECRET_KEY_AGREEMENT_KEY_X25519_2) None None.
Example unpack_works_unwrap_re_wrapping_forward_on : r_rewrap = Some (true, true, true). Proof. reflexivity. Qed.
