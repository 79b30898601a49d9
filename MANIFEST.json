{
 "claims": [
  {
   "property": "C01",
   "status": "proved",
   "theorems": [
    "C01_plaintext_round"
   ],
   "note": "Well-formed is message_fits in Spec/World.v; C36 shows what goes wrong otherwise."
  },
  {
   "property": "C02",
   "status": "proved",
   "theorems": [
    "C02_signed_round"
   ],
   "note": "Assumes verify(sign)=true for matching keys (lawful) and key ids written without JSON escapes (C37)."
  },
  {
   "property": "C03",
   "status": "proved",
   "theorems": [
    "C03_anoncrypt_round"
   ],
   "note": "Texts not handed to a mediator (pm_service = None). A message that is itself a forward to the receiver is unwrapped instead (hypothesis kept)."
  },
  {
   "property": "C04",
   "status": "proved",
   "theorems": [
    "C04_authcrypt_round"
   ],
   "note": "Texts not handed to a mediator (pm_service = None)."
  },
  {
   "property": "C05",
   "status": "proved",
   "theorems": [
    "C05_onion_delivers",
    "C05_packed_onion"
   ],
   "note": "What arrives is the packed text re-serialised as JSON (members sorted), not byte for byte; same_unpack says unpack cannot tell the two apart."
  },
  {
   "property": "C06",
   "status": "proved",
   "theorems": [
    "C06_metadata_consistent"
   ],
   "note": ""
  },
  {
   "property": "C07",
   "status": "proved",
   "theorems": [
    "C07_signature_verified"
   ],
   "note": ""
  },
  {
   "property": "C08",
   "status": "proved",
   "theorems": [
    "C08_sender_key_used"
   ],
   "note": ""
  },
  {
   "property": "C09",
   "status": "proved",
   "theorems": [
    "C09_messages_honest",
    "C09_rotations_honest",
    "C09_signing_inputs",
    "C09_rotation_inputs"
   ],
   "note": "The honest direction is for JSON signatures made by pack; the inputs theorems say which bytes a successful unpack had verified."
  },
  {
   "property": "C10",
   "status": "proved",
   "theorems": [
    "C10_apv_accepted",
    "C10_apv_rejected",
    "C10_apv_binds",
    "C10_apv_order"
   ],
   "note": "The binding part is for key ids that are DID URLs with a single #; see C55 for what happens otherwise."
  },
  {
   "property": "C11",
   "status": "proved",
   "theorems": [
    "C11_sender_consistent",
    "C11_sender_rejected",
    "C11_anoncrypt_apu"
   ],
   "note": ""
  },
  {
   "property": "C12",
   "status": "proved",
   "theorems": [
    "C12_only_addressed_secrets"
   ],
   "note": ""
  },
  {
   "property": "C13",
   "status": "proved",
   "theorems": [
    "C13_one_did_anoncrypt",
    "C13_one_did_authcrypt"
   ],
   "note": ""
  },
  {
   "property": "C14",
   "status": "proved",
   "theorems": [
    "C14_arguments_checked_first"
   ],
   "note": ""
  },
  {
   "property": "C15",
   "status": "proved",
   "theorems": [
    "C15_recipient_keys"
   ],
   "note": ""
  },
  {
   "property": "C16",
   "status": "proved",
   "theorems": [
    "C16_key_negotiation",
    "C16_first_held_key",
    "C16_incompatible"
   ],
   "note": "A shared Ed25519 or secp256k1 pair coming first gives Unsupported instead (it is not an error of negotiation)."
  },
  {
   "property": "C17",
   "status": "proved",
   "theorems": [
    "C17_rotation_key",
    "C17_signing_key",
    "C17_first_held_key",
    "C17_no_secret"
   ],
   "note": ""
  },
  {
   "property": "C18",
   "status": "proved",
   "theorems": [
    "C18_typ_plain",
    "C18_typ_rejected"
   ],
   "note": ""
  },
  {
   "property": "C19",
   "status": "proved",
   "theorems": [
    "C19_unpack_terminates",
    "C19_layers_bounded",
    "C19_no_unwrap",
    "C19_fuel_irrelevant"
   ],
   "note": "For primitives whose AEAD never yields more bytes than the ciphertext and tag hold, and a float conversion that reads back its own output. The loop of the model takes a number of rounds; a number above the length of the text always suffices, whatever the resolvers answer, and a larger one changes nothing. Without unwrapping one round suffices for any primitives."
  },
  {
   "property": "C20",
   "status": "proved",
   "theorems": [
    "C20_unpack_total",
    "C20_pack_signed_total",
    "C20_pack_encrypted_total",
    "C20_from_prior_total",
    "C20_from_prior_unpack_total"
   ],
   "note": "Conditions on the resolver answers are in Spec/Panics.v (calm); C54 shows they are needed."
  },
  {
   "property": "C21",
   "status": "partial",
   "theorems": [
    "C21_panics_iff",
    "C21_wrap_total_refuted",
    "C21_wrap_total_partial"
   ],
   "note": "False for the empty list of routing keys (nexts.remove(0) panics); proved for non-empty lists. C21_panics_iff: with calm resolvers it panics exactly for the empty list."
  },
  {
   "property": "C22",
   "status": "proved",
   "theorems": [
    "C22_rotation_round"
   ],
   "note": ""
  },
  {
   "property": "C23",
   "status": "proved",
   "theorems": [
    "C23_rotation_sound",
    "C23_rotation_in_message"
   ],
   "note": ""
  },
  {
   "property": "C24",
   "status": "partial",
   "theorems": [
    "C24_rotation_bound_partial",
    "C24_rotation_bound_refuted"
   ],
   "note": "False in general: unpack compares neither iss with the signing key's DID nor sub with from. Proved for messages that this library agreed to pack (C25 checks on packing)."
  },
  {
   "property": "C25",
   "status": "proved",
   "theorems": [
    "C25_rotation_checked"
   ],
   "note": ""
  },
  {
   "property": "C26",
   "status": "partial",
   "theorems": [
    "C26_sender_matches_partial",
    "C26_signer_matches_partial",
    "C26_sealer_matches_partial",
    "C26_sender_matches_refuted"
   ],
   "note": "False in general: unpack does not compare the authenticated key's DID with the from header. Proved for messages encrypted by this library for a sender, and for signing and sender keys that were only used for messages of their own DID."
  },
  {
   "property": "C27",
   "status": "proved",
   "theorems": [
    "C27_chain_bounded",
    "C27_chain_faithful"
   ],
   "note": ""
  },
  {
   "property": "C28",
   "status": "proved",
   "theorems": [
    "C28_wrapping_decision"
   ],
   "note": "The mediator's own routing keys are not used."
  },
  {
   "property": "C29",
   "status": "proved",
   "theorems": [
    "C29_forward_parsing"
   ],
   "note": ""
  },
  {
   "property": "C30",
   "status": "proved",
   "theorems": [
    "C30_unwrap_off",
    "C30_forward_returned",
    "C30_unwrapped",
    "C30_kept"
   ],
   "note": ""
  },
  {
   "property": "C31",
   "status": "proved",
   "theorems": [
    "C31_all_keys",
    "C31_first_key"
   ],
   "note": ""
  },
  {
   "property": "C32",
   "status": "partial",
   "theorems": [
    "C32_same_plaintext_refuted",
    "C32_same_plaintext_partial"
   ],
   "note": "False in general: the plaintexts are not compared and different recipients may be given different content keys. Proved for a committing AEAD."
  },
  {
   "property": "C33",
   "status": "proved",
   "theorems": [
    "C33_base58",
    "C33_x25519_public",
    "C33_ed25519_public",
    "C33_x25519_secret",
    "C33_ed25519_secret"
   ],
   "note": ""
  },
  {
   "property": "C34",
   "status": "proved",
   "theorems": [
    "C34_base64_encodes",
    "C34_base64_lossless",
    "C34_base64_canonical"
   ],
   "note": "Text with padding characters is outside the canonicity claim: the decoder accepts some padded text."
  },
  {
   "property": "C35",
   "status": "proved",
   "theorems": [
    "C35_json_lossless",
    "C35_json_reprint"
   ],
   "note": "Floats are covered under the stated stability of the number printer/parser pair (floats_stable)."
  },
  {
   "property": "C36",
   "status": "partial",
   "theorems": [
    "C36_comes_back_iff",
    "C36_header_names_refuted",
    "C36_header_becomes_sender_refuted",
    "C36_taken_name",
    "C36_free_name_partial"
   ],
   "note": "False: names of standard headers the message has make the text unreadable (C36_taken_name), other standard names are read back as that header. Proved for names that are neither standard nor parts of an envelope; C36_comes_back_iff gives for every message the exact condition for coming back."
  },
  {
   "property": "C37",
   "status": "partial",
   "theorems": [
    "C37_key_ids_refuted",
    "C37_escaped_recipient",
    "C37_escaped_sender",
    "C37_escaped_signer",
    "C37_plain_ids_partial"
   ],
   "note": "False: key ids that JSON writes with escapes cannot be read back because the envelope structs borrow &str; nor can keys of several DIDs (C94). Proved for the other key ids, whatever else the documents list."
  },
  {
   "property": "C38",
   "status": "partial",
   "theorems": [
    "C38_garbage_rejected_partial",
    "C38_json_rejected_partial",
    "C38_rejected_malformed_refuted"
   ],
   "note": "False for truncated texts: serde_json's EOF category is mapped to InvalidState. Proved: the kind is Malformed or InvalidState, nobody is asked, and complete JSON gives Malformed. C104 says exactly which truncated texts give InvalidState."
  },
  {
   "property": "C39",
   "status": "proved",
   "theorems": [
    "C39_sender_hidden"
   ],
   "note": "For texts not handed to a mediator; in forwards this text is what is wrapped (C28)."
  },
  {
   "property": "C40",
   "status": "proved",
   "theorems": [
    "C40_plaintext_hidden"
   ],
   "note": "Stated for forwarding switched off; C28 shows that forwarding wraps exactly this text."
  },
  {
   "property": "C41",
   "status": "proved",
   "theorems": [
    "C41_fresh_values"
   ],
   "note": ""
  },
  {
   "property": "C42",
   "status": "proved",
   "theorems": [
    "C42_interleaving",
    "C42_same_as_alone",
    "C42_dropping",
    "C42_dropped_midway",
    "C42_never_blocked"
   ],
   "note": "Calls are modelled as programs that talk to their own resolver and secrets store; the claim is about calls that share no mutable state, which is what the code does (no statics, no locks)."
  },
  {
   "property": "C43",
   "status": "proved",
   "theorems": [
    "C43_resolver",
    "C43_secrets",
    "C43_get_secret"
   ],
   "note": ""
  },
  {
   "property": "C44",
   "status": "proved",
   "theorems": [
    "C44_builder",
    "C44_commute",
    "C44_attachment",
    "C44_from_prior"
   ],
   "note": ""
  },
  {
   "property": "C45",
   "status": "proved",
   "theorems": [
    "C45_split",
    "C45_is_did",
    "C45_key_id"
   ],
   "note": ""
  },
  {
   "property": "C46",
   "status": "proved",
   "theorems": [
    "C46_first_wins",
    "C46_at_most_once"
   ],
   "note": ""
  },
  {
   "property": "C47",
   "status": "proved",
   "theorems": [
    "C47_wasm",
    "C47_uniffi"
   ],
   "note": ""
  },
  {
   "property": "C48",
   "status": "partial",
   "theorems": [
    "C48_error_kinds_refuted",
    "C48_error_kinds_partial",
    "C48_names_distinct",
    "C48_names"
   ],
   "note": "False for SecretNotFound (C48_error_kinds_refuted); proved for all other kinds."
  },
  {
   "property": "C49",
   "status": "partial",
   "theorems": [
    "C49_pack_encrypted",
    "C49_pack_signed",
    "C49_pack_plaintext",
    "C49_from_prior_pack",
    "C49_from_prior_unpack",
    "C49_unpack_refuted",
    "C49_unpack_partial"
   ],
   "note": "False for unpack: when the DID of an authcrypt sender cannot be resolved, the resolver's kind is replaced by InvalidState. Proved for every pack function, for from_prior, and for the secrets resolver in unpack; a DID resolver failure in unpack keeps its kind or becomes InvalidState."
  },
  {
   "property": "C50",
   "status": "partial",
   "theorems": [
    "C50_pack_options",
    "C50_unpack_options_refuted",
    "C50_unpack_options_partial"
   ],
   "note": "True for pack options; false for unpack options (C50_unpack_options_refuted): unwrap_re_wrapping_forward is false when deserialised from {} and true by Default."
  },
  {
   "property": "C51",
   "status": "partial",
   "theorems": [
    "C51_usable_key_found_refuted",
    "C51_usable_key_found_partial"
   ],
   "note": "False: when the first recognised keyAgreement key is Ed25519 or secp256k1, packing stops with InvalidState. Proved when the first recognised key is on X25519 or P-256 and the keys on that curve can be read; a usable key further down is missing. C100_encrypted gives the exact condition."
  },
  {
   "property": "C52",
   "status": "partial",
   "theorems": [
    "C52_metadata_of_message_partial",
    "C52_delivered_partial",
    "C52_metadata_of_message_refuted"
   ],
   "note": "False when a forward was unwrapped and the delivered text is not itself an anoncrypt envelope: the outer forward envelope's recipients and algorithm stay in the metadata. Proved when nothing was unwrapped (C52_metadata_of_message_partial). When forwards were unwrapped, C52_delivered_partial proves that the metadata is that of unpacking the delivered text by itself except for re_wrapped and, if the delivered text is no anoncrypt envelope, encrypted/anonymous_sender/encrypted_to_kids/enc_alg_anon."
  },
  {
   "property": "C53",
   "status": "partial",
   "theorems": [
    "C53_anoncrypt_partial",
    "C53_authcrypt_partial",
    "C53_tampering_refuted"
   ],
   "note": "False as stated: ciphertext and tag are concatenated before the AEAD is called and base64 padding is accepted, so the split and the spelling may change. Proved up to these two."
  },
  {
   "property": "C54",
   "status": "partial",
   "theorems": [
    "C54_short_secret_partial",
    "C54_signed_iff",
    "C54_rotation_iff",
    "C54_unpack_iff",
    "C54_encrypted_iff",
    "C54_short_secret_refuted"
   ],
   "note": "False: split_at(32) panics on short Ed25519 secrets. C54_signed_iff, C54_rotation_iff and C54_unpack_iff: pack_signed, FromPrior::pack and unpack panic exactly when they were given such a secret (Spec/Panics.long_enough says exactly which); all others are reported as errors. C54_encrypted_iff: pack_encrypted panics exactly when it signs and the signing secret is such a one; the secret that encryption uses never makes it panic."
  },
  {
   "property": "C55",
   "status": "partial",
   "theorems": [
    "C55_apv_unambiguous_partial",
    "C55_apv_unambiguous_refuted"
   ],
   "note": "False for arbitrary key id strings. Proved for key ids that begin with did: and do not contain .did:, and (C10_apv_binds) for key ids with a single #."
  },
  {
   "property": "C56",
   "status": "proved",
   "theorems": [
    "C56_encrypted_read",
    "C56_signed_read",
    "C56_encrypted_header_read",
    "C56_signed_header_read",
    "C56_token_read",
    "C56_message_read",
    "C56_plaintext_spelling",
    "C56_encrypted_spelling",
    "C56_otherwise_malformed"
   ],
   "note": "JSON as values printed without white space, members in any order and possibly repeated. Plain strings of envelopes must need no escapes (they are borrowed). Signed envelopes: the reading is characterised, the whole unpacking is not restated because the metadata contains the signed text itself."
  },
  {
   "property": "C57",
   "status": "proved",
   "theorems": [
    "C57_json",
    "C57_plaintext",
    "C57_signed",
    "C57_token"
   ],
   "note": "The literal text of encrypted envelopes is part of C15, C16 and C39 (relation seals of Spec/Packing.v)."
  },
  {
   "property": "C58",
   "status": "proved",
   "theorems": [
    "C58_read",
    "C58_received",
    "C58_reread"
   ],
   "note": "Assumes only that the float conversion reads back what it prints (floats_stable)."
  },
  {
   "property": "C59",
   "status": "partial",
   "theorems": [
    "C59_passed_on_iff",
    "C59_passed_on_refuted",
    "C59_fits_partial",
    "C59_passed_on_partial"
   ],
   "note": "False in general: a repeated custom header is hidden when reading and the message, written again, is taken for a signed envelope (witness). Proved for messages whose custom headers do not include all members of an envelope; they meet the conditions of C01 to C05. C59_passed_on_iff gives the exact condition for every received message."
  },
  {
   "property": "C60",
   "status": "proved",
   "theorems": [
    "C60_valid_accepted",
    "C60_token_accepted",
    "C60_conveyed_accepted",
    "C60_token_conveyed"
   ],
   "note": "Valid layers are defined in Spec/Accept.v in advance of any execution. Every held key of a recipient list must open the envelope, because the secrets resolver may answer in any order. C60_conveyed_accepted states validity without any reader of the model: JSON by the grammar of RFC 8259, base64url by RFC 4648, members by name (Spec/Outside.v). Spellings with needless escapes are left out; they are refused (C97)."
  },
  {
   "property": "C61",
   "status": "proved",
   "theorems": [
    "C61_plaintext_packs",
    "C61_signed_packs",
    "C61_token_packs",
    "C61_encrypted_packs"
   ],
   "note": "Conditions are in Spec/Works.v and Spec/Packing.v (sealing_works). The first recognised keyAgreement key must agree on keys (C51 shows why)."
  },
  {
   "property": "C62",
   "status": "proved",
   "theorems": [
    "C62_document_read",
    "C62_secret_read",
    "C62_resolver_answer",
    "C62_secret_answer",
    "C62_message_object",
    "C62_rotation_object"
   ],
   "note": "JSON as values printed without white space. That JavaScript keeps numbers as doubles is not modelled; a service type that is not a string is taken as an error."
  },
  {
   "property": "C63",
   "status": "proved",
   "theorems": [
    "C63_document_roundtrip",
    "C63_secret_roundtrip",
    "C63_message_value",
    "C63_prior_value"
   ],
   "note": "For documents, secrets and messages that JSON can express (valid Unicode, numbers in range, nesting limits); writing a service of another type fails unless its value is an object."
  },
  {
   "property": "C64",
   "status": "partial",
   "theorems": [
    "C64_unknown_types_refuted",
    "C64_unknown_members_partial",
    "C64_unknown_secret_members_partial"
   ],
   "note": "False: an unknown service type or key type makes the whole document unreadable (witnesses). Proved: unknown members of documents and secrets change nothing."
  },
  {
   "property": "C65",
   "status": "partial",
   "theorems": [
    "C65_declared_spelling_refuted",
    "C65_camel_spelling_partial"
   ],
   "note": "False: the declared name routing_keys is ignored and the message goes out unwrapped (witness). Proved: the name routingKeys is honoured."
  },
  {
   "property": "C66",
   "status": "proved",
   "theorems": [
    "C66_rotation_key",
    "C66_unpack_shown",
    "C66_unpack_error",
    "C66_pack_shown",
    "C66_pack_error",
    "C66_signed_shown",
    "C66_forward_shown"
   ],
   "note": "The metadata object is the JSON text that is passed to JSON.parse."
  },
  {
   "property": "C67",
   "status": "proved",
   "theorems": [
    "C67_unpack_options",
    "C67_pack_options_sound",
    "C67_pack_options_complete",
    "C67_malformed"
   ],
   "note": "Objects printed without white space; the array form that serde also accepts is covered by totality only."
  },
  {
   "property": "C68",
   "status": "partial",
   "theorems": [
    "C68_declared_headers_refuted",
    "C68_pairs_refused",
    "C68_object_headers_partial"
   ],
   "note": "False: an array of pairs is refused, always (witness and theorem). Proved: an object is taken."
  },
  {
   "property": "C69",
   "status": "proved",
   "theorems": [
    "C69_wrap_in_forward"
   ],
   "note": "The arguments are JSON texts as JSON.stringify gives them."
  },
  {
   "property": "C70",
   "status": "proved",
   "theorems": [
    "C70_unpack_resolves_named",
    "C70_pack_resolves_named"
   ],
   "note": ""
  },
  {
   "property": "C71",
   "status": "proved",
   "theorems": [
    "C71_pack_own_secrets",
    "C71_pack_reported_secrets",
    "C71_anonymous_needs_no_secret"
   ],
   "note": ""
  },
  {
   "property": "C72",
   "status": "proved",
   "theorems": [
    "C72_unpack_depends_on_named",
    "C72_pack_depends_on_named"
   ],
   "note": "Agreement is only required on what the text names as seen with the first environment; random values are part of the environment."
  },
  {
   "property": "C73",
   "status": "proved",
   "theorems": [
    "C73_unpack_errors_true",
    "C73_unpack_unresolved",
    "C73_pack_errors_true",
    "C73_pack_answers_reported"
   ],
   "note": "Malformed, InvalidState and Unsupported carry no claim here (C38 is about them, C60 and C61 say when there is no error)."
  },
  {
   "property": "C74",
   "status": "partial",
   "theorems": [
    "C74_pack_illegal_argument_refuted",
    "C74_unpack_illegal_argument_refuted",
    "C74_pack_illegal_argument_partial",
    "C74_unpack_illegal_argument_partial"
   ],
   "note": "False: a multibase key of the wrong kind in the document of the other party gives IllegalArgument (witnesses for packing and unpacking). Proved: that is the only other reason."
  },
  {
   "property": "C75",
   "status": "proved",
   "theorems": [
    "C75_reports_are_results",
    "C75_answers_once",
    "C75_calls_apart"
   ],
   "note": "A poll of the executor is split into single steps. The uniffi glue that converts arguments is not modelled."
  },
  {
   "property": "C76",
   "status": "partial",
   "theorems": [
    "C76_always_reports_refuted",
    "C76_always_reports_partial"
   ],
   "note": "False: wrap_in_forward without routing keys panics in the task and its callback is never called. Proved: otherwise a report, an unanswered request, or such a panic."
  },
  {
   "property": "C77",
   "status": "proved",
   "theorems": [
    "C77_sealed_honest",
    "C77_sealing_inputs"
   ],
   "note": "The assumption on the primitives (only_sealed) is a hypothesis about what opens under keys seen in the execution; a concrete case is given."
  },
  {
   "property": "C78",
   "status": "partial",
   "theorems": [
    "C78_addressed_refuted",
    "C78_addressed_partial"
   ],
   "note": "False: Bob re-encrypts for a mediator what Alice signed for Bob, and it is accepted with non_repudiation. Proved for every message that pack_encrypted made."
  },
  {
   "property": "C79",
   "status": "partial",
   "theorems": [
    "C79_expiry_refuted",
    "C79_honest_times_partial"
   ],
   "note": "False: there is no clock; a message and a rotation whose times admit no moment are accepted. Proved: the reported times are those that the key's owner signed."
  },
  {
   "property": "C80",
   "status": "partial",
   "theorems": [
    "C80_epk_curve_refuted",
    "C80_epk_curve_partial"
   ],
   "note": "False for a key import that ignores kty and crv (the library itself does not compare them). Proved for one that checks them."
  },
  {
   "property": "C81",
   "status": "partial",
   "theorems": [
    "C81_one_party_refuted",
    "C81_one_party_partial"
   ],
   "note": "False, and pack_encrypted makes such messages. Proved when both keys were only used for messages from their own DID and the message has a from header."
  },
  {
   "property": "C82",
   "status": "proved",
   "theorems": [
    "C82_unwrap_by_hand"
   ],
   "note": "Resolvers are functions here (run), so that the two calls see the same answers."
  },
  {
   "property": "C83",
   "status": "proved",
   "theorems": [
    "C83_js_encrypted",
    "C83_js_signed",
    "C83_js_plaintext",
    "C83_js_rotation"
   ],
   "note": ""
  },
  {
   "property": "C84",
   "status": "partial",
   "theorems": [
    "C84_received_cross",
    "C84_accepted_again",
    "C84_accepted_readable_refuted",
    "C84_accepted_readable_partial"
   ],
   "note": "The last sentence is false: a body nested 127 deep is accepted at the border and packed, and unpack then refuses the text, because the body is one level further down there (C84_accepted_readable_refuted). It is proved for all other accepted bodies (C84_accepted_readable_partial)."
  },
  {
   "property": "C85",
   "status": "partial",
   "theorems": [
    "C85_object_roundtrip_refuted",
    "C85_object_floats_refuted",
    "C85_object_roundtrip_partial",
    "C85_safe_integers",
    "C85_prior_object"
   ],
   "note": "False in full: an integer above 2^53 comes back as its neighbour without an error, and a float like 1.0 as an integer (both refuted for every conversion of numbers obeying the laws of JavaScript). Proved when every number in the message survives, in particular for integers up to 2^53 in magnitude; the order of members and repeated members never matter."
  },
  {
   "property": "C86",
   "status": "proved",
   "theorems": [
    "C86_plaintext",
    "C86_signed",
    "C86_prior_pack",
    "C86_prior_unpack",
    "C86_wrap",
    "C86_prior_unpack_depends",
    "C86_plaintext_depends",
    "C86_wrap_depends"
   ],
   "note": "One theorem per call, plus independence from all other answers for the calls that need no secrets. IllegalArgument may also be raised for multibase keys obtained from a resolver, as in C74."
  },
  {
   "property": "C87",
   "status": "proved",
   "theorems": [
    "C87_unpack",
    "C87_pack_encrypted",
    "C87_pack_signed",
    "C87_pack_plaintext",
    "C87_from_prior",
    "C87_wrap"
   ],
   "note": "The bound for unpack counts every call to the resolvers; the bounds for packing are reached in the concrete case. The hypothesis on find_secrets is about the caller's own resolver: with all keys expected, the crate asks get_secret for every key reported."
  },
  {
   "property": "C88",
   "status": "proved",
   "theorems": [
    "C88_deniable",
    "C88_self_accepted"
   ],
   "note": "C88_deniable exhibits the recipient's way of writing (self_written, Spec/Deny.v) and shows it gives the very text; C88_self_accepted shows that what is so written is accepted for any message."
  },
  {
   "property": "C89",
   "status": "proved",
   "theorems": [
    "C89_put_on",
    "C89_taken_off",
    "C89_not_senders_choice"
   ],
   "note": "C89_put_on and C89_taken_off for the two directions; C89_not_senders_choice is the concrete consequence: Alice packs without protect_sender, somebody without secrets covers the text, and Bob is told of an anonymous sender."
  },
  {
   "property": "C90",
   "status": "proved",
   "theorems": [
    "C90_unpack",
    "C90_signed",
    "C90_prior",
    "C90_packed",
    "C90_secretless"
   ],
   "note": "C90_unpack, C90_signed, C90_prior, C90_packed (relative to keys that act alike in the permitted primitives), C90_secretless (arbitrary secrets). Error texts are not modelled, so a leak through an error message text is not excluded."
  },
  {
   "property": "C91",
   "status": "proved",
   "theorems": [
    "C91_insiders",
    "C91_wrapping_inputs"
   ],
   "note": "C91_insiders: stated over what the sender encrypted and wrapped (two conditions on the primitives: only_wrapped, tag_commits); C91_wrapping_inputs: the sender side, by replacing the key wrapping outside of those inputs. C91_case shows an insider's text refused with the tag in the key agreement and accepted without. For anoncrypt the statement is false, see C89."
  },
  {
   "property": "C92",
   "status": "proved",
   "theorems": [
    "C92_layers",
    "C92_mediator_view",
    "C92_network_view"
   ],
   "note": "C92_layers: how the layers are put on, in both directions. C92_mediator_view, C92_network_view: replace the message, the recipient and the further mediators, with a content encryption that gives the same for the text encrypted for the (second, resp. first) mediator: the same forward message is read, the same text comes out."
  },
  {
   "property": "C93",
   "status": "partial",
   "theorems": [
    "C93_devices_agree_partial",
    "C93_all_keys_stricter_partial",
    "C93_devices_agree_refuted",
    "C93_all_keys_stricter_refuted"
   ],
   "note": "False for ciphers that can open one ciphertext under two keys to two texts (A256GCM and XC20P are of that kind): the library compares neither content keys nor texts (both refuted with a witness). Proved for ciphers that cannot (committing), forwards included when both devices hold keys of the same hops."
  },
  {
   "property": "C94",
   "status": "proved",
   "theorems": [
    "C94_readable",
    "C94_signed_readable",
    "C94_token_readable"
   ],
   "note": "Both directions, for anoncrypt, authcrypt with and without protect_sender, signed or not, and for signed messages and rotation tokens. A document that mixes keys of two DIDs is the case shown: packed, unreadable."
  },
  {
   "property": "C95",
   "status": "proved",
   "theorems": [
    "C95_accepted_iff",
    "C95_others_rejected",
    "C95_one_key",
    "C95_valid_acceptable"
   ],
   "note": "Both directions, in Spec/Accept.v's terms (what the layers are, said of the directory and the secrets, not of the run). The `exists` in C95_accepted_iff ranges over the orders in which the secrets resolver may report keys; C95_one_key removes it. Witness: a text acceptable as two different messages."
  },
  {
   "property": "C96",
   "status": "proved",
   "theorems": [
    "C96_utf8",
    "C96_value",
    "C96_only_json",
    "C96_not_json",
    "C96_white_space"
   ],
   "note": "The grammar (Spec/Grammar.v) is written from RFC 8259 and RFC 3629 and shares no definition with the parser of the model except the bytes. Conversion of number texts to floats is a parameter. The 127 containers are serde_json's recursion limit."
  },
  {
   "property": "C97",
   "status": "partial",
   "theorems": [
    "C97_message",
    "C97_document",
    "C97_secret",
    "C97_rotation",
    "C97_options",
    "C97_encrypted_partial",
    "C97_signed_partial",
    "C97_headers_partial",
    "C97_unpacked_alike_partial",
    "C97_plaintext_partial",
    "C97_needless_escape_refuted"
   ],
   "note": "Messages, documents, secrets, rotations and options: proved for every spelling. Envelopes: false in full, because fields borrowed from the text (kid, protected, iv, ...) are refused when their string is written with an escape, even one that is not needed (C97_needless_escape_refuted: an encrypted envelope whose kid is written with \\u003a for the colon is not readable); proved for all spellings without needless escapes."
  },
  {
   "property": "C98",
   "status": "proved",
   "theorems": [
    "C98_unpack_cause",
    "C98_pack_cause",
    "C98_signed_cause",
    "C98_plain_cause",
    "C98_token_cause",
    "C98_token_read_cause"
   ],
   "note": "Complements C73 and C74, which cover the other kinds. Malformed from unpack is left open here; which texts are accepted is C95."
  },
  {
   "property": "C99",
   "status": "proved",
   "theorems": [
    "C99_packed_size",
    "C99_signed_size",
    "C99_layer_size",
    "C99_third",
    "C99_same_size"
   ],
   "note": "Hypotheses: sizes of results of the primitives (sized); key ids in documents are UTF-8 text, as every Rust string is. The exact size is stated for the text to the recipient and for one forwarding layer; several layers follow by C92_layers. C99_same_size covers all of it."
  },
  {
   "property": "C100",
   "status": "proved",
   "theorems": [
    "C100_plaintext",
    "C100_signed",
    "C100_token",
    "C100_encrypted",
    "C100_forward"
   ],
   "note": "Every run, any order in which the secrets are found. The order matters (C100_case: one key list, two orders, one of them fails); C61 gives conditions that do not depend on it."
  },
  {
   "property": "C101",
   "status": "partial",
   "theorems": [
    "C101_shown_partial",
    "C101_packed",
    "C101_token",
    "C101_shown_refuted"
   ],
   "note": "The full statement is false: a text with the members of a JWS and of a JWE is read as a JWS inside an authcrypt envelope and as a JWE on its own (C101_shown_refuted: Bob is told that Alice signed one message, a mediator reads another one in the signed message, unsigned). C101_shown_partial says exactly when it holds."
  },
  {
   "property": "C102",
   "status": "partial",
   "theorems": [
    "C102_read_again_partial",
    "C102_valid_again_partial",
    "C102_more_keys",
    "C102_anonymous",
    "C102_read_again_refuted"
   ],
   "note": "The full statement is false of the code: the sender's document is consulted for the key, and a key that is no longer listed is refused with DIDUrlNotFound (C102_read_again_refuted). The _partial theorems say under which changes it holds; C102_more_keys and C102_anonymous are the cases without a condition on the sender."
  },
  {
   "property": "C103",
   "status": "proved",
   "theorems": [
    "C103_ciphers",
    "C103_key_wrap",
    "C103_lawful",
    "C103_working",
    "C103_sized",
    "C103_shrinks",
    "C103_delivered"
   ],
   "note": "The algorithms are those of the standards as written in Spec/Sha2, Aes, Chacha and Ciphers (the test vectors of the repository run through them in Tests), not askar-crypto's code. Agreement of X25519 and P-256 and correctness of signatures stay assumptions (keys_agree)."
  },
  {
   "property": "C104",
   "status": "partial",
   "theorems": [
    "C104_cut_off_partial",
    "C104_packed_partial",
    "C104_only_cut_off",
    "C104_cut_off_refuted"
   ],
   "note": "Partial because of the plain messages named in the statement, for which C104_cut_off_refuted gives a witness."
  },
  {
   "property": "C105",
   "status": "partial",
   "theorems": [
    "C105_vouched_refuted",
    "C105_packing_blind",
    "C105_reading_blind",
    "C105_signed_partial"
   ],
   "note": "The full statement is refuted by C105_vouched_refuted: a plaintext message with a forged jws is accepted without any key being looked up. C105_packing_blind and C105_reading_blind say that replacing all attachments changes neither events nor outcome nor metadata (stated for plaintext; the other forms wrap the same text). C105_signed_partial covers attachments of signed messages only."
  }
 ]
}