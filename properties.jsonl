{"id": "C01", "title": "Plaintext pack/unpack round trip", "statement": "If Message::pack_plaintext succeeds on a well-formed message (typ is the plaintext one, custom header names neither reserved nor imitating an envelope, JSON not nested beyond what serde_json reads), then Message::unpack of the returned text yields exactly that message, and the metadata reports no encryption, no signature and no authentication.", "quantifier": "every well-formed message (any body JSON, attachments, extra headers in any HashMap order), every DID resolver", "why_tests_cant": "The message body and headers range over arbitrary JSON; example tests only cover a handful of vectors.", "anchors": ["src/message/pack_plaintext.rs: Message::pack_plaintext", "src/message/unpack/mod.rs: Message::unpack", "src/message/message.rs: Message"]}
{"id": "C02", "title": "Signed pack/unpack round trip", "statement": "If Message::pack_signed succeeds on a well-formed message, unpack of the returned text yields the same message with authenticated and non_repudiation set, sign_from equal to the sign_by_kid reported by pack, sign_alg matching that key's curve and signed_message equal to the packed text.", "quantifier": "every message, every signer DID or key id, every resolver pair in which the published key matches the secret, every signature scheme satisfying verify(sign)=true", "why_tests_cant": "Quantifies over all messages, keys and DID documents.", "anchors": ["src/message/pack_signed.rs: Message::pack_signed", "src/message/unpack/sign.rs: _try_unpack_sign", "src/jws/sign.rs", "src/jws/verify.rs"]}
{"id": "C03", "title": "Anoncrypt round trip", "statement": "If pack_encrypted without `from` succeeds on a well-formed message (any content encryption algorithm, with or without signature; not handed to a mediator, for which see C05), every recipient key listed in the returned to_kids can be used to unpack the text to the same message, with encrypted and anonymous_sender set and the algorithm reported as chosen.", "quantifier": "every message, recipient DID document, algorithm option, random choices, and every holder of any one recipient secret", "why_tests_cant": "All keys, all documents, all random values; tests use fixed vectors.", "anchors": ["src/message/pack_encrypted/anoncrypt.rs: anoncrypt", "src/message/unpack/anoncrypt.rs: _try_unpack_anoncrypt", "src/jwe/encrypt.rs", "src/jwe/decrypt.rs"]}
{"id": "C04", "title": "Authcrypt round trip", "statement": "If pack_encrypted with `from` succeeds on a well-formed message (with or without protect_sender, with or without signature; not handed to a mediator), every recipient key in to_kids unpacks the text to the same message; encrypted_from_kid is the reported from_kid, authenticated is set and anonymous_sender is set exactly when protect_sender was requested.", "quantifier": "every message, both DID documents, every option combination, all random values, every recipient key", "why_tests_cant": "Combination of all options and documents is unbounded.", "anchors": ["src/message/pack_encrypted/authcrypt.rs: authcrypt", "src/message/unpack/authcrypt.rs: _try_unpack_authcrypt"]}
{"id": "C05", "title": "Forward onion delivers the message", "statement": "Wrapping an encrypted message in forward envelopes for a list of routing keys and peeling them one by one, each with the corresponding routing key, yields at every hop a forward message whose `next` is the following hop (finally the recipient), and in the end exactly the original encrypted message.", "quantifier": "every encrypted message, every non-empty list of routing keys of any length, all random values", "why_tests_cant": "Arbitrary number of mediators needs induction.", "anchors": ["src/protocols/routing/mod.rs: wrap_in_forward, build_forward_message, try_parse_forward"]}
{"id": "C06", "title": "Unpack metadata is internally consistent", "statement": "Whenever unpack succeeds, encrypted holds exactly when encrypted_to_kids is present; non_repudiation exactly when sign_from, sign_alg and signed_message are present; authenticated exactly when encrypted_from_kid or sign_from is present; anonymous_sender exactly when enc_alg_anon is present; from_prior is present exactly when from_prior_issuer_kid is.", "quantifier": "every input text, every resolver behaviour (including inconsistent answers over time), every option", "why_tests_cant": "An invariant over all inputs and adversarial resolvers.", "anchors": ["src/message/unpack/mod.rs: UnpackMetadata", "src/message/unpack/*.rs"]}
{"id": "C07", "title": "A reported signature was verified with a published authentication key", "statement": "If unpack succeeds with sign_from = kid then signed_message is a JWS with exactly one signature whose kid is that kid, the DID of the kid was resolved to a document that lists kid under authentication and holds a key for it, the signature verifies under that key over exactly `protected.payload`, and the returned message is the one decoded from that payload.", "quantifier": "every input text, every adversarially chosen JWS, every resolver behaviour", "why_tests_cant": "Soundness against all adversarial inputs.", "anchors": ["src/message/unpack/sign.rs", "src/jws/verify.rs", "src/jws/parse.rs"]}
{"id": "C08", "title": "A reported authcrypt sender key was really used", "statement": "If unpack succeeds with encrypted_from_kid = kid then the DID of kid was resolved to a document listing kid under keyAgreement and the plaintext was decrypted with a key derived by ECDH-1PU from that published key, a recipient secret returned by the secrets resolver, the envelope's ephemeral key, apu, apv and tag, with the protected header as associated data.", "quantifier": "every input text, every resolver behaviour", "why_tests_cant": "Soundness against all adversarial inputs.", "anchors": ["src/message/unpack/authcrypt.rs", "src/jwe/decrypt.rs"]}
{"id": "C09", "title": "Signed messages cannot be altered or mixed up with rotation JWTs", "statement": "If the only strings ever signed with a key are those signed by pack_signed for a set of messages and by FromPrior::pack for a set of rotations, then any text that unpack accepts as signed by that key yields one of exactly those messages.", "quantifier": "every attacker-supplied text, every set of honestly signed messages and rotations", "why_tests_cant": "Quantifies over all attacker texts and all signing histories.", "anchors": ["src/message/unpack/sign.rs", "src/message/pack_signed.rs", "src/message/from_prior/pack.rs", "src/jws/verify.rs"]}
{"id": "C10", "title": "Recipient list is bound by apv", "statement": "An encrypted envelope is accepted only if the decoded apv equals SHA-256 of the recipients' key ids sorted and joined with dots; any other apv is rejected as Malformed before a resolver is asked. So, if SHA-256 does not collide, no key id can be added, removed or renamed (key ids being DID URLs with one #), while the order of recipients is irrelevant.", "quantifier": "every envelope and every modified recipient list", "why_tests_cant": "All recipient lists of any length.", "anchors": ["src/jwe/parse.rs: verify_didcomm", "src/jwe/encrypt.rs"]}
{"id": "C11", "title": "Sender identity in the envelope is consistent", "statement": "An authcrypt envelope is accepted only if apu is present and is UTF-8, and a present skid equals the decoded apu; the reported encrypted_from_kid is the decoded apu. An anoncrypt envelope carrying an apu is never decrypted.", "quantifier": "every envelope", "why_tests_cant": "All header combinations.", "anchors": ["src/jwe/parse.rs: verify_didcomm", "src/jwe/decrypt.rs", "src/message/unpack/authcrypt.rs"]}
{"id": "C12", "title": "Unpack only asks for secrets of addressed keys", "statement": "During unpack, find_secrets is only ever called with the key ids listed in the envelope being opened (or, when re-wrapped forwards are unwrapped, the keyAgreement ids of the `next` document or `next` itself), and get_secret only with ids find_secrets returned.", "quantifier": "every input, every resolver behaviour, every prefix of an execution", "why_tests_cant": "A statement about all call traces.", "anchors": ["src/message/unpack/anoncrypt.rs", "src/message/unpack/authcrypt.rs", "src/message/unpack/mod.rs: has_key_agreement_secret"]}
{"id": "C13", "title": "All recipients of an envelope belong to one DID", "statement": "unpack rejects, with Malformed, any encrypted envelope whose recipient list is empty, contains a key id without fragment, or mixes key ids of different DIDs, before touching the secrets resolver (for authcrypt the sender DID is resolved first and a failure to do so may be reported instead).", "quantifier": "every recipient list", "why_tests_cant": "Lists of any length.", "anchors": ["src/message/unpack/anoncrypt.rs", "src/message/unpack/authcrypt.rs"]}
{"id": "C14", "title": "Pack arguments are validated before any side effect", "statement": "pack_encrypted returns IllegalArgument without calling any resolver or drawing randomness when `to`, `from` or `sign_by` is not a DID, when message.to does not contain the recipient DID, or when message.from is not the DID of `from`; otherwise argument validation passes.", "quantifier": "every message and every argument combination", "why_tests_cant": "All strings.", "anchors": ["src/message/pack_encrypted/mod.rs: _validate_pack_encrypted"]}
{"id": "C15", "title": "Recipient key selection", "statement": "A successful anonymous pack encrypts exactly to those keyAgreement keys of the recipient document (or exactly to the requested key id) that have the algorithm of the first supported key, in document order, and to_kids reports exactly these ids.", "quantifier": "every DID document, every recipient argument", "why_tests_cant": "All documents.", "anchors": ["src/message/pack_encrypted/anoncrypt.rs"]}
{"id": "C16", "title": "Sender and recipient key negotiation for authcrypt", "statement": "A successful authenticated pack uses the first sender keyAgreement key that has a local secret and shares a supported curve with some recipient key, and encrypts exactly to the recipient keys on that curve; if no held sender key and recipient key have the same recognised algorithm it fails with NoCompatibleCrypto.", "quantifier": "every pair of DID documents, every set of available secrets", "why_tests_cant": "All pairs of documents.", "anchors": ["src/message/pack_encrypted/authcrypt.rs"]}
{"id": "C17", "title": "Signing key selection", "statement": "pack_signed signs with the first authentication key of the signer document (or exactly the requested key) for which the secrets resolver reports a secret; a key outside authentication is never used, absence of a secret gives SecretNotFound.", "quantifier": "every DID document, every sign_by argument, every secrets resolver", "why_tests_cant": "All documents and resolvers.", "anchors": ["src/message/pack_signed.rs"]}
{"id": "C18", "title": "Only plaintext-typed messages are returned", "statement": "Whatever the envelope, a message returned by unpack has typ application/didcomm-plain+json (the default when absent); any other typ is rejected as Malformed.", "quantifier": "every input text, every resolver behaviour", "why_tests_cant": "All inputs.", "anchors": ["src/message/message.rs: Message::from_str, validate", "src/message/unpack/plaintext.rs"]}
{"id": "C19", "title": "Unpack terminates: re-wrapped forwards shrink", "statement": "unpack performs only finitely many iterations: with an AEAD whose plaintext is no longer than the ciphertext, the number of forward layers unwrapped is bounded by the length of the received ciphertext.", "quantifier": "every input text, every resolver behaviour", "why_tests_cant": "Termination for all inputs.", "anchors": ["src/message/unpack/mod.rs: Message::unpack loop, _try_unwrap_forwarded_message"]}
{"id": "C20", "title": "pack/unpack never panic on well-formed secrets", "statement": "unpack, pack_signed, pack_encrypted, FromPrior::pack and FromPrior::unpack return Ok or Err and do not panic, for any text, documents and options, as long as the resolvers do not panic and do not hand out Ed25519 secrets of fewer than 32 bytes (base58) or 34 bytes (multibase).", "quantifier": "every input, every resolver behaviour", "why_tests_cant": "Absence of panics over all inputs.", "anchors": ["src/utils/did.rs: Secret::as_key_pair (split_at(32))", "src/message/unpack/mod.rs", "src/message/pack_signed.rs"]}
{"id": "C21", "title": "wrap_in_forward is total", "statement": "The public wrap_in_forward returns Ok or Err for every list of routing keys, including the empty list.", "quantifier": "every message, header map and routing key list", "why_tests_cant": "All lists.", "anchors": ["src/protocols/routing/mod.rs: wrap_in_forward"]}
{"id": "C22", "title": "DID rotation round trip", "statement": "If FromPrior::pack succeeds, FromPrior::unpack of the JWT yields the same iss, sub, aud, exp, nbf, iat, jti and the same issuer key id.", "quantifier": "every FromPrior value, issuer document and key", "why_tests_cant": "All values.", "anchors": ["src/message/from_prior/pack.rs", "src/message/from_prior/unpack.rs"]}
{"id": "C23", "title": "Rotation JWT soundness", "statement": "If FromPrior::unpack succeeds, the JWT has typ JWT, the kid is a DID URL, its DID was resolved to a document that lists it under authentication, and the signature over `header.payload` verifies under the published key.", "quantifier": "every JWT text, every resolver behaviour", "why_tests_cant": "All adversarial texts.", "anchors": ["src/message/from_prior/unpack.rs"]}
{"id": "C24", "title": "Rotation issuer is bound to the signing key", "statement": "If unpack returns a from_prior, its iss is the DID of from_prior_issuer_kid and its sub equals the message's from.", "quantifier": "every input text", "why_tests_cant": "All adversarial texts.", "anchors": ["src/message/from_prior/unpack.rs", "src/message/unpack/plaintext.rs"]}
{"id": "C25", "title": "Packing refuses inconsistent rotations", "statement": "pack_plaintext (and therefore pack_signed and pack_encrypted) succeeds on a message with from_prior only if the JWT verifies, iss and sub are distinct DIDs without fragment, the JWT's kid is a key id of iss, and sub equals message.from when that is present.", "quantifier": "every message and JWT", "why_tests_cant": "All combinations.", "anchors": ["src/message/pack_plaintext.rs", "src/message/from_prior/pack.rs: validate_pack"]}
{"id": "C26", "title": "Authenticated sender matches the from header", "statement": "If unpack reports authenticated, then message.from, when present, is the DID of encrypted_from_kid or sign_from.", "quantifier": "every input text", "why_tests_cant": "All adversarial messages.", "anchors": ["src/message/unpack/mod.rs", "src/message/unpack/authcrypt.rs", "src/message/unpack/sign.rs"]}
{"id": "C27", "title": "Service chain resolution is bounded and faithful", "statement": "Resolving the service chain of a recipient performs at most one resolution beyond the recipient's own, never loops on cyclic endpoints, and yields the recipient's selected service preceded by the mediator's service when the endpoint is a DID; a deeper chain is an InvalidState error.", "quantifier": "every DID resolver, including cyclic documents", "why_tests_cant": "Cyclic and adversarial documents.", "anchors": ["src/protocols/routing/mod.rs: resolve_did_comm_services_chain, find_did_comm_service"]}
{"id": "C28", "title": "Forward wrapping decision and metadata", "statement": "pack_encrypted wraps in forward exactly when forward is requested and the selected service chain has routing keys; the reported messaging service is the recipient's service id and the uri of the outermost service; otherwise the encrypted message is returned unwrapped with no messaging service.", "quantifier": "every option, document and resolver", "why_tests_cant": "All documents.", "anchors": ["src/protocols/routing/mod.rs: wrap_in_forward_if_needed", "src/message/pack_encrypted/mod.rs"]}
{"id": "C29", "title": "Forward parsing inverts forward building", "statement": "try_parse_forward of any message built by the forward builder returns the same next and the same forwarded JSON; it returns None for every message whose type is not the forward type, or without a string next, or without a JSON attachment in first position.", "quantifier": "every message", "why_tests_cant": "All messages.", "anchors": ["src/protocols/routing/mod.rs: build_forward_message, try_parse_forward"]}
{"id": "C30", "title": "Re-wrapped forwards are only unwrapped on request", "statement": "With unwrap_re_wrapping_forward off, unpacking an encrypted forward returns the forward message itself and re_wrapped_in_forward is false; with it on, the forward is opened exactly when a local secret for `next` exists.", "quantifier": "every forward message, every resolver behaviour", "why_tests_cant": "All inputs.", "anchors": ["src/message/unpack/mod.rs"]}
{"id": "C31", "title": "expect_decrypt_by_all_keys semantics", "statement": "With expect_decrypt_by_all_keys, unpack succeeds only if decryption succeeds with every recipient key for which the resolver reports a secret; without it, only the first such key is tried.", "quantifier": "every envelope, every set of secrets", "why_tests_cant": "All sets of keys.", "anchors": ["src/message/unpack/anoncrypt.rs", "src/message/unpack/authcrypt.rs"]}
{"id": "C32", "title": "All keys see the same plaintext", "statement": "With expect_decrypt_by_all_keys, if unpack succeeds all recipient keys decrypt the envelope to the same plaintext.", "quantifier": "every envelope, including maliciously built ones", "why_tests_cant": "Malicious envelopes.", "anchors": ["src/message/unpack/anoncrypt.rs", "src/message/unpack/authcrypt.rs"]}
{"id": "C33", "title": "Key representations are interchangeable", "statement": "For X25519 and Ed25519 verification methods, publishing the same public key bytes as JWK, as Base58 (2019/2018 types) or as Multibase with its multicodec (2020 types) yields the same key.", "quantifier": "every public key byte string", "why_tests_cant": "All byte strings; needs base58, varint and base64 correctness.", "anchors": ["src/utils/did.rs: VerificationMethod::as_key_pair, _from_multicodec"]}
{"id": "C34", "title": "base64url without padding is lossless and canonical", "statement": "Decoding an encoded byte string returns it; any accepted text without padding characters is the encoding of its result.", "quantifier": "every byte string, every text", "why_tests_cant": "All byte strings.", "anchors": ["src/jwe/encrypt.rs", "src/jwe/parse.rs", "src/jws/sign.rs", "src/jws/parse.rs"]}
{"id": "C35", "title": "JSON serialisation is lossless", "statement": "Any JSON value within serde_json's nesting limit, printed compactly and parsed again, is unchanged.", "quantifier": "every JSON value (strings of any UTF-8 content, numbers in range)", "why_tests_cant": "All JSON values.", "anchors": ["src/message/message.rs: serde derives", "src/message/attachment.rs"]}
{"id": "C36", "title": "Header names never break a packed message", "statement": "A message built with MessageBuilder (any extra header names) that packs successfully can be unpacked again.", "quantifier": "every header name", "why_tests_cant": "All header names.", "anchors": ["src/message/message.rs: MessageBuilder::header, extra_headers flatten"]}
{"id": "C37", "title": "Key ids survive the envelope", "statement": "A message packed for any key id in a DID document can be unpacked by the holder of that key.", "quantifier": "every key id string", "why_tests_cant": "All strings, including those needing JSON escapes.", "anchors": ["src/jwe/envelope.rs", "src/jws/envelope.rs (borrowed &str)"]}
{"id": "C38", "title": "Rejected input is reported as Malformed", "statement": "A text that is no valid DIDComm message is rejected by unpack with Malformed, not with an internal error kind.", "quantifier": "every input text, including every truncation of a valid message", "why_tests_cant": "All prefixes of all messages.", "anchors": ["src/error.rs: ToResult for serde_json::Error", "src/message/unpack/*.rs"]}
{"id": "C39", "title": "protect_sender hides the sender", "statement": "With protect_sender, the returned text is an ECDH-ES envelope with neither skid nor apu, and depends on sender identity and message only through the output of the content encryption.", "quantifier": "every message, sender and recipient", "why_tests_cant": "All senders and messages.", "anchors": ["src/message/pack_encrypted/authcrypt.rs", "src/jwe/encrypt.rs"]}
{"id": "C40", "title": "Encryption depends on the plaintext only through the AEAD", "statement": "Two messages whose content encryption results coincide give the same packed text: nothing of the plaintext leaks beside the AEAD output.", "quantifier": "every pair of plaintexts, every crypto implementation", "why_tests_cant": "All pairs of messages.", "anchors": ["src/jwe/encrypt.rs: encrypt"]}
{"id": "C41", "title": "Fresh key material for every envelope", "statement": "Each encryption layer draws its own ephemeral key, content key and nonce exactly once; one pack call never uses the same drawn value in two envelopes.", "quantifier": "every execution, any number of forward layers", "why_tests_cant": "All executions.", "anchors": ["src/jwe/encrypt.rs", "src/protocols/routing/mod.rs"]}
{"id": "C42", "title": "Concurrent calls do not interfere", "statement": "Any interleaving of the resolver calls of any number of concurrent pack/unpack calls gives each call the same result as running it alone, for resolvers whose answers do not depend on the order of calls; dropping some of the calls midway does not change the others.", "quantifier": "every schedule, every number of calls, every cancellation point", "why_tests_cant": "All schedules.", "anchors": ["src/message/**: async fns", "src/did/resolvers", "src/secrets/resolvers"]}
{"id": "C43", "title": "Example resolvers honour the resolver contract", "statement": "ExampleDIDResolver returns the first document with the requested id; ExampleSecretsResolver.find_secrets returns exactly the requested ids that are stored, in request order, and get_secret answers for exactly those.", "quantifier": "every stored list, every query", "why_tests_cant": "All lists.", "anchors": ["src/did/resolvers/example.rs", "src/secrets/resolvers/example.rs"]}
{"id": "C44", "title": "Message builder laws", "statement": "Builder setters overwrite, `to`/`to_many`/`attachment`/`attachments` append in order, header(k,v) makes k map to v and leaves other headers alone, independent setters commute, and finalize produces a message with typ application/didcomm-plain+json and no field not set.", "quantifier": "every sequence of builder calls", "why_tests_cant": "All call sequences.", "anchors": ["src/message/message.rs: MessageBuilder", "src/message/attachment.rs: AttachmentBuilder", "src/message/from_prior/mod.rs: FromPriorBuilder"]}
{"id": "C45", "title": "DID / DID URL splitting", "statement": "did_or_url returns the part before the first # as the DID and the whole string as URL exactly when a # occurs; is_did accepts exactly strings of at least three colon-separated parts the first of which is `did`; a key id of a DID is itself accepted as a DID argument.", "quantifier": "every string", "why_tests_cant": "All strings.", "anchors": ["src/utils/did.rs: is_did, did_or_url"]}
{"id": "C46", "title": "Callback delivery is at most once", "statement": "For any sequence of success and error calls on a uniffi OnDIDResolverResult / OnGetSecretResult / OnFindSecretsResult object, exactly the first delivers, every later call gets InvalidState and changes nothing, and the awaiting side receives exactly the first answer.", "quantifier": "every sequence of calls", "why_tests_cant": "All call sequences.", "anchors": ["uniffi/src/common.rs: OnResult"]}
{"id": "C47", "title": "Foreign resolvers are filtered", "statement": "The uniffi and wasm adapters hand the core only secret ids that were requested, whatever the foreign code returns.", "quantifier": "every foreign answer", "why_tests_cant": "All answers.", "anchors": ["uniffi/src/secrets_resolver_adapter.rs", "wasm/src/secrets/secrets_resolver.rs"]}
{"id": "C48", "title": "Error kinds survive the JavaScript boundary", "statement": "An error converted to its JavaScript form and back keeps its kind.", "quantifier": "every error kind", "why_tests_cant": "Must hold for all kinds.", "anchors": ["wasm/src/error.rs: FromJsResult, as_js"]}
{"id": "C49", "title": "Resolver failures are reported with their own kind", "statement": "When a DID or secrets resolver call made by pack or unpack fails, the call fails with the kind reported by the resolver.", "quantifier": "every call, every failing resolver call in it, every kind", "why_tests_cant": "All failure points.", "anchors": ["src/message/**", "src/error.rs: ResultExt::kind/context", "uniffi/src/*_adapter.rs"]}
{"id": "C50", "title": "Default options agree across construction paths", "statement": "UnpackOptions::default() and options deserialised from an empty JSON object are the same, and likewise for PackEncryptedOptions.", "quantifier": "all option fields", "why_tests_cant": "A statement about two code paths agreeing on every field.", "anchors": ["src/message/unpack/mod.rs: UnpackOptions", "src/message/pack_encrypted/mod.rs: PackEncryptedOptions"]}
{"id": "C51", "title": "A usable recipient key is always found", "statement": "If the recipient document publishes at least one keyAgreement key on a supported curve (X25519 or P-256), anonymous packing to the DID does not fail for lack of a supported key.", "quantifier": "every DID document", "why_tests_cant": "All documents.", "anchors": ["src/message/pack_encrypted/anoncrypt.rs"]}
{"id": "C52", "title": "Metadata describes the delivered message's own envelope", "statement": "When a forward was unwrapped automatically, encrypted_to_kids, anonymous_sender and enc_alg_anon describe the envelope of the returned message, not the outer forward envelope.", "quantifier": "every re-wrapped forward", "why_tests_cant": "All nestings.", "anchors": ["src/message/unpack/mod.rs", "src/message/unpack/authcrypt.rs"]}
{"id": "C53", "title": "Envelope tampering is detected by the AEAD inputs", "statement": "Two accepted envelopes opened with the same content key that differ in protected header, nonce, ciphertext or tag give the AEAD different inputs; with an AEAD that authenticates only what was produced for that key, any such modification is rejected.", "quantifier": "every modification of every envelope", "why_tests_cant": "All modifications.", "anchors": ["src/jwe/decrypt.rs", "src/jwe/encrypt.rs"]}
{"id": "C54", "title": "Malformed secrets are reported, not fatal", "statement": "pack_signed returns Ok or Err whatever secret the secrets resolver hands out, including one whose key material is too short.", "quantifier": "every secret", "why_tests_cant": "All key material.", "anchors": ["src/utils/did.rs:365-381, 455-475"]}
{"id": "C55", "title": "The recipient digest is unambiguous", "statement": "Two different recipient lists never have the same apv unless SHA-256 collides.", "quantifier": "every pair of recipient lists, any key id strings", "why_tests_cant": "All pairs of lists.", "anchors": ["src/jwe/parse.rs: verify_didcomm", "src/jwe/encrypt.rs:40-44"]}
{"id": "C56", "title": "Envelopes and messages are read by member names", "statement": "Which JSON is accepted as an encrypted envelope, a signed envelope, a protected header, a rotation token or a message, and with which parts, is determined by the registered member and algorithm names alone: the order of members does not matter, unknown members are ignored or kept as custom headers, a missing or repeated standard member is an error. JSON that is none of the three kinds makes unpack report Malformed without asking a resolver.", "quantifier": "every JSON value nested at most 127 deep, every resolver and set of primitives", "why_tests_cant": "All JSON documents; the readers are generated by serde derive macros, flatten and untagged enums.", "anchors": ["src/jwe/envelope.rs", "src/jws/envelope.rs", "src/message/message.rs:8-90", "src/message/attachment.rs", "src/message/from_prior/mod.rs", "src/message/unpack/mod.rs"]}
{"id": "C57", "title": "What is written, byte by byte", "statement": "The texts produced by pack_plaintext, pack_signed, pack_encrypted and FromPrior::pack are exactly the compact JSON with the registered member names, in the documented order, with the registered algorithm names, nothing else; absent optional headers are left out; strings carry only the escapes they need.", "quantifier": "every message, rotation, key, resolver and set of primitives", "why_tests_cant": "All messages: the writers are generated by serde derive macros and a flattened map.", "anchors": ["src/message/message.rs:8-75", "src/message/attachment.rs", "src/jws/sign.rs", "src/jwe/encrypt.rs", "src/message/from_prior/pack.rs", "src/jwe/envelope.rs", "src/jws/envelope.rs"]}
{"id": "C58", "title": "Whatever is received is a proper message", "statement": "Every message accepted by from_str or returned by unpack, whoever wrote it, has UTF-8 strings, u64 times, JSON in range and within the nesting limit, distinct custom header names none of which is a standard header, and (for unpack) the plaintext typ; rotation claims likewise. Writing it and reading it again gives the same message.", "quantifier": "every text, every resolver and set of primitives", "why_tests_cant": "All texts an attacker can send, including escapes, surrogates, duplicates and array forms.", "anchors": ["src/message/message.rs:8-100", "src/message/attachment.rs", "src/message/from_prior/mod.rs", "src/message/unpack/mod.rs", "src/message/unpack/plaintext.rs"]}
{"id": "C59", "title": "A received message can be passed on", "statement": "A message returned by unpack, packed again without a change, is received unchanged.", "quantifier": "every received text", "why_tests_cant": "All texts an attacker can send.", "anchors": ["src/message/message.rs:8-100", "src/message/pack_plaintext.rs", "src/message/unpack/mod.rs"]}
{"id": "C60", "title": "Valid messages from any implementation are accepted", "statement": "A text built from valid layers (anoncrypt envelopes, forwards addressed to the recipient, an authcrypt envelope with or without skid, one signature, a plaintext message, a valid rotation), whoever made it and however the JSON is written, is unpacked to the message it carries with the metadata of its layers, in every execution, when the documents resolve and the recipient's keys open the envelopes. A valid rotation token is accepted by FromPrior::unpack.", "quantifier": "every text valid for the recipient, any number of re-wrapped layers, every option and order of found secrets", "why_tests_cant": "All texts of all other implementations.", "anchors": ["src/message/unpack/mod.rs", "src/message/unpack/anoncrypt.rs", "src/message/unpack/authcrypt.rs", "src/message/unpack/sign.rs", "src/message/unpack/plaintext.rs", "src/message/from_prior/unpack.rs", "src/jwe/decrypt.rs", "src/jwe/parse.rs", "src/jws/verify.rs"]}
{"id": "C61", "title": "Packing succeeds when it can", "statement": "pack_plaintext, pack_signed, pack_encrypted (anonymous or authenticated, signed or not, with or without mediators) and FromPrior::pack return Ok in every execution when the arguments are not refused, the documents resolve and have usable keys, the secrets are held and the primitives do not fail.", "quantifier": "every message, recipient, sender, signer, set of options, order of found secrets and random values", "why_tests_cant": "All combinations of documents, secrets and options; a test shows single ones.", "anchors": ["src/message/pack_plaintext.rs", "src/message/pack_signed.rs", "src/message/pack_encrypted/mod.rs", "src/message/pack_encrypted/anoncrypt.rs", "src/message/pack_encrypted/authcrypt.rs", "src/protocols/routing/mod.rs", "src/message/from_prior/pack.rs"]}
{"id": "C62", "title": "DID documents and secrets are read by member names", "statement": "Which JSON is accepted as a DID document or a secret, and with which parts, is determined by the member names alone: any order, the JWK before the multibase before the base58 form of a key, optional parts optional. The answer of a JavaScript resolver is taken the same way; null means not found, and anything that is not a document or a secret is reported as DIDCommInvalidState.", "quantifier": "every JSON value nested at most 127 deep", "why_tests_cant": "All JSON documents; the readers are generated by serde derive macros with flatten, untagged and adjacently tagged enums.", "anchors": ["src/did/did_doc.rs", "src/secrets/mod.rs:69-108", "wasm/src/did/did_resolver.rs:49-66", "wasm/src/secrets/secrets_resolver.rs:80-95"]}
{"id": "C63", "title": "Documents, secrets, messages and rotations survive being written and read", "statement": "Serializing a DID document, a secret, a JavaScript Message or a JavaScript FromPrior and reading the result gives the same thing back.", "quantifier": "every document, secret, message and rotation that JSON can express", "why_tests_cant": "All values; a derive macro pair need not be inverse when flatten and untagged enums are involved.", "anchors": ["src/did/did_doc.rs", "src/secrets/mod.rs:69-108", "wasm/src/message/mod.rs:22-42", "wasm/src/message/from_prior/mod.rs:20-40"]}
{"id": "C64", "title": "A document with unknown parts can still be used", "statement": "A DID document that contains members, key types or service types that the library does not know is accepted, and its known parts are used.", "quantifier": "every DID document that a resolver may deliver", "why_tests_cant": "All documents of all DID methods.", "anchors": ["src/did/did_doc.rs:42-88", "wasm/src/did/did_doc.rs", "wasm/src/did/did_resolver.rs:49-66"]}
{"id": "C65", "title": "Routing keys given as the TypeScript types say are used", "statement": "The routing keys that a JavaScript resolver puts into a DIDCommMessaging service, spelled as the declared TypeScript type says (routing_keys), are the ones messages are wrapped for.", "quantifier": "every document with a DIDCommMessaging service", "why_tests_cant": "All documents; the tests use the other spelling.", "anchors": ["wasm/src/did/did_doc.rs:85-93", "src/did/did_doc.rs:92-103", "src/protocols/routing/mod.rs:269-314"]}
{"id": "C66", "title": "JavaScript callers see what the library says", "statement": "Message.unpack, pack_encrypted and pack_signed of the JavaScript layer return exactly the message or text of the library and a metadata object that shows every field of its metadata under the documented name, or the error of the library; malformed options are reported as DIDCommMalformed before any resolver is asked. try_parse_forward returns null exactly for messages that are no forwards.", "quantifier": "every text, message, options object, resolver and set of primitives", "why_tests_cant": "All executions; the metadata objects are generated by derive macros.", "anchors": ["wasm/src/message/unpack.rs:19-59", "wasm/src/message/pack_encrypted.rs:15-63", "wasm/src/message/pack_signed.rs:12-44", "wasm/src/message/protocols/routing/mod.rs:76-86", "src/message/unpack/mod.rs:181-225", "src/message/pack_encrypted/mod.rs:246-273"]}
{"id": "C67", "title": "Options objects mean what their members say", "statement": "The options of Message.unpack and Message.pack_encrypted given by JavaScript are read by member name: a member that is there counts with its value, one that is not has its documented default, unknown members change nothing, a repeated or wrongly typed member is refused as DIDCommMalformed.", "quantifier": "every options object nested at most 127 deep; for totality every text", "why_tests_cant": "All objects; the readers are derive macros with per-field defaults.", "anchors": ["src/message/unpack/mod.rs:157-169", "src/message/pack_encrypted/mod.rs:203-231", "src/algorithms.rs:4-36", "wasm/src/message/unpack.rs:32-35", "wasm/src/message/pack_encrypted.rs:30-33"]}
{"id": "C68", "title": "Forward headers given as the TypeScript types say are used", "statement": "The forward_headers option of Message.pack_encrypted, given as the declared TypeScript type says (an array of pairs), is accepted and passed on.", "quantifier": "every options object with forward_headers", "why_tests_cant": "All options objects; no test sets the option from JavaScript.", "anchors": ["wasm/src/message/pack_encrypted.rs:156", "src/message/pack_encrypted/mod.rs:203-231"]}
{"id": "C69", "title": "wrap_in_forward from JavaScript wraps with the given arguments", "statement": "Message.wrap_in_forward reads headers, routing keys and algorithm and then does what the library does with them; if one of them is malformed, the result is DIDCommMalformed and no resolver is asked.", "quantifier": "every message, headers, routing keys, algorithm, resolver and set of primitives", "why_tests_cant": "All executions and arguments.", "anchors": ["wasm/src/message/protocols/routing/mod.rs:32-74", "src/protocols/routing/mod.rs:240-267"]}
{"id": "C70", "title": "Only named DIDs are resolved", "statement": "Unpacking resolves only DIDs that the text itself names: the sender and signer of its layers, the issuer of a rotation token and the next of a forward. Packing resolves only the DIDs of its arguments and of the mediators on the route.", "quantifier": "every text or message, every option, every execution with any resolver answers", "why_tests_cant": "All texts and all answers; a test sees one conversation.", "anchors": ["src/message/unpack/mod.rs", "src/message/unpack/anoncrypt.rs", "src/message/unpack/authcrypt.rs", "src/message/unpack/sign.rs", "src/message/from_prior/unpack.rs", "src/message/pack_encrypted/mod.rs", "src/protocols/routing/mod.rs"]}
{"id": "C71", "title": "Packing touches only its own secrets", "statement": "pack_encrypted asks the secrets store only for authentication keys of the signer and keyAgreement keys of the sender, fetches only secrets the store reported to hold, and asks nothing for an anonymous unsigned message.", "quantifier": "every message, arguments, options and resolver answers", "why_tests_cant": "All executions; a test cannot show that something is never asked.", "anchors": ["src/message/pack_encrypted/mod.rs", "src/message/pack_encrypted/authcrypt.rs", "src/message/pack_signed.rs", "src/protocols/routing/mod.rs"]}
{"id": "C72", "title": "Only the answers about named DIDs and keys matter", "statement": "Two environments that agree about the DIDs named by the text and the secrets addressed in it give the same result of unpack; likewise for pack_encrypted and the DIDs and keys of its arguments.", "quantifier": "every two environments that agree on what is named", "why_tests_cant": "A statement about pairs of runs with unrelated data changed.", "anchors": ["src/message/unpack/mod.rs", "src/message/pack_encrypted/mod.rs", "src/protocols/routing/mod.rs"]}
{"id": "C73", "title": "Error kinds are true", "statement": "When unpack or pack_encrypted fails with DIDNotResolved, DIDUrlNotFound, SecretNotFound, NoCompatibleCrypto or IoError, the answers of the resolvers show it: the DID did not resolve, the document lacks that key, none of the secrets is held, sender and recipient share no curve, the resolver itself failed. Conversely those answers end packing with that kind, and an unresolved DID ends unpacking with DIDNotResolved.", "quantifier": "every text or message, every option, every execution with any resolver answers", "why_tests_cant": "Callers branch on the kind; a test sees one failing answer at a time.", "anchors": ["src/error.rs:6-40", "src/message/unpack/mod.rs", "src/message/unpack/anoncrypt.rs", "src/message/unpack/authcrypt.rs", "src/message/unpack/sign.rs", "src/message/from_prior/unpack.rs", "src/message/pack_encrypted/mod.rs", "src/message/pack_encrypted/authcrypt.rs", "src/message/pack_encrypted/anoncrypt.rs", "src/message/pack_signed.rs", "src/protocols/routing/mod.rs"]}
{"id": "C74", "title": "IllegalArgument is about the arguments", "statement": "pack_encrypted reports IllegalArgument only if the call itself is at fault (its DIDs, the message headers against them, the messaging service id, the rotation token), and unpack never reports it.", "quantifier": "every message, arguments, options and resolver answers", "why_tests_cant": "All executions, including documents of other parties with odd keys.", "anchors": ["src/message/pack_encrypted/mod.rs:149-200", "src/utils/did.rs:160-230", "src/protocols/routing/mod.rs"]}
{"id": "C75", "title": "uniffi calls report the library's result, once", "statement": "Whatever the interleaving of calls, resolver callbacks (answered, answered twice, late, dropped) and the executor, the callback of a uniffi call is called at most once, with the result that the library function has when its requests get the answers that were accepted for this call; other calls make no difference.", "quantifier": "every sequence of calls, polls, answers and releases, of any length", "why_tests_cant": "Interleavings of threads and foreign code cannot be enumerated by tests.", "anchors": ["uniffi/src/didcomm/pack_plaintext.rs:14-28", "uniffi/src/didcomm/pack_signed.rs:15-38", "uniffi/src/didcomm/pack_encrypted.rs:15-48", "uniffi/src/didcomm/unpack.rs:14-35", "uniffi/src/didcomm/from_prior.rs:20-60", "uniffi/src/didcomm/protocols/routing/mod.rs:17-51", "uniffi/src/common.rs:17-88", "uniffi/src/did/did_resolver_adapter.rs:24-34", "uniffi/src/secrets/secrets_resolver_adapter.rs:23-52"]}
{"id": "C76", "title": "uniffi calls always report", "statement": "A uniffi call whose resolver requests are all answered or given up calls its callback after finitely many steps of the executor.", "quantifier": "every call and every sequence of actions before", "why_tests_cant": "A liveness property of all schedules.", "anchors": ["uniffi/src/common.rs:17-88", "uniffi/src/didcomm/unpack.rs:25-32", "uniffi/src/didcomm/protocols/routing/mod.rs:31-50", "src/protocols/routing/mod.rs:240-267"]}
{"id": "C77", "title": "A sender key vouches for its messages", "statement": "If authcrypt envelopes under a sender key open only to texts that were packed for certain messages, then unpack reports that key as the sender for these messages only, whatever envelopes, nesting and options are used; and pack_encrypted applies the content encryption to the text of its own message only.", "quantifier": "every text, options, resolver answers and set of messages; every message to pack", "why_tests_cant": "Holds for all texts an attacker may compose from what was sealed, and under an assumption on the primitives that no test can express.", "anchors": ["src/message/unpack/authcrypt.rs", "src/message/unpack/mod.rs", "src/message/pack_encrypted/mod.rs:80-147", "src/jwe/decrypt.rs"]}
{"id": "C78", "title": "The recipient is among the addressees", "statement": "When unpack opens an encrypted message that has a to header, the DID of the recipient keys is listed in it, so that a signed message cannot be re-encrypted for somebody it was not meant for.", "quantifier": "every text, options, resolver answers", "why_tests_cant": "Concerns texts composed by an attacker from honest parts.", "anchors": ["src/message/unpack/mod.rs:67-152", "src/message/pack_encrypted/mod.rs:149-200"]}
{"id": "C79", "title": "Expired messages and rotations are refused", "statement": "unpack refuses a message after its expires_time and a rotation token outside its nbf and exp.", "quantifier": "every text, options, resolver answers and time", "why_tests_cant": "Concerns all times, not the one at which a test runs.", "anchors": ["src/message/unpack/plaintext.rs", "src/message/from_prior/unpack.rs", "src/message/message.rs:46-60"]}
{"id": "C80", "title": "The ephemeral key is on the recipient's curve", "statement": "An encrypted envelope is accepted only if its ephemeral key (epk) is labelled with the curve of the recipient key it was opened with.", "quantifier": "every text, options, resolver answers", "why_tests_cant": "Concerns all ephemeral keys an attacker may choose.", "anchors": ["src/jwe/decrypt.rs:16-90", "src/jwe/parse.rs"]}
{"id": "C81", "title": "Signer and sender are one party", "statement": "When unpack reports both a signing key and a sender key, both belong to the same DID.", "quantifier": "every text, options, resolver answers", "why_tests_cant": "Concerns texts composed by an attacker or by careless callers.", "anchors": ["src/message/unpack/mod.rs:67-152", "src/message/pack_encrypted/mod.rs:149-200"]}
{"id": "C82", "title": "Unwrapping forwards automatically is unwrapping by hand", "statement": "If unpacking a text with unwrap_re_wrapping_forward off gives a forward message that was only in an anonymous envelope, then with the option on: when the secrets resolver holds a key of `next`, unpack ends as unpacking the forwarded attachment by hand would (same message, same error, same report on everything inside); when it holds none, unpack returns the forward message and the metadata it returns with the option off.", "quantifier": "every text, every pair of resolvers that answer as functions, every fuel", "why_tests_cant": "Tests unwrap a handful of recorded forwards; the claim is an equality between two ways of calling the library for every text and resolver, including those on which the inner unpack fails.", "anchors": ["src/message/unpack/mod.rs:53-125", "src/message/unpack/mod.rs:127-153", "src/protocols/routing/mod.rs:175-216"]}
{"id": "C83", "title": "Two JavaScript programs exchange messages end to end without loss", "statement": "Let two JavaScript programs use resolvers that answer from the same DID documents, given as JSON values in the documented form, and let find_secrets answer from fixed private keys. A Message object made from a JSON value and packed by one of them (encrypted, signed or plaintext) is, if packing succeeded, exactly the Message object that unpack gives the other one; the metadata objects on both sides agree about the key ids, the sender and the signer. A FromPrior packed by one of them is read by the other as the same FromPrior with the same key id.", "quantifier": "all messages, resolver data, option objects, executions of the two calls, crypto obeying the stated laws", "why_tests_cant": "Tests use a handful of fixed vectors and mocks; here the documents, the keys, the option values and the order in which find_secrets lists its answer vary.", "anchors": ["wasm/src/message/mod.rs:25-48", "wasm/src/message/pack_encrypted.rs:10-61", "wasm/src/message/pack_signed.rs:10-39", "wasm/src/message/pack_plaintext.rs:10-19", "wasm/src/message/unpack.rs:9-42", "wasm/src/message/from_prior/pack.rs:12-37", "wasm/src/message/from_prior/unpack.rs:11-31", "wasm/src/did/did_resolver.rs:22-54", "wasm/src/secrets/secrets_resolver.rs:22-94"]}
{"id": "C84", "title": "JSON values cross the border of the uniffi binding unchanged and can be used in messages", "statement": "A JSON value inside a message that unpack returned (body, custom header, JSON attachment) crosses to the foreign language and back as the same value, and a value that was accepted at the border is accepted again as the same value. A message whose body was accepted at the border can be read once it is packed.", "quantifier": "all texts, all messages, all executions", "why_tests_cant": "The depth limits of the two readers only differ for values nested exactly 127 deep; no test tries such a value.", "anchors": ["uniffi/src/common.rs:25-38", "uniffi/src/didcomm.udl:2-2", "uniffi/src/didcomm.udl:22-37", "src/message/message.rs:8-75"]}
{"id": "C85", "title": "A message kept as a JavaScript object is still the same message", "statement": "A JavaScript program that reads a Message with as_value(), keeps the object (whatever order its members are in, however often it is printed and parsed as JSON) and makes a Message of it again has the same message; likewise for FromPrior.", "quantifier": "all messages that can be read, all orders of members, all conversions of numbers to doubles obeying the stated laws", "why_tests_cant": "JavaScript reorders members and holds numbers as doubles; a test compares a few objects with small numbers.", "anchors": ["wasm/src/message/mod.rs:22-45", "wasm/src/message/from_prior/mod.rs:18-46", "src/message/message.rs:8-75", "src/message/attachment.rs:4-47"]}
{"id": "C86", "title": "Signing, plaintext packing, rotation tokens and forward wrapping ask only about what they are given, and their errors are true", "statement": "pack_plaintext and FromPrior::unpack resolve only the DID named in the rotation token; pack_signed in addition the signer's DID, and looks only for the signer's authentication keys; FromPrior::pack resolves only the DID rotated from and looks only for its authentication keys (only the given one if issuer_kid is given); wrap_in_forward resolves only the DIDs of the routing keys. Secrets are fetched only if the secrets resolver reported them, and only wrap_in_forward draws randomness. DIDNotResolved, DIDUrlNotFound, SecretNotFound and IllegalArgument are reported only for their cause, errors of the resolvers and empty answers always with their kind; the result of the calls without secrets depends on nothing else that the resolvers know.", "quantifier": "all arguments, all executions with arbitrary resolver answers", "why_tests_cant": "Tests check the results for a few resolvers that answer everything; that a call asks nobody else, for every answer, is a statement about all executions.", "anchors": ["src/message/pack_plaintext.rs:27-67", "src/message/pack_signed.rs:45-127", "src/message/from_prior/pack.rs:34-183", "src/message/from_prior/unpack.rs:26-139", "src/protocols/routing/mod.rs:240-267"]}
{"id": "C87", "title": "A message cannot make its receiver ask without bound", "statement": "The number of calls to the resolvers made by one operation is bounded by its input. Unpacking a text calls resolve, find_secrets and get_secret at most as many times in total as the text has bytes, however deeply the text is nested and whoever wrote it, provided that find_secrets does not report more keys than it was asked about and that opening a ciphertext does not yield more bytes than it holds. pack_encrypted makes at most 11 such calls plus one for each routing key of the service used; pack_signed at most 4; pack_plaintext at most 1; FromPrior::pack at most 3; FromPrior::unpack at most 1; wrap_in_forward at most one for each routing key.", "quantifier": "all texts, messages, arguments, options, all answers of the resolvers (for unpack: find_secrets answers no longer than the question), all primitives whose decryption does not expand", "why_tests_cant": "A test counts the calls for one message; a hostile text with nested forwards and long recipient lists that makes a mediator query a remote resolver many more times than its size is only excluded by a bound over all texts.", "anchors": ["src/message/unpack/mod.rs:53-125", "src/message/unpack/anoncrypt.rs:23-175", "src/message/unpack/authcrypt.rs:24-200", "src/message/pack_encrypted/mod.rs:77-147", "src/protocols/routing/mod.rs:87-130", "src/protocols/routing/mod.rs:240-314"]}
{"id": "C88", "title": "Authcrypt is deniable: its recipient could have written it", "statement": "Everything pack_encrypted writes with a sender (no mediator), the holder of the secrets of all recipient keys can write byte for byte from these secrets, published keys and the same random bytes, without any secret of the sender; with protect_sender the outer layer needs public keys only; a signature inside is the only part that is carried over. Conversely any message the recipient encloses in this way, under the name of anyone who published a key on the same curve, is accepted by the recipient's own unpack as authenticated by that key, with non_repudiation false.", "quantifier": "for all messages, senders, options, directories, secrets and random bytes; lawful primitives", "why_tests_cant": "Tests unpack what the sender packed; that an authcrypt text is no evidence for third parties is a statement about a second way of producing every possible text.", "anchors": ["src/jwe/encrypt.rs:19-140", "src/utils/crypto.rs:67-91", "src/message/pack_encrypted/authcrypt.rs", "src/message/unpack/authcrypt.rs"]}
{"id": "C89", "title": "The anonymous envelope is not bound to the sender", "statement": "Whatever unpack accepts without an anonymous envelope (and that does not pass for a forward message), anybody without secrets can put into an anoncrypt envelope: unpack returns the same message and the same metadata except encrypted, anonymous_sender, enc_alg_anon and encrypted_to_kids, which describe the outer envelope. Of a text accepted as anonymous and authcrypted the inner text unpacks by itself to the same message, with metadata that differ only in these fields. So anonymous_sender does not tell whether the sender asked for protect_sender.", "quantifier": "for all texts, options, resolvers and secrets; put on: lawful primitives, consistent directory; taken off: any primitives and texts", "why_tests_cant": "Tests check anonymous_sender for texts packed with and without protect_sender; that the flag can be set and cleared by others is about texts no test packs.", "anchors": ["src/message/unpack/mod.rs:80-125", "src/message/unpack/anoncrypt.rs:84-95", "src/message/unpack/authcrypt.rs:111-119", "src/message/pack_encrypted/authcrypt.rs"]}
{"id": "C90", "title": "Private keys are used by the cryptographic primitives and leak nowhere else", "statement": "If two applications differ only in the secrets their SecretsResolver hands out, and the keys in these secrets act alike in the primitives the operation is meant to use, then the operation returns the same result (text, message, metadata, or error kind) and makes the same calls in the same order. Message::unpack may use them only for key agreement as a recipient; Message::pack_signed and FromPrior::pack only for signing; Message::pack_encrypted only for signing and for key agreement as the sender. pack_plaintext, FromPrior::unpack, wrap_in_forward and pack_encrypted without sender and signer do not depend on secrets at all.", "quantifier": "all cryptographic providers, pairs of resolvers, messages, texts and options", "why_tests_cant": "A leak shows only by comparing runs with different secrets, over all inputs; a test sees one run and cannot tell which bytes of it come from a private key.", "anchors": ["src/message/unpack/anoncrypt.rs:81-169", "src/message/unpack/authcrypt.rs:130-194", "src/message/pack_signed.rs:45-116", "src/message/pack_encrypted/authcrypt.rs:23-260", "src/message/from_prior/pack.rs:34-145", "src/utils/crypto.rs:136-178"]}
{"id": "C91", "title": "A recipient cannot change an authenticated envelope for the other recipients", "statement": "The recipients of an authcrypt envelope all know its content key, so any of them can encrypt another text under it. The other recipients do not accept that text as coming from the sender: as long as keys agreed on with the sender's key and an authentication tag wrap only content keys with which the sender produced that tag, and a tag stands for one text, every message reported as encrypted by the sender key is one the sender packed. And pack_encrypted is such a sender: with the sender key it wraps a content key only under a key derived from the very tag that this content key gave for the text of the message (plain or signed), forwarding included.", "quantifier": "all envelopes, sender keys, recipients' knowledge of content keys, executions, primitives; all messages, options and key wrappings for the sender side", "why_tests_cant": "a test changes one ciphertext and sees a failure; that no text whatsoever made with the known content key is accepted depends on which tag is bound to which wrapped key in every execution", "anchors": ["src/jwe/encrypt.rs", "src/jwe/decrypt.rs", "src/message/pack_encrypted/authcrypt.rs", "src/message/unpack/authcrypt.rs"]}
{"id": "C92", "title": "A mediator learns the next hop and no more", "statement": "When a message is wrapped for several mediators, the first one can read the routing key of the second, the forward headers and an encrypted text for the second one. What it reads, and the text it is given, do not depend on the message, the final recipient or the mediators after the second, except through what the content encryption for the second mediator gives. Whoever is no mediator sees the routing key of the first one only: next hop and headers do not show either.", "quantifier": "all messages, recipients, lists of routing keys, headers, content encryptions, executions", "why_tests_cant": "a test compares two texts made with fresh random values; independence of everything behind the second mediator is a statement about pairs of executions with the same random values and arbitrary primitives", "anchors": ["src/protocols/routing/mod.rs:132-165", "src/protocols/routing/mod.rs:240-267", "src/message/pack_encrypted/anoncrypt.rs"]}
{"id": "C93", "title": "All devices of a recipient read the same", "statement": "Two devices of one recipient that hold different keys of it, see the same DID documents and both accept a text get the same message and the same metadata, in whatever order their secrets are found; and insisting on all keys (expect_decrypt_by_all_keys) can only turn an accepted text into a refused one, never change the message.", "quantifier": "all texts, options, sets of secrets, documents and resolvers, primitives", "why_tests_cant": "a test unpacks honest envelopes with a few key sets; a sender can wrap different content keys for different recipients, so this is a statement about all envelopes and pairs of runs", "anchors": ["src/message/unpack/anoncrypt.rs:81-169", "src/message/unpack/authcrypt.rs:130-194", "src/message/unpack/mod.rs:53-125"]}
{"id": "C94", "title": "Which packed messages can be read", "statement": "Whatever keys the DID documents list (also keys of other DIDs), a message encrypted without a mediator is read by the holder of a recipient key, as the message that was packed, exactly if all recipient key ids are DID URLs of one DID and the sender key and the signing key are listed in the document of the DID named in their own id; a signed message and a rotation token are read exactly if the signing key is. (For key ids that need no JSON escapes; the others are in C37.)", "quantifier": "all lawful primitives, DID directories, secrets on both sides, messages, senders, signers, options, executions of pack and unpack", "why_tests_cant": "Test documents only list keys of their own DID; DID Core allows others, and pack then returns Ok for a text that unpack refuses. That these are all the texts that are refused needs a proof.", "anchors": ["src/message/pack_encrypted/anoncrypt.rs:12-100", "src/message/pack_encrypted/authcrypt.rs:17-175", "src/message/unpack/anoncrypt.rs:50-70", "src/message/unpack/authcrypt.rs:40-110", "src/message/unpack/sign.rs:30-75"]}
{"id": "C95", "title": "Exactly the valid texts are accepted", "statement": "For a DID directory and a set of secrets: unpack can return message m with metadata md for a text if and only if the text is built of valid layers (anoncrypt envelopes with forwards to the recipient, an authcrypt envelope by a published key, one signature by a published key, a plaintext message, a valid rotation) that a held secret opens, carrying m and described by md. With expect_decrypt_by_all_keys every held secret must open the envelope. With a single secret this decides the result of every execution.", "quantifier": "all texts, directories, secrets, options, orders in which secrets are found, numbers of re-wrapped layers", "why_tests_cant": "Tests see single texts accepted or rejected; this fixes the answer for every text in both directions.", "anchors": ["src/message/unpack/mod.rs", "src/message/unpack/anoncrypt.rs", "src/message/unpack/authcrypt.rs", "src/message/unpack/sign.rs", "src/message/unpack/plaintext.rs", "src/message/from_prior/unpack.rs"]}
{"id": "C96", "title": "Exactly the JSON texts are read, with the value the RFC gives them", "statement": "The byte sequences the library takes for text are exactly the UTF-8 encodings of sequences of Unicode scalar values (RFC 3629).  A text is read as a JSON value if and only if it follows the grammar of RFC 8259 with at most 127 nested containers, no lone surrogates and numbers that convert to a float, and the value read is the one the text denotes.  Envelopes, messages, DID documents, secrets, rotations and options are only ever read from texts that follow the grammar; unpack refuses every other text with Malformed or InvalidState and asks no resolver anything.  White space between tokens changes neither what is read nor what is asked nor the result.", "quantifier": "for all byte sequences, all JSON token trees, all number conversions, all cryptographic back ends, all options, all answers of the resolvers", "why_tests_cant": "Tests try a handful of texts; the claim is an equivalence between a parser and a grammar over all byte sequences, including escapes, surrogate pairs, overlong encodings and nesting.", "anchors": ["src/message/unpack/mod.rs:53-125", "src/message/message.rs:13-77", "src/jwe/parse.rs:17-30", "src/jws/parse.rs:22-50", "uniffi/src/common.rs:25-38"]}
{"id": "C97", "title": "Any spelling of a document is the same document", "statement": "Two texts that denote the same JSON value, in whatever spelling (white space, escapes, number forms), are the same message, DID document, secret, rotation or set of options, and the same encrypted or signed envelope: they are unpacked with the same requests to the resolvers and the same result, where only the signed text kept as evidence is the text received.", "quantifier": "for all texts and JSON values, all cryptographic back ends with stable float conversion, all options, all answers of the resolvers", "why_tests_cant": "There are infinitely many spellings of each document, and other implementations escape differently; tests only contain the spelling of this library and a few vectors.", "anchors": ["src/jwe/envelope.rs:7-76", "src/jws/envelope.rs:8-63", "src/message/message.rs:13-77", "src/message/from_prior/mod.rs:7-35", "src/did/did_doc.rs:6-103", "src/secrets/mod.rs:70-108"]}
{"id": "C98", "title": "InvalidState, Unsupported and Malformed are reported for a reason of their kind", "statement": "When unpack ends with InvalidState, then either a resolver reported just that, or a text met on the way or a header in it is only the beginning of a JSON text, or resolving the sender failed, or the secrets resolver contradicts itself, or an anonymous envelope names a sender, or the back end refuses to derive a key, or a signing key is of another type than the algorithm, or a multibase key was read. When it ends with Unsupported, then a content encryption or signature algorithm in the message is unknown or not allowed there, or a key of the sender or a secret is not good for key agreement. The same holds for pack_encrypted with its own reasons, which include Malformed: the rotation token, a malformed or undescribed key, or a message that cannot be put into a forward message.", "quantifier": "all texts, options, numbers of layers, crypto back ends and answers of the resolvers", "why_tests_cant": "Unit tests check the kind for a handful of prepared messages; they cannot show that no other message, document or answer of a resolver leads to this kind, so a caller who reacts to the kind relies on a statement about all of them.", "anchors": ["src/message/unpack/mod.rs", "src/message/unpack/anoncrypt.rs", "src/message/unpack/authcrypt.rs", "src/message/unpack/sign.rs", "src/message/pack_encrypted/mod.rs", "src/message/pack_encrypted/anoncrypt.rs", "src/message/pack_encrypted/authcrypt.rs", "src/protocols/routing/mod.rs", "src/utils/crypto.rs"]}
{"id": "C99", "title": "The size of a packed message reveals only the size of the message", "statement": "The length of what Message::pack_encrypted returns is an exact function of the length of the serialised message, the key ids it reports, the curve, the algorithms in the options and, on the way along mediators, the identifiers, next hops and headers of the forward messages: two messages of one length packed in the same circumstances (same calls and answers of the resolvers, same random values, same from_prior) give texts of one length and the same metadata. Every envelope makes its content longer by a third plus an amount that does not depend on the content.", "quantifier": "for all messages, recipients, senders, signers, options, documents, secrets and random values; primitives whose results have the sizes their standards say", "why_tests_cant": "Traffic analysis sees lengths. Tests compare lengths of a few messages at best; whether some header, padding or nested envelope makes the length depend on the content is a statement about all messages, and about JSON that is parsed and written again in forward messages.", "anchors": ["src/jwe/encrypt.rs:17-113", "src/message/pack_encrypted/mod.rs:77-147", "src/message/pack_encrypted/anoncrypt.rs:22-206", "src/message/pack_encrypted/authcrypt.rs:23-327", "src/protocols/routing/mod.rs:132-165", "src/protocols/routing/mod.rs:240-314"]}
{"id": "C100", "title": "Exactly what can be packed is packed", "statement": "With primitives that work and secrets that belong to the published keys, packing succeeds if and only if: the arguments are not refused; the rotation in the message, when there is one, is valid and consistent; the first found key of the signer is one for signatures; all keys of the recipient are described and either the first recognised one is for key agreement, or, with a sender, the first found sender key that has its algorithm in common with a recipient key is for key agreement; the recipient keys of that algorithm can be read; and the route, when there is one, leads through mediators that can be encrypted for. The same in both directions for pack_signed, pack_plaintext, FromPrior::pack and wrap_in_forward.", "quantifier": "for all messages, arguments, options, documents, secrets, orders in which a secrets resolver lists the keys it has, and runs", "why_tests_cant": "A test packs for a few documents; that nothing else can make packing fail, and that each of the conditions is needed, is a statement about all documents, key lists and orders.", "anchors": ["src/message/pack_encrypted/mod.rs:77-199", "src/message/pack_encrypted/authcrypt.rs:23-327", "src/message/pack_encrypted/anoncrypt.rs:22-206", "src/message/pack_signed.rs:45-127", "src/message/pack_plaintext.rs:27-67", "src/message/from_prior/pack.rs", "src/protocols/routing/mod.rs:23-314"]}
{"id": "C101", "title": "A signed message can be shown to a third party", "statement": "If unpack reports a signed message, its signed_message can be shown to anybody: with the same DID documents and whatever secrets, or none, unpack of it yields the same message, the same sign_from and sign_alg and the same rotation, and no encryption. This holds if and only if the signed message is not an envelope as well; it always holds for what pack_encrypted and pack_signed of this library wrote. A from_prior token in a received message can always be shown: FromPrior::unpack yields what unpack reported.", "quantifier": "for all texts, messages, options, DID directories, secrets of the recipient and of the third party, crypto back ends and runs", "why_tests_cant": "The metadata say that the JWS is returned for non-repudiation purposes. Tests compare signed_message with a constant; whether every reported signed message convinces everybody else is a statement about all senders, including those who prepare a text with two readings.", "anchors": ["src/message/unpack/mod.rs:33-187", "src/message/unpack/mod.rs:220-221", "src/message/unpack/sign.rs:13-153", "src/message/from_prior/unpack.rs"]}
{"id": "C102", "title": "A message that could be read stays readable", "statement": "A message that unpack returned once can be unpacked again later, with the same result, although DID documents have changed in the meantime. This holds as long as the keys named in the metadata (encrypted_from_kid, sign_from, from_prior_issuer_kid) are still published and, when forwards are unwrapped, the DIDs with a key of the recipient are the same; in particular when documents only gained keys; and for anonymous, unsigned messages without rotation whatever becomes of the documents. It does not hold when the sender or signer withdrew the key.", "quantifier": "for all texts, options, secrets, DID directories before and after, crypto back ends and runs", "why_tests_cant": "Tests use one fixed set of documents. Whether stored messages survive key rotation is a statement about all pairs of directories.", "anchors": ["src/message/unpack/mod.rs:33-150", "src/message/unpack/authcrypt.rs:22-150", "src/message/unpack/sign.rs:13-153", "src/message/from_prior/unpack.rs:26-140"]}
{"id": "C103", "title": "The standard ciphers give back what they encrypt", "statement": "Whatever is encrypted with A256CBC-HS512, A256GCM or XC20P as their standards define them is decrypted to the same bytes with the same key, nonce and additional data; whatever content key is wrapped with A256KW is unwrapped to the same key.  So with these in place of assumed primitives a message that can be sent to its recipient is packed, and whoever holds a key it was encrypted for reads exactly that message, provided only that both sides of a key agreement get the same secret and that signatures are accepted.", "quantifier": "for all keys, nonces, additional data and texts; for all implementations of keys, key agreement and signatures in which both sides agree; for all messages, documents, secrets and options; for all executions of packing and unpacking", "why_tests_cant": "Test vectors fix a few keys and texts; that padding, block boundaries, key streams and the six rounds of key wrapping are undone for every length and content is a statement about all of them.", "anchors": ["src/jwe/encrypt.rs:19-140", "src/jwe/decrypt.rs:16-90", "src/utils/crypto.rs:17-113", "src/message/pack_encrypted/anoncrypt.rs:23-206", "src/message/pack_encrypted/authcrypt.rs:23-327"]}
{"id": "C104", "title": "A message that was cut off is recognised", "statement": "Whatever text unpack accepts, every beginning of it that lacks at least its last non-blank character is rejected with InvalidState, without asking any resolver; for the texts written by the three packing functions losing one character suffices. Conversely, when a text is no JSON and unpack reports InvalidState, the text is the beginning of a JSON text, so the kind distinguishes a message that ended too early from one that is wrong. (False for plain messages with two custom headers named like members of an encrypted and of a signed message, when they are cut inside a number.)", "quantifier": "all texts, all positions where a text can be cut, all messages, options, crypto back ends and answers of the resolvers", "why_tests_cant": "There are as many beginnings as characters in every message; a test cuts a few messages at a few places.", "anchors": ["src/error.rs: ToResult for serde_json::Error", "src/message/unpack/mod.rs", "src/message/unpack/anoncrypt.rs:29-33", "src/message/unpack/sign.rs:21-25", "src/message/unpack/plaintext.rs:10-14", "serde_json de.rs"]}
{"id": "C105", "title": "Signatures of attachments are verified", "statement": "When unpack delivers a message with an attachment whose data carries a jws, that signature has been verified. (False: the jws, the hash and the byte count of an attachment are handed over unchecked. What is proved: nothing that is packed or read depends on the attachments, and attachments of a signed message are as trustworthy as its signer.)", "quantifier": "for all messages, attachments, primitives, resolvers and executions", "why_tests_cant": "a test shows one attachment being returned; that no attachment whatsoever influences any outcome is a statement about pairs of executions", "anchors": ["src/message/attachment.rs:133-141", "src/message/attachment.rs:180-211", "src/message/unpack/mod.rs:53-125", "src/message/pack_plaintext.rs:27-67"]}
