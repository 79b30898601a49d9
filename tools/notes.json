{
 "C01": "Well-formed is message_fits in Spec/World.v; C36 shows what goes wrong otherwise.",
 "C02": "Assumes verify(sign)=true for matching keys (lawful) and key ids written without JSON escapes (C37).",
 "C03": "Texts not handed to a mediator (pm_service = None). A message that is itself a forward to the receiver is unwrapped instead (hypothesis kept).",
 "C04": "Texts not handed to a mediator (pm_service = None).",
 "C05": "What arrives is the packed text re-serialised as JSON (members sorted), not byte for byte; same_unpack says unpack cannot tell the two apart.",
 "C09": "The honest direction is for JSON signatures made by pack; the inputs theorems say which bytes a successful unpack had verified.",
 "C10": "The binding part is for key ids that are DID URLs with a single #; see C55 for what happens otherwise.",
 "C100": "Every run, any order in which the secrets are found. The order matters (C100_case: one key list, two orders, one of them fails); C61 gives conditions that do not depend on it.",
 "C101": "The full statement is false: a text with the members of a JWS and of a JWE is read as a JWS inside an authcrypt envelope and as a JWE on its own (C101_shown_refuted: Bob is told that Alice signed one message, a mediator reads another one in the signed message, unsigned). C101_shown_partial says exactly when it holds.",
 "C102": "The full statement is false of the code: the sender's document is consulted for the key, and a key that is no longer listed is refused with DIDUrlNotFound (C102_read_again_refuted). The _partial theorems say under which changes it holds; C102_more_keys and C102_anonymous are the cases without a condition on the sender.",
 "C103": "The algorithms are those of the standards as written in Spec/Sha2, Aes, Chacha and Ciphers (the test vectors of the repository run through them in Tests), not askar-crypto's code. Agreement of X25519 and P-256 and correctness of signatures stay assumptions (keys_agree).",
 "C104": "Partial because of the plain messages named in the statement, for which C104_cut_off_refuted gives a witness.",
 "C105": "The full statement is refuted by C105_vouched_refuted: a plaintext message with a forged jws is accepted without any key being looked up. C105_packing_blind and C105_reading_blind say that replacing all attachments changes neither events nor outcome nor metadata (stated for plaintext; the other forms wrap the same text). C105_signed_partial covers attachments of signed messages only.",
 "C16": "A shared Ed25519 or secp256k1 pair coming first gives Unsupported instead (it is not an error of negotiation).",
 "C19": "For primitives whose AEAD never yields more bytes than the ciphertext and tag hold, and a float conversion that reads back its own output. The loop of the model takes a number of rounds; a number above the length of the text always suffices, whatever the resolvers answer, and a larger one changes nothing. Without unwrapping one round suffices for any primitives.",
 "C20": "Conditions on the resolver answers are in Spec/Panics.v (calm); C54 shows they are needed.",
 "C21": "False for the empty list of routing keys (nexts.remove(0) panics); proved for non-empty lists. C21_panics_iff: with calm resolvers it panics exactly for the empty list.",
 "C24": "False in general: unpack compares neither iss with the signing key's DID nor sub with from. Proved for messages that this library agreed to pack (C25 checks on packing).",
 "C26": "False in general: unpack does not compare the authenticated key's DID with the from header. Proved for messages encrypted by this library for a sender, and for signing and sender keys that were only used for messages of their own DID.",
 "C28": "The mediator's own routing keys are not used.",
 "C32": "False in general: the plaintexts are not compared and different recipients may be given different content keys. Proved for a committing AEAD.",
 "C34": "Text with padding characters is outside the canonicity claim: the decoder accepts some padded text.",
 "C35": "Floats are covered under the stated stability of the number printer/parser pair (floats_stable).",
 "C36": "False: names of standard headers the message has make the text unreadable (C36_taken_name), other standard names are read back as that header. Proved for names that are neither standard nor parts of an envelope; C36_comes_back_iff gives for every message the exact condition for coming back.",
 "C37": "False: key ids that JSON writes with escapes cannot be read back because the envelope structs borrow &str; nor can keys of several DIDs (C94). Proved for the other key ids, whatever else the documents list.",
 "C38": "False for truncated texts: serde_json's EOF category is mapped to InvalidState. Proved: the kind is Malformed or InvalidState, nobody is asked, and complete JSON gives Malformed. C104 says exactly which truncated texts give InvalidState.",
 "C39": "For texts not handed to a mediator; in forwards this text is what is wrapped (C28).",
 "C40": "Stated for forwarding switched off; C28 shows that forwarding wraps exactly this text.",
 "C42": "Calls are modelled as programs that talk to their own resolver and secrets store; the claim is about calls that share no mutable state, which is what the code does (no statics, no locks).",
 "C48": "False for SecretNotFound (C48_error_kinds_refuted); proved for all other kinds.",
 "C49": "False for unpack: when the DID of an authcrypt sender cannot be resolved, the resolver's kind is replaced by InvalidState. Proved for every pack function, for from_prior, and for the secrets resolver in unpack; a DID resolver failure in unpack keeps its kind or becomes InvalidState.",
 "C50": "True for pack options; false for unpack options (C50_unpack_options_refuted): unwrap_re_wrapping_forward is false when deserialised from {} and true by Default.",
 "C51": "False: when the first recognised keyAgreement key is Ed25519 or secp256k1, packing stops with InvalidState. Proved when the first recognised key is on X25519 or P-256 and the keys on that curve can be read; a usable key further down is missing. C100_encrypted gives the exact condition.",
 "C52": "False when a forward was unwrapped and the delivered text is not itself an anoncrypt envelope: the outer forward envelope's recipients and algorithm stay in the metadata. Proved when nothing was unwrapped (C52_metadata_of_message_partial). When forwards were unwrapped, C52_delivered_partial proves that the metadata is that of unpacking the delivered text by itself except for re_wrapped and, if the delivered text is no anoncrypt envelope, encrypted/anonymous_sender/encrypted_to_kids/enc_alg_anon.",
 "C53": "False as stated: ciphertext and tag are concatenated before the AEAD is called and base64 padding is accepted, so the split and the spelling may change. Proved up to these two.",
 "C54": "False: split_at(32) panics on short Ed25519 secrets. C54_signed_iff, C54_rotation_iff and C54_unpack_iff: pack_signed, FromPrior::pack and unpack panic exactly when they were given such a secret (Spec/Panics.long_enough says exactly which); all others are reported as errors. C54_encrypted_iff: pack_encrypted panics exactly when it signs and the signing secret is such a one; the secret that encryption uses never makes it panic.",
 "C55": "False for arbitrary key id strings. Proved for key ids that begin with did: and do not contain .did:, and (C10_apv_binds) for key ids with a single #.",
 "C56": "JSON as values printed without white space, members in any order and possibly repeated. Plain strings of envelopes must need no escapes (they are borrowed). Signed envelopes: the reading is characterised, the whole unpacking is not restated because the metadata contains the signed text itself.",
 "C57": "The literal text of encrypted envelopes is part of C15, C16 and C39 (relation seals of Spec/Packing.v).",
 "C58": "Assumes only that the float conversion reads back what it prints (floats_stable).",
 "C59": "False in general: a repeated custom header is hidden when reading and the message, written again, is taken for a signed envelope (witness). Proved for messages whose custom headers do not include all members of an envelope; they meet the conditions of C01 to C05. C59_passed_on_iff gives the exact condition for every received message.",
 "C60": "Valid layers are defined in Spec/Accept.v in advance of any execution. Every held key of a recipient list must open the envelope, because the secrets resolver may answer in any order. C60_conveyed_accepted states validity without any reader of the model: JSON by the grammar of RFC 8259, base64url by RFC 4648, members by name (Spec/Outside.v). Spellings with needless escapes are left out; they are refused (C97).",
 "C61": "Conditions are in Spec/Works.v and Spec/Packing.v (sealing_works). The first recognised keyAgreement key must agree on keys (C51 shows why).",
 "C62": "JSON as values printed without white space. That JavaScript keeps numbers as doubles is not modelled; a service type that is not a string is taken as an error.",
 "C63": "For documents, secrets and messages that JSON can express (valid Unicode, numbers in range, nesting limits); writing a service of another type fails unless its value is an object.",
 "C64": "False: an unknown service type or key type makes the whole document unreadable (witnesses). Proved: unknown members of documents and secrets change nothing.",
 "C65": "False: the declared name routing_keys is ignored and the message goes out unwrapped (witness). Proved: the name routingKeys is honoured.",
 "C66": "The metadata object is the JSON text that is passed to JSON.parse.",
 "C67": "Objects printed without white space; the array form that serde also accepts is covered by totality only.",
 "C68": "False: an array of pairs is refused, always (witness and theorem). Proved: an object is taken.",
 "C69": "The arguments are JSON texts as JSON.stringify gives them.",
 "C72": "Agreement is only required on what the text names as seen with the first environment; random values are part of the environment.",
 "C73": "Malformed, InvalidState and Unsupported carry no claim here (C38 is about them, C60 and C61 say when there is no error).",
 "C74": "False: a multibase key of the wrong kind in the document of the other party gives IllegalArgument (witnesses for packing and unpacking). Proved: that is the only other reason.",
 "C75": "A poll of the executor is split into single steps. The uniffi glue that converts arguments is not modelled.",
 "C76": "False: wrap_in_forward without routing keys panics in the task and its callback is never called. Proved: otherwise a report, an unanswered request, or such a panic.",
 "C77": "The assumption on the primitives (only_sealed) is a hypothesis about what opens under keys seen in the execution; a concrete case is given.",
 "C78": "False: Bob re-encrypts for a mediator what Alice signed for Bob, and it is accepted with non_repudiation. Proved for every message that pack_encrypted made.",
 "C79": "False: there is no clock; a message and a rotation whose times admit no moment are accepted. Proved: the reported times are those that the key's owner signed.",
 "C80": "False for a key import that ignores kty and crv (the library itself does not compare them). Proved for one that checks them.",
 "C81": "False, and pack_encrypted makes such messages. Proved when both keys were only used for messages from their own DID and the message has a from header.",
 "C82": "Resolvers are functions here (run), so that the two calls see the same answers.",
 "C84": "The last sentence is false: a body nested 127 deep is accepted at the border and packed, and unpack then refuses the text, because the body is one level further down there (C84_accepted_readable_refuted). It is proved for all other accepted bodies (C84_accepted_readable_partial).",
 "C85": "False in full: an integer above 2^53 comes back as its neighbour without an error, and a float like 1.0 as an integer (both refuted for every conversion of numbers obeying the laws of JavaScript). Proved when every number in the message survives, in particular for integers up to 2^53 in magnitude; the order of members and repeated members never matter.",
 "C86": "One theorem per call, plus independence from all other answers for the calls that need no secrets. IllegalArgument may also be raised for multibase keys obtained from a resolver, as in C74.",
 "C87": "The bound for unpack counts every call to the resolvers; the bounds for packing are reached in the concrete case. The hypothesis on find_secrets is about the caller's own resolver: with all keys expected, the crate asks get_secret for every key reported.",
 "C88": "C88_deniable exhibits the recipient's way of writing (self_written, Spec/Deny.v) and shows it gives the very text; C88_self_accepted shows that what is so written is accepted for any message.",
 "C89": "C89_put_on and C89_taken_off for the two directions; C89_not_senders_choice is the concrete consequence: Alice packs without protect_sender, somebody without secrets covers the text, and Bob is told of an anonymous sender.",
 "C90": "C90_unpack, C90_signed, C90_prior, C90_packed (relative to keys that act alike in the permitted primitives), C90_secretless (arbitrary secrets). Error texts are not modelled, so a leak through an error message text is not excluded.",
 "C91": "C91_insiders: stated over what the sender encrypted and wrapped (two conditions on the primitives: only_wrapped, tag_commits); C91_wrapping_inputs: the sender side, by replacing the key wrapping outside of those inputs. C91_case shows an insider's text refused with the tag in the key agreement and accepted without. For anoncrypt the statement is false, see C89.",
 "C92": "C92_layers: how the layers are put on, in both directions. C92_mediator_view, C92_network_view: replace the message, the recipient and the further mediators, with a content encryption that gives the same for the text encrypted for the (second, resp. first) mediator: the same forward message is read, the same text comes out.",
 "C93": "False for ciphers that can open one ciphertext under two keys to two texts (A256GCM and XC20P are of that kind): the library compares neither content keys nor texts (both refuted with a witness). Proved for ciphers that cannot (committing), forwards included when both devices hold keys of the same hops.",
 "C94": "Both directions, for anoncrypt, authcrypt with and without protect_sender, signed or not, and for signed messages and rotation tokens. A document that mixes keys of two DIDs is the case shown: packed, unreadable.",
 "C95": "Both directions, in Spec/Accept.v's terms (what the layers are, said of the directory and the secrets, not of the run). The `exists` in C95_accepted_iff ranges over the orders in which the secrets resolver may report keys; C95_one_key removes it. Witness: a text acceptable as two different messages.",
 "C96": "The grammar (Spec/Grammar.v) is written from RFC 8259 and RFC 3629 and shares no definition with the parser of the model except the bytes. Conversion of number texts to floats is a parameter. The 127 containers are serde_json's recursion limit.",
 "C97": "Messages, documents, secrets, rotations and options: proved for every spelling. Envelopes: false in full, because fields borrowed from the text (kid, protected, iv, ...) are refused when their string is written with an escape, even one that is not needed (C97_needless_escape_refuted: an encrypted envelope whose kid is written with \\u003a for the colon is not readable); proved for all spellings without needless escapes.",
 "C98": "Complements C73 and C74, which cover the other kinds. Malformed from unpack is left open here; which texts are accepted is C95.",
 "C99": "Hypotheses: sizes of results of the primitives (sized); key ids in documents are UTF-8 text, as every Rust string is. The exact size is stated for the text to the recipient and for one forwarding layer; several layers follow by C92_layers. C99_same_size covers all of it."
}