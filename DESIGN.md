# A Rocq model of didcomm-rust: design

`properties.jsonl` lists the properties (generated by `tools/gen_properties.py`),
`MANIFEST.json` maps each of them to its theorems (generated by
`tools/gen_manifest.py` from the files in `rocq/theories/Props` and
`tools/notes.json`), `seeded/LOG.jsonl` records the wrong programs the theorems
were tested against.  Everything below refers to `rocq/theories`.

## 1. What is modelled

The model follows `/repo` function by function, at the level of bytes.  Every
definition cites the file and lines it was written from.

| Model file | Code |
|---|---|
| Prelude | byte strings, `ErrorKind`, results with an explicit `Panic` value (src/error.rs), `str::split`, `split_once`, sorting |
| Utf8 | `String::from_utf8` |
| Base64 | the `base64` 0.13 `URL_SAFE_NO_PAD` encoder and decoder as called from src/jwe, src/jws |
| Base58 | `bs58` decoding, varint prefixes of multicodec keys (src/utils/did.rs) |
| Json | the `serde_json` compact printer and streaming parser: error categories, nesting limit, borrowed strings, surrogates, numbers |
| Serde | `derive(Deserialize)`: duplicate, missing and unknown fields, sequence form, `flatten`, `untagged` |
| DidDoc | src/did, src/secrets, the example resolvers |
| DocJson | src/did/did_doc.rs and src/secrets/mod.rs as JSON; wasm/src/did, wasm/src/secrets, wasm/src/message |
| Crypto | the record of cryptographic primitives taken from `askar-crypto` |
| Keys | src/utils/did.rs, src/utils/crypto.rs, src/jwk.rs |
| Effects | calls to the outside world (DID resolver, secrets resolver, randomness) as a free monad |
| Jws, Jwe | src/jws, src/jwe |
| Message, FromPrior | src/message/message.rs, attachment.rs, from_prior/*.rs |
| Pack, Routing | src/message/pack_*.rs, src/protocols/routing |
| Unpack | src/message/unpack |
| Bindings | uniffi/src/common.rs and resolver adapters, wasm/src/error.rs, options objects |
| Ffi | uniffi/src/didcomm: calls, tasks, callbacks and the executor as a transition system |

Async functions become values of `prog`: a tree of requests to the resolvers
and to the random generator, each followed by a continuation for every possible
answer.  An execution (`exec`) is a trace of request/answer pairs plus a result.
Answers are unconstrained, so a theorem about all executions covers resolvers
that fail, lie, or change over time.  A function that can panic in Rust has
`Panic` as a possible result.

`Message::unpack` is a loop in Rust; in the model it takes a number of rounds and
answers `None` when they are used up.  C19 proves that the length of the text
plus one always suffices.

| Other files | Content |
|---|---|
| Spec/* | specifications, written without the functions of the model except its data types (`Codec` base64url and JSON; `Grammar` JSON and UTF-8 from the RFCs; `Spell` results for two spellings; `Cause` why an operation may fail with a kind; `Cut` texts that end too early; `Attach` attachments with signatures of their own; `Packs` when packing succeeds; `Evidence` what a third party learns from a signed message; `Later` DID documents that change; `Outside` valid messages described without the model's readers; `Text` what is written; `Wire`, `Doc`, `Options` what is read; `Events` what an execution did; `Asked` whom it may ask; `Signing`, `Sealed`, `Insider` what keys are used for; `Mediator` what a mediator sees; `Devices` pairs of devices; `Blame` what an error kind says; `Calls` the same for the remaining calls; `Cost` how many calls; `Deny` what a recipient can write; `Cover` an envelope around a text; `Leak` runs with other secrets; `Ffi` what callers through uniffi observe; `Js` resolvers written in JavaScript; `JsObj` JSON kept as JavaScript objects; `World` sender and receiver; `Packing`, `Forward`, `Accept`, `Works` when and how messages are packed and accepted; `Size` lengths of texts; `Sha2`, `Aes`, `Chacha`, `Ciphers` the standard symmetric algorithms; `Standard` what is still assumed with them; `Toy` an instance used only for examples) |
| Proofs/* | lemmas |
| Props/* | the property theorems `Cnn_...`, each with `Print Assumptions` and concrete cases |
| Tests/* | the repository's own unit tests, run on the model (see section 5); no theorem depends on them |

## 2. Trusted base

* Coq 8.16.1's kernel, including `vm_compute`.
* Axioms: none.  `Print Assumptions` says "Closed under the global context" for
  every property theorem.  (A scan of all loaded modules also finds the seven
  parameters of `Coq.ssr.ssrunder.Under_rel`, an opaque module of Coq's own library that
  is loaded indirectly; no theorem depends on them.)
* The reading of the Rust code and of the library code it calls (serde,
  serde_json, base64 0.13, bs58, varint, askar-crypto), as recorded in the
  comments of the model.  None of it was executed.
* Section 4 lists what is not modelled.

Some theorems have assumptions about the world.  They are predicates in the
statement, never axioms, and each is shown to hold of a concrete instance:

| Predicate | Says |
|---|---|
| `lawful C pair` (Spec/World) | decryption undoes encryption, unwrapping undoes wrapping, both sides of a key agreement agree, made signatures verify (C103: the symmetric half is proved of the standard algorithms) |
| `answers dir own` (Spec/World) | an event is an answer of resolvers over the directory `dir` and the secrets `own`, in any order |
| `directory dir` (Spec/World) | key ids of a document belong to its DID and need no JSON escapes |
| `secrets_match` (Spec/World) | a held secret belongs to the published key of the same id |
| `sealing_works`, `working` (Spec/Packing, Works) | the primitives used to encrypt and sign do not fail |
| `aead_shrinks` (Spec/Bounds) | opening a ciphertext does not yield more bytes than it has |
| `floats_stable` (Spec/Codec) | the float conversion reads back what it prints |
| `calm`, `quiet` (Spec/Panics, Cond) | the resolvers do not panic themselves |

Secrecy and unforgeability of the primitives are not assumed.  Theorems about
tampering say which inputs the primitives were given.

## 3. Plan per property

* C01-C05, C22 round trips: layered.  JSON print/parse inverse by induction on
  values; typed decode after typed encode; base64 inverse; each envelope layer as
  its own lemma under `lawful`; then composed.  C05 by induction on the routing keys.
* C06-C08, C11-C13, C18, C23, C30, C31: invariants of all executions of
  `unpack`, by inversion of the execution relation into `unpacked` (Spec/Events).
* C09: unique decomposition of the signing input plus round trip of the payload.
* C10, C55: uniqueness of the sorted list; the dot-joined list determines the ids.
* C14-C17, C25, C27, C28: exact characterisation of the decisions of packing.
* C19: measure on the text held by the envelope.
* C20, C21, C24, C26, C32, C36-C38, C48-C55, C59, C64, C65, C68, C74, C76,
  C78-C81, C84, C85, C93, C97: (partly) false of the
  code.  The statement is kept, a refutation with a computed witness is proved
  (`_refuted`), and the true part as a `_partial` theorem that names the missing
  condition; Props/Cond has the weakest conditions found.
* C29, C33-C35: inverse-function theorems by induction.
* C39-C41: equational reasoning on encryption; trace counting.
* C42: interleaving semantics of a list of programs against a stateless handler.
* C43-C47: functional specifications of small components.
* C53: equality of AEAD inputs implies equality of envelope parts.
* C56, C62: every decoder is characterised as a relation between JSON and records
  (`reads`), by induction on the members.
* C57: the printed text equals the literal text of Spec/Text.
* C58, C59: an invariant of everything that any decoder returns.
* C60, C61: forward reasoning about all executions (`safe`) from conditions that
  mention no execution.
* C63: C62 applied to what is written.  C66, C69: inversion of the wrappers.
* C67: as C62, for the options objects (Spec/Options.v); C68 follows from it.
* C70, C71: a weakest precondition over all executions whose postcondition is about every call (Spec/Asked.v says what a text names).  C72: two handlers that agree on those calls run alike.
* C73, C74: a weakest precondition over all executions whose postcondition relates the error kind to the answers given so far (Spec/Blame.v).
* C75, C76: an invariant of all reachable states of the transition system that ties each task to a partial execution of its library function; progress by induction on the rest of the program.
* C77: as C09; the text that was encrypted, plain or signed, determines the message.
* C82 (and the second part of C52): a simulation of the unpacking loop with two different metadata records (`alike`, Proofs/DeliverP).
* C83: the JavaScript resolvers are shown to be resolvers in the sense of the round-trip theorems (`says_answers`, Proofs/JsP), which then apply. C84: the JSON round trip for single values, with a count of the nesting levels.
* C85: the relations of Spec/Wire do not notice the changes that JavaScript makes (`unnoticed`, Proofs/JsObjP).
* C86: as C70, C71 and C73.
* C87: a budget for the calls of each stage, paid for by the bytes of the text it consumes (Proofs/TermP, CostP).
* C88: both sides of the key agreement give the same key, so the recipient's writing is the sender's; acceptance through C60's `valid`.
* C89: stages of `unpack` commute with the change of metadata that an outer envelope makes.
* C90: two runs side by side, with secrets that the permitted primitives cannot tell apart, make the same calls and give the same result.
* C91: what a tag and a key agreed on with it say about the content key, on both sides, then C77.
* C92: the layer of the first mediator is put on last; the layer below through C40.
* C93: pairs of runs stage by stage; whatever key opens an envelope, the content encryption gets the same nonce, header and ciphertext.
* C94: the round trips of C02-C04 and C22 from what is known about the keys actually used; conversely inversion of the stages of a successful `unpack`.
* C95: from events to the directory and the secrets (inversion of each stage), and back by constructing an execution; C36 and C59 then follow for every message.
* C96: the parser is proved sound and complete for the grammar by mutual induction over derivations and over the fuel of the parser.
* C97: every derived reader is shown blind to the spelling (a relation between raw trees); the printed form then stands for all spellings.
* C98: a second pass of weakest preconditions over unpack and pack_encrypted, with a cause per error kind as post-condition; a JSON text never makes a reader fail with InvalidState (from C96).
* C99: exact lengths from the exact texts of C57; equally long messages by comparing two executions with one trace, program by program (`both`).
* C100: the run of each packing function is followed forwards from the conditions and backwards from its success, for a secrets resolver with a fixed order.
* C101: from the exact description of accepted texts (C95), read for the first and for the third party.
* C102: the description of accepted texts (C95) is monotone in the directory.
* C103: AES is inverted round by round (MixColumns by linearity over GF(2)), then key wrapping, CBC padding and key streams; lengths are invariants.
* C104: a relation between the tree of a text and the trees the reader leaves of its
  beginnings; every decoder that reads the former stops at the end of the latter.  The converse by
  completing what was read. (Proving this showed that the model's reader once gave up too early on
  texts like `[[`; its fuel was doubled.)
* C105: two executions that differ in the attachments only are compared.

## 4. Not modelled

* The internals of askar-crypto and of the random generator.  The standards' symmetric
  algorithms are written out (Spec/Ciphers) and proved to be inverses (C103); curves
  are only in the tests.
* Error message texts (only `ErrorKind`), logs, `Debug` output; memory and time use.
* `f64` arithmetic: a float is represented by its printed form; parsing a number
  with fraction or exponent is an oracle (`fparse`).
* Threads and wakers of the async runtime: only the order of resolver calls.
* JavaScript: values cross the border as JSON text.  What happens to them inside
  JavaScript (order of members, numbers as doubles) is a relation with an
  arbitrary conversion of numbers (Spec/JsObj.v); only C85 uses it.
* uniffi: the generated glue that converts arguments and results.
* A `type` of a service that is not a string is an error in the model; some
  versions of serde accept the number of the variant.
* Benches, the demo and test directories.

## 5. Tests of the model

The code could not be run here, so the model is compared with the repository's
unit tests instead.  These are tests, not proofs: they are evidence that the model
reads the code correctly, and no property theorem uses them.

* Spec/Sha2, Aes, Chacha, Ciphers and Tests/Curves implement the primitives (SHA-256/512, HMAC, AES,
  key wrap, GCM, CBC-HMAC, XChaCha20-Poly1305, X25519, Ed25519, P-256, secp256k1; they
  are exercised by the repository's vectors); Tests/Real assembles them into a `crypto` record.
* Tests/Vectors holds all constants of `src/test_vectors`, and Tests/Parse, Verify,
  Decrypt, Unpacking and KeyForms the tests of `src/jwe/parse.rs`, `src/jws/parse.rs`,
  `src/jws/verify.rs`, `src/jwe/decrypt.rs`, `src/message/unpack/mod.rs` and the key
  forms of `src/utils/did.rs`: 181 checks, translated from the Rust text by
  `tools/gen_tests.py`.  Tests/Packing has the tests of packing, `from_prior`, the
  builders and the small helpers, transcribed by hand.
* Left out: tests marked `#[ignore]`, those of the RFC's 128 bit key wrap (a type the
  library never instantiates), and tests that differ from an included one only in the
  algorithm.
* One earlier misreading was found this way: key import does not look at `kty` and
  `crv`.  It is part of the `crypto` record, so no theorem was affected.
