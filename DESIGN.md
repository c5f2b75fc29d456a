# Formal model of didcomm-rs: design

Source modelled: `/repo` (crate `didcomm-rs` 0.7.2, default features `raw-crypto`, `resolve`, `out-of-band`; C59 also without `resolve`), read as text, not run.
Prover: Coq 8.16.1, standard library only. Build: `coq_makefile -f _CoqProject -o Makefile && make -j4` in `rocq`.

## 1. Layers (`rocq/theories`)

| layer | files | content |
|---|---|---|
| bytes | `Bytes`, `Base64`, `Utf8` | byte strings (Rust `String` and `Vec<u8>` are both Coq `string`, i.e. lists of bytes), decimal, hex, `base64_url`, UTF-8 |
| JSON | `Json`, `Value`, `Float` | syntax tree, compact printer and text parser of serde_json, `serde_json::Value`, reading and printing of f64 |
| serde | `Types`, `Serde` | the structs and enums of the crate, their derived `Serialize`/`Deserialize` (flatten, default, skip, rename, duplicate, unknown and null members, sequence form) |
| API | `Message`, `Attach`, `Problem`, `Regex` | builders, setters, getters, threading, attachments, invitations, problem reports, the two regular expressions |
| crypto that is computed | `ChaCha`, `Sha256`, `Aead`, `Curve`, `Sha512`, `Ed25519`, `Cbc` | content encryption key of `seal`, hash of `concat_kdf`, XChaCha20-Poly1305 and AES-256-GCM, X25519, Ed25519, AES-256-CBC |
| envelopes | `Envelope` | encrypt, decrypt, sign, verify, seal, seal_signed, routed_by, receive, external crypto path; record `env` of oracles |
| other configuration, constructors | `NoResolve`, `Build`, `DidUrl` | the functions as compiled without the feature `resolve`; constructors of keys, claims and signed envelopes; the type of didurl.rs |
| specification | `Spec`, `SpecOps`, `SpecText`, `SpecJson`, `SpecFloat`, `SpecSign`, `SpecSeal`, `SpecKey`, `SpecRoute`, `SpecDecode`, `SpecEnv`, `SpecPrim` | the vocabulary the theorems are stated with; not used by the model |
| laws | `CryptoLaws`, `Examples` | laws of the primitives used as hypotheses, the environment `toy` that satisfies all of them, concrete messages |
| proofs | `*Facts*.v`, `PrimeCert`, `CurveField`, `Edwards`, `EdOrder`, `EdPoint`, `SignSize` | lemmas; the integers modulo 2^255-19 as a field, the group law of the Edwards curve, the order of its generator |
| check of the model | `Replay` | the crate's own tests (35 examples, standing for 46 of the 50 tests in `src` and `tests`), replayed on the model with the values the tests use; not replayed: ES256K against a fresh key, randomness of an iv, a test without assertion, building an attachment builder |
| theorems | `Prop*.v` | theorems `Cnn_…`, examples beside them, `Print Assumptions` for each |

Every definition of the model files has a comment with file and lines in `/repo`.

## 2. Outcomes

`res A := Ok a | Err e | Panic`. `Err` carries the constructor of `crate::Error` (texts of nested errors are not modelled).
`Panic` is every `unwrap` on an error, slice index out of range, `GenericArray::from_slice` length mismatch and `todo!()`.

## 3. Oracles

Fields of the record `env` or explicit arguments, never axioms, so every theorem holds for all of them:

* X25519 (`x_pub`, `x_dh`; C69 instantiates it with the modelled function), XChaCha20-Poly1305 and AES-256-GCM (`xc_*`, `gcm_*`; C68 instantiates them with the modelled functions), AES-CBC (`cbc_enc`; C73 instantiates it with the modelled function), the three signature schemes (`sig_sign`, `sig_verify`; C70 instantiates EdDSA with the modelled functions, ES256 and ES256K stay open);
* the DID resolver (`resolve`);
* the iteration order of every `HashMap` built by deserialisation (`ho`, one per call);
* the f64 round through text (`fl`; C55 instantiates it with the modelled function `float_text`);
* random values, uuid and time are arguments.

Laws used as hypotheses where a claim needs them:

* `env_ok`: an order is a permutation; a float prints as a JSON number with fraction or exponent (proved for `float_text`, `C55_env`);
* `dh_ok`: public keys have 32 bytes, Diffie-Hellman commutes (proved for X25519, `C69_agreement`);
* `aead_ok`: decryption inverts encryption, 16 byte tag (proved for the two ciphers of the crate, `C68_lawful`);
* `others_closed`, for recipients after the first: with their key, the wrapped content key in the entries of the recipients before them is refused (or gives the
  same content key). A condition on the one run, true except with negligible probability; computed for an example with the ciphers of the crate (C68). It follows from
  the idealisation `aead_bound` (a ciphertext opens to nothing but its plaintext) and is empty for the first recipient;
* `crypto_total`: encryption never refuses, used only in the `_total` theorems (C68_seal_total: with the ciphers of the crate, for messages of up to 64 MiB);
* `key_pair`: what the private key signs validates (proved for Ed25519, `C70_key_pair`); `exact_pair` (idealisation): a signature validates exactly one text;
* unforgeability in C17: the AEAD accepts under the key only what was produced (one message, or a log `only_log`).

`toy` (file `CryptoLaws.v`) satisfies `env_ok`, `dh_ok`, `aead_ok`, `aead_bound`, `crypto_total` and `key_pair`; the examples use it.

## 4. Trusted base

* The Coq kernel. Every theorem is reported by `Print Assumptions` as "Closed under the global context"; no axiom is used by any of them.
  (`coqchk -o` lists the axioms of the loaded library `Coq.ssr.ssrunder`; no theorem depends on them.)
* That the model files transcribe the code, with the simplifications stated in their comments.
* Semantics of dependencies as written in the comments: serde and serde_json 1.0 with features `std`, `raw_value` (no `preserve_order`,
  `arbitrary_precision`, `float_roundtrip`; recursion limit 128), base64 0.13 (padding optional, trailing bits zero), regex,
  hex, ryu (shortest nearest decimal), rand_chacha, sha2; 64-bit `usize`.
* The laws of section 3 where a theorem names them.

## 5. Modelled and not modelled

Modelled: `src/messages/message.rs`, `headers/*`, `helpers/*`, `attachment.rs`, `mediated.rs`, `out_of_band.rs`, `problem_report.rs`,
`prior_claims.rs`, `types.rs`, `didurl.rs` (C80; no `mod` statement includes it), `src/crypto/*` (dispatch, key and nonce handling), `src/error.rs` (constructors).

Not modelled:

* logging at other levels than trace, texts of error messages, memory, timing, quality of randomness;
* the feature `jose-biscuit`, `asymmetric_encryptor` (`todo!()`);
* the inside of ES256 and ES256K and of the DID resolver;
* serde_json's tolerance for lone surrogates and invalid UTF-8 inside ignored members: the model refuses such texts, the code accepts them.

## 6. What the proofs say about the code

Behaviour of the crate that the theorems establish and that a user may not expect:

1. `seal` uses one constant content encryption key (C16), so anybody who has read an envelope can put another message into it (C74), also through any number of mediators (C81), and can pass a signed message on to others, who accept it (C75).
2. A signing key passed to `receive` does not require a signature (C10); without one, the key in the envelope is trusted (C09), for encrypted messages the one named outside of what is signed, so that the example of README.md:165-209 is refused (C78).
3. Unprotected JWS headers win over protected ones (C11); `from` is not bound to the sender key (C18).
4. Headers are re-serialised before they are checked (C50), so custom members of keys can break verification and decryption (C07, C51).
5. `receive` panics on many malformed encrypted envelopes (C25, C46); `seal` panics on recipient keys of fewer than 32 bytes, given or from a DID document (C83).
6. Messages with empty `to`, reserved header names or 127 nested levels are sent but not received (C02, C04); without `from`, sealed messages are not received (C19).
7. `Mediated::shape` never succeeds (C22); `get_iv` rejects all envelopes of the crate (C39); A256CBC never seals (C20); an exported iv is unrelated to the one in the envelope (C38).
8. Half of the A256GCM iv is not authenticated (C52); `enc` plays no part in decryption: messages with any value there are received (C12).
9. Message URIs are ambiguous (C32); replies to a message without thread id are not linked to it (C31), replies to a message without sender are addressed to the empty text (C82); problem codes built from known problems are not accepted back (C34); common did:web ids give an empty kid (C35).
10. Forward headers do not have the forward type; a thread decorator naming its own message does not link replies (C65). Compact JWTs are not accepted in `from_prior` (C60). Custom members of keys under field names are captured or make the message unreadable (C61).
11. Recipient entries can be relabelled on the way (C58).
12. The member name that serde_json reserves for raw values changes or destroys bodies (C63).
13. X25519 keys of low order are accepted; envelopes made with them open with every secret (C69).
14. The neutral element is accepted as a public key of EdDSA, with one signature valid for everything; key pairs whose halves do not belong together sign, and two such signatures give the secret away (C70).
15. At log level trace the secret keys of sender and recipient are logged (C77).
16. Every mediator on the way of a message makes the envelope at least four times as long (C79).
17. `DidUrl::from_str` accepts any text with something like `iii::` in it (C80; the file is not compiled).
18. Expiry is not enforced (C45). Some fractions change when a body is read back (C03, C55).

## 7. Mutation tests

`seeded/LOG.jsonl`, one line per attempt: the definition and edit, the claim it breaks, the lemmas whose proofs stopped working, the theorems that
depend on them, the theorems tightened. A failed proof is not repaired, so `theorems_failed` is an upper bound of the theorems the edit makes false.

## 8. Properties

* **C01** Plain message survives as_raw_json -> receive (proved; PropPlain.v). Hypotheses env_ok (hash maps iterate over their entries; a float prints as a JSON number), sendable (the side conditions of the claim), typ and names as in the claim. Decode(encode m) per struct, parse(print j) = j, then receive is followed. The same for receive_external_crypto without conditions on typ and names.
  Theorems: `C01_plain_round_trip`, `C01_external_round_trip`.
* **C02** What breaks the plain round trip (proved; PropPlain.v). One theorem per condition: empty `to` always fails, a reserved header name never gives the same message back, `iv` and `signature(s)` make the text look like an envelope; with an algorithm in the header the body is then taken for the signed envelope.
  Theorems: `C02_empty_to`, `C02_reserved_header`, `C02_iv_header`, `C02_signature_header`, `C02_signature_header_body`, `C02_signature_header_lost`.
* **C03** body()/get_body() preserve the JSON value and are canonical (proved; PropFloat.v, PropValue.v). Document and value are related by an independent relation (reads); `body` is characterised by iff. The canonical form theorem has the hypotheses that the body is stable (numbers are printed as they are read, no object starts with the reserved name) and not nested too deeply; C03_float_drift_refuted shows with the modelled float code that it cannot be dropped; integer-only documents without the reserved name and modest fractions (C55) satisfy it; C63_round_trip_refuted shows that the condition on the name is needed.
  Theorems: `C03_float_drift_refuted`, `C03_body_reads`, `C03_body_rejects`, `C03_reads_functional`, `C03_get_body_canonical`, `C03_integer_documents`.
* **C04** Nesting boundary of bodies (proved; PropValue.v). Depth against an independent nesting predicate, both sides of both limits (127 for body, 126 for receive).
  Theorems: `C04_too_deep`, `C04_deep_body_lost`, `C04_shallow_body_received`.
* **C05** sign -> verify round trip (proved; PropSign.v). Key pair correctness (key_pair) is a hypothesis on the signature oracle; few_custom: at most one custom member per embedded key, needed because of C07.
  Theorems: `C05_sign_verify`, `C05_flat_sign_verify`, `C05_sign_receive`, `C05_sign_total`.
* **C06** verify is sound (proved; PropSign.v). Inversion of the verification loop; entry_valid is stated with the text that RFC 7515 signs, built independently.
  Theorems: `C06_verify_sound`, `C06_verify_value_sound`.
* **C07** Protected headers carrying a JWK with several custom members (proved; PropSign.v). Iteration orders are oracles; invariance for at most one custom member, a rejecting order otherwise.
  Theorems: `C07_few_order_free`, `C07_order_rejects`.
* **C08** receive of a JWS authenticates under the given key (proved; PropSign.v). For directly signed and for decrypted-then-verified texts. C08_same_message: the returned message is the one of the signed payload.
  Theorems: `C08_receive_signed`, `C08_receive_decrypted`, `C08_same_message`.
* **C09** receive of a JWS without key trusts the key named in the envelope (proved; PropSign.v). For every message and attacker key pair an accepted envelope is constructed; C09_kid_decides: without a key the hex-decoded kid is used.
  Theorems: `C09_attacker_accepted`, `C09_kid_decides`.
* **C10** Passing a signing key does not require a signature (proved; PropPlain.v). The outcome is independent of the signing key unless the (decrypted) text is classified as signed.
  Theorems: `C10_keys_ignored`, `C10_unsigned_accepted`, `C10_decrypted_unsigned`.
* **C11** Which header decides algorithm and key id (proved; PropKey.v, PropSign.v). Against a specification of the getters; C11_jws_unprotected_wins exhibits an accepted envelope whose unprotected alg overrides the signed one.
  Theorems: `C11_jwe_protected_wins`, `C11_jwe_sealed`, `C11_jwe_fallback`, `C11_jws_unprotected_wins`.
* **C12** seal -> receive round trip with explicit keys (proved; PropSeal.v). Hypotheses: X25519 commutes, AEAD decryption inverts encryption, for recipients other than the first others_closed (in this run, the wrapped keys of earlier recipients do not open to something else under this recipient's key). C12_seal_total: seal succeeds under total crypto. C68 discharges the AEAD hypotheses for the two ciphers of the crate, C69 those about X25519.
  Theorems: `C12_seal_receive`, `C12_seal_total`.
* **C13** seal -> receive round trip with resolved keys (proved; PropSeal.v). As C12 with the resolver as oracle; mixed: some keys given, some resolved.
  Theorems: `C13_resolved_keys`, `C13_mixed_keys`.
* **C14** seal rejects bad arguments with a defined error (proved; PropSeal.v). Which error, iff, in which order; quantified over all oracles and random values, so independent of them.
  Theorems: `C14_bad_arguments`, `C14_only_bad_arguments`, `C14_one_error`.
* **C15** One recipient entry per `to` entry (proved; PropSeal.v). Inversion of the loop of seal; the entry is compared with an independent description.
  Theorems: `C15_entries`.
* **C16** The content encryption key is a constant (proved; PropSeal.v). The key is computed (ChaCha20 of the zero seed, block function modelled) and does not occur among the arguments of seal.
  Theorems: `C16_constant_key`, `C16_key_value`.
* **C17** Tampering with protected header, ciphertext, iv or tag is detected (proved; PropSeal.v). C17_decrypt_sound without assumptions; the tampering theorems assume unforgeability of the AEAD for one message, the log theorems for a log of messages (only_log).
  Theorems: `C17_decrypt_sound`, `C17_tampering_xc20p`, `C17_tampering_a256gcm`, `C17_log_xc20p`, `C17_log_a256gcm`.
* **C18** `from` is not bound to the sender key (proved; PropSeal.v). Constructed for arbitrary pairs of DIDs; C18_skid_key_used: the key that is used belongs to skid.
  Theorems: `C18_forged_from`, `C18_skid_key_used`.
* **C19** Envelopes sealed without `from` cannot be received (proved; PropSeal.v). seal succeeds, receive fails for every recipient.
  Theorems: `C19_anonymous_rejected`.
* **C20** A256CBC can be selected but never sealed (proved; PropSeal.v). seal and routed_by fail for every message prepared for A256CBC.
  Theorems: `C20_cbc_never_seals`, `C20_cbc_error`, `C20_cbc_never_routes`, `C20_supported`.
* **C21** Routed messages reach the recipient through the mediator (proved; PropRoute.v). C12 twice and the JSON codec of Mediated. C21_payload_unique: the forwarded bytes determine the envelope.
  Theorems: `C21_mediator`, `C21_recipient`, `C21_payload_unique`, `C21_total`.
* **C22** Mediated::shape never succeeds (proved; PropKey.v). For every message, also for every correctly built forward.
  Theorems: `C22_shape_never_succeeds`, `C22_shape_of_mediated`.
* **C23** seal_signed -> receive round trip (proved; PropRoute.v). Round trip up to the header; C23_same_header_refuted: the header is never kept in general (the statement with header is false). C23_wrong_key: with a non-matching signer key it fails.
  Theorems: `C23_round_trip`, `C23_wrong_key`, `C23_total`, `C23_same_header_refuted`.
* **C24** receive, verify and parsing never panic on plain or signed input (proved; PropPlain.v). No Panic reachable: verify, receive without key, receive of texts that are not encrypted, the parsing entry points.
  Theorems: `C24_verify`, `C24_receive_without_key`, `C24_receive_not_encrypted`, `C24_parsing`.
* **C25** receive panics on malformed encrypted envelopes (proved; PropKey.v). C25_no_panic under explicit well-formedness, C25_sealed_no_panic for sealed envelopes; otherwise the panics are exhibited for whole families of texts and keys.
  Theorems: `C25_no_panic`, `C25_sealed_no_panic`, `C25_bad_text_panics`, `C25_short_key_panics`, `C25_wrong_cek_panics`.
* **C26** Classification of incoming texts (proved; PropPlain.v). Independent classification of the JSON tree; iff, determinism and the requirement of an object.
  Theorems: `C26_classification`, `C26_only_objects`, `C26_encryption_keys`, `C26_deterministic`.
* **C27** to() leaves exactly the non-empty recipients in order (proved; PropSetters.v). Filter specification, iteration and histories.
  Theorems: `C27_to`, `C27_to_twice`, `C27_to_history`.
* **C28** Setter histories: last write wins and nothing else changes (proved; PropSetters.v). Inductive type of builder calls; per field the last writer.
  Theorems: `C28_frame`, `C28_last_write`, `C28_fails`, `C28_resolved_kid`.
* **C29** Custom headers behave like a map (proved; PropSetters.v). Lookup, iterator, frame and histories.
  Theorems: `C29_lookup`, `C29_iterator`, `C29_empty_key`, `C29_frame`, `C29_history`.
* **C30** Rotation data (proved; PropRoute.v, PropSeal.v, PropSetters.v, PropSign.v). Invariant over histories; plain, signed, sealed and signed-then-sealed round trips.
  Theorems: `C30_signed_sealed_round_trip`, `C30_sealed_round_trip`, `C30_get_prior`, `C30_setters`, `C30_plain_round_trip`, `C30_signed_round_trip`.
* **C31** Threading of replies and children (proved; PropSetters.v). Replies with and without decorator, chains of any length. C31_unlinked(_refuted): the stronger claim that a reply refers to the first message is false when that has neither thid nor decorator.
  Theorems: `C31_reply_decorator`, `C31_reply_plain`, `C31_chain`, `C31_thread_exists`, `C31_unlinked`, `C31_unlinked_refuted`, `C31_parent`.
* **C32** Message URIs are ambiguous (proved; PropSetters.v). Every URI of non-trivial length is shared by different triples; injective under the length condition.
  Theorems: `C32_uri`, `C32_ambiguous`, `C32_always_ambiguous`, `C32_injective`.
* **C33** Attachments keep order and content (proved; PropRoute.v, PropSeal.v, PropSetters.v, PropSign.v). Histories; attachments through plain, signed, sealed and signed-then-sealed envelopes; deserialisation iff.
  Theorems: `C33_signed_sealed_round_trip`, `C33_sealed_round_trip`, `C33_history`, `C33_raw_payload`, `C33_deserialize`, `C33_deserialize_total`, `C33_one_bad`, `C33_plain_round_trip`, `C33_signed_round_trip`.
* **C34** Problem codes (proved; PropText.v). The matcher decides the language of the expression (C34_matcher), which is proved equal to a direct description of codes.
  Theorems: `C34_matcher`, `C34_from_code`, `C34_from_code_error`, `C34_bar`, `C34_known_not_accepted`, `C34_known_distinct`.
* **C35** Recipient kid is the DID part of a DID URL (proved; PropText.v). did_url describes the DID URLs the crate recognises without regular expressions. C35_web_refuted: common did:web identifiers are not among them.
  Theorems: `C35_did_url`, `C35_not_did_url`, `C35_cases`, `C35_prefix`, `C35_idempotent`, `C35_injective_on_dids`, `C35_web_refuted`.
* **C36** base64url codec (proved; PropValue.v). Against RFC 4648 written as bit groups.
  Theorems: `C36_encode_rfc`, `C36_decode_encode`, `C36_encode_injective`, `C36_decode_only_encodings`.
* **C37** Out-of-band invitations (proved; PropSetters.v). Panic iff not UTF-8; content iff document.
  Theorems: `C37_panics`, `C37_invitation`, `C37_accepts`.
* **C38** External crypto path (proved; PropKey.v). Envelope, refusals, export and the unrelated iv.
  Theorems: `C38_external_received`, `C38_external_refused`, `C38_export_round_trip`, `C38_external_round_trip`, `C38_iv_unrelated`.
* **C39** Message::get_iv rejects every sealed envelope (proved; PropKey.v). For seal, encrypt and the external path.
  Theorems: `C39_get_iv_seal`, `C39_get_iv_encrypt`, `C39_get_iv_external`.
* **C40** Key derivation agreement and domain separation (proved; PropKey.v). Input of the hash as an independent text; SHA-256 is modelled. C40_secret_length_refuted: without the length condition the secret is not determined.
  Theorems: `C40_kdf_correct`, `C40_domain_separation`, `C40_secret_length_refuted`, `C40_agreement`.
* **C41** Declared types of envelopes (proved; PropSeal.v, PropSign.v). Types of encrypted, sealed and signed envelopes and of the payload.
  Theorems: `C41_encrypted_types`, `C41_sealed_types`, `C41_signed_types`.
* **C42** Serialised JSON is well-formed for arbitrary strings (proved; PropValue.v). One JSON object, UTF-8, no control characters, parsed back to the same tree; the text determines the message.
  Theorems: `C42_raw_json`, `C42_get_body`, `C42_raw_json_injective`.
* **C43** Accepted messages are stable under re-sending (proved; PropPlain.v). What the decoder accepts satisfies the hypotheses of C01. Conditions on the body: stable and at most 126 levels; C63_resend shows that a text without the reserved name and with integers meets them.
  Theorems: `C43_resend`, `C43_resend_any`.
* **C44** Enumerated header values are unambiguous (proved; PropValue.v). Finite enumerations; every other string is rejected.
  Theorems: `C44_message_type`, `C44_key_ops`, `C44_key_algorithm`, `C44_names`.
* **C45** Expiry is not enforced (proved; PropPlain.v). The model has no clock on the receive path; any expires_time is accepted, also on received messages.
  Theorems: `C45_expiry_ignored`, `C45_expiry_of_received`.
* **C46** Other recipients' entries do not matter (proved; PropKey.v). Independence of entries after and cleanly failing entries before; a malformed earlier entry panics.
  Theorems: `C46_other_entries`, `C46_clean_failure`, `C46_bad_entry_panics`.
* **C47** Envelopes without recipient entries (proved; PropKey.v). Static key derivation and the empty list.
  Theorems: `C47_static_secret`, `C47_static_round_trip`, `C47_empty_list`.
* **C48** verify stops at the first unusable signature entry (proved; PropSign.v). Exact outcome of verify by the first entry that is not cleanly rejected.
  Theorems: `C48_outcome`, `C48_verify_iff`, `C48_unusable_entry`.
* **C49** Signing for nobody (proved; PropSign.v). verify and receive under every key.
  Theorems: `C49_verify_fails`, `C49_receive_fails`.
* **C50** verify checks the re-serialised header (proved; PropSign.v). Idealisation exact_pair (a signature validates exactly the text it was made for) for the rejection only.
  Theorems: `C50_foreign_header_rejected`, `C50_header_text_free`.
* **C51** Custom members of header keys and decryption (proved; PropSeal.v). As C07 for decryption.
  Theorems: `C51_few_order_free`, `C51_order_rejects`.
* **C52** A256GCM leaves half of the iv unauthenticated (proved; PropSeal.v). For every replacement of the tail and every receiver.
  Theorems: `C52_iv_tail`.
* **C53** JSON texts are read as RFC 8259 defines them (proved; PropGrammar.v). Inductive grammar of RFC 8259 with the tree as index; iff, unambiguous, printing.
  Theorems: `C53_grammar`, `C53_grammar_slice`, `C53_unambiguous`, `C53_print`, `C53_numbers`.
* **C54** Byte strings are accepted as text exactly when they are UTF-8 (proved; PropGrammar.v). UTF-8 as concatenation of encoded scalar values; iff.
  Theorems: `C54_utf8`, `C54_encode`, `C54_decoded_strings`, `C54_decoded_trees`.
* **C55** Fractions in bodies keep their value (proved; PropFloat.v). f64 reading (serde_json without float_roundtrip) is modelled with exact integer arithmetic and rounding to nearest even; printing as the shortest nearest decimal in the layout of ryu (the arithmetic of ryu itself is not modelled). The drift is C03_float_drift_refuted. C55_read_all specifies what every token is read as (collected digits, rounded powers of ten).
  Theorems: `C55_read`, `C55_read_all`, `C55_collected`, `C55_read_value`, `C55_print`, `C55_kept`, `C55_env`, `C55_body`, `C55_sendable`, `C55_plain_round_trip`.
* **C56** Which texts are messages and envelopes (proved; PropDecode.v). SpecDecode.v describes fields, structs and flattened parts by relations (only/omitted/given, required/optional/defaulted); the decoders of Serde.v are shown sound and complete against it. Completeness is up to the order of maps. C56_variants: both notations of enum values, with the flag bf for buffered positions.
  Theorems: `C56_message_sound`, `C56_message_complete`, `C56_jws_sound`, `C56_jws_complete`, `C56_jwe_sound`, `C56_jwe_complete`, `C56_slices`, `C56_parts`, `C56_variants`, `C56_plain_received`, `C56_plain_accepted`.
* **C57** The order of members does not count (proved; PropOrder.v). reordered (SpecDecode.v): permutation of members of objects with distinct names, at any depth, reflexive, symmetric and transitive. Every relation of C56 is shown to ignore it. Objects with repeated names are excluded: there the order counts (example).
  Theorems: `C57_message`, `C57_receive`, `C57_envelope`, `C57_reordered`.
* **C58** What counts in a recipient entry (proved; PropOrder.v). same_material (SpecDecode.v) names the four parts that count. The entries are outside the authenticated data (C17).
  Theorems: `C58_material`, `C58_sealed`, `C58_relabelled`.
* **C59** Without the feature resolve (proved; PropFeature.v). NoResolve.v models the functions of this configuration separately, with the lines under cfg(not(feature = resolve)).
  Theorems: `C59_sending`, `C59_keys_given`, `C59_key_missing`, `C59_receiving`, `C59_sender_missing`, `C59_sender_needed`, `C59_round_trip`, `C59_sealed_refused`.
* **C60** Rotation claims from a text (proved; PropBuild.v). Build.v models from_str and try_from; claims_text (SpecDecode.v) and document (SpecJson.v) describe the accepted texts.
  Theorems: `C60_from_str`, `C60_error`, `C60_bytes`, `C60_round_trip`, `C60_compact_refused`, `C60_message_refused`.
* **C61** Keys put together by callers (proved; PropBuild.v). Build.v models the builders; jwk_text (SpecDecode.v) describes readable keys.
  Theorems: `C61_algorithm_text`, `C61_custom_member`, `C61_captured`, `C61_unreadable`, `C61_ephemeral`, `C61_message_lost`, `C61_recipients`, `C61_new_key`.
* **C62** Signed envelopes put together by callers (proved; PropBuild.v). Build.v models the constructors.
  Theorems: `C62_read`, `C62_read_flat`, `C62_one_entry`, `C62_no_entry`, `C62_sign`.
* **C63** The member name reserved by serde_json (proved; PropRaw.v). reads (Spec.v) has a separate case for the reserved name; part: occurrence at any depth. C63_order_refuted and C63_round_trip_refuted: witnesses that C57 and C03 need the condition on the name.
  Theorems: `C63_contained`, `C63_refused`, `C63_never_stored`, `C63_text_lost`, `C63_message_lost`, `C63_never_replaced`, `C63_unlimited_depth`, `C63_ordinary_text`, `C63_ordinary_received`, `C63_resend`, `C63_order_refuted`, `C63_round_trip_refuted`.
* **C64** Attachments as built (proved; PropParts.v). Call histories folded over the builders; latest: relational description of the last call for a member.
  Theorems: `C64_data`, `C64_attachment`, `C64_try_from`, `C64_value_back`.
* **C65** Thread decorators and forward headers as created (proved; PropParts.v). C65_test relates the test of the code to marks_reply (SpecOps.v); C65_forward also gives the type, C65_forward_sent the round trip.
  Theorems: `C65_marks`, `C65_test`, `C65_started_thread_lost`, `C65_reply_thread`, `C65_forward`, `C65_forward_sent`.
* **C66** Iteration orders of hash maps do not count (proved; PropSame.v). reorder (SpecEnv.v) exchanges the iteration order of an environment; calm states the condition on embedded keys. Proved by the completeness of the decoders (C56) and by the invariance of receive under reordering of members (C57). C66_orders_refuted: witness that the condition is needed.
  Theorems: `C66_written`, `C66_received`, `C66_sending`, `C66_plain`, `C66_envelopes`, `C66_signed`, `C66_sealed`, `C66_orders_refuted`.
* **C67** What an encrypted envelope shows (proved; PropSame.v). alike, differ_only and same_but_for (SpecEnv.v). Secrecy of the ciphers themselves is outside the model; note C16: the content key is a constant, so whoever knows the program can open the ciphertext.
  Theorems: `C67_shown`, `C67_explained`, `C67_visible`, `C67_size`.
* **C68** The content ciphers (proved; PropAead.v). Aead.v models both ciphers (RFC 8439, draft-irtf-cfrg-xchacha-03, FIPS 197, SP 800-38D), checked against published test vectors. The laws assumed elsewhere are proved of them; seal, receive and C16 are restated with them, so that of the primitives only X25519 (two laws, proved in C69) remains assumed. C68_substitution: the S-box is the one FIPS 197 defines. Secrecy and unforgeability are not claimed.
  Theorems: `C68_lawful`, `C68_accepted_xc20p`, `C68_accepted_a256gcm`, `C68_size`, `C68_defined_xc20p`, `C68_defined_a256gcm`, `C68_nonce_reuse`, `C68_substitution`, `C68_seal_total`, `C68_seal_receive`, `C68_constant_key`.
* **C69** The key agreement (proved; PropCurve.v). Curve.v models X25519 (RFC 7748); PrimeCert.v holds a primality certificate (Pocklington) of the modulus and the proof that 121665*121666 is no square; CurveField.v is the field, Edwards.v the group law (complete, since the parameter is no square), CurveFacts.v the ladder. C69_lawful, C69_seal_total and C69_seal_receive: the environment whole has X25519, both ciphers and serde_json floats; only signatures, resolver and hash map orders are left open. For recipients after the first others_closed remains. C69_multiples is about points of the curve; for coordinates of the twist only C69_same_point is stated. Secrecy is not claimed. The crate multiplies the base point by a table, the model by the ladder.
  Theorems: `C69_prime`, `C69_curve`, `C69_group`, `C69_denominators`, `C69_multiples`, `C69_public_key`, `C69_clamp`, `C69_agreement`, `C69_same_point`, `C69_low_order`, `C69_low_order_receive`, `C69_lawful`, `C69_seal_total`, `C69_seal_receive`, `C69_public_envelope`.
* **C70** EdDSA signatures (proved; PropEd.v). Ed25519.v models ed25519-dalek 1.0 (RFC 8032), Sha512.v its hash, both checked against published vectors when PropEd.v is compiled. EdOrder.v: certificate that the order L is prime, and [L]B = 0 by a checked chain; EdPoint.v: extended coordinates and texts of points against the group of C69; EdFacts.v: signatures. C70_reads, C70_verify, C70_verify_error and C70_sign are equivalences. C70_seal_signed_total bounds (recipients + 2) * (message bytes + 1000) by 2^22. Not claimed: unforgeability. The last hypothesis of C70_forgery (two challenges differ) is computed for a vector, not proved of the example. Simplification: dalek multiplies by tables, the model by doubling.
  Theorems: `C70_curve`, `C70_base`, `C70_order`, `C70_reads`, `C70_reads_one`, `C70_text`, `C70_public_key`, `C70_sign`, `C70_verify`, `C70_verify_error`, `C70_unique`, `C70_key_pair`, `C70_sign_receive`, `C70_any_signer`, `C70_weak`, `C70_weak_receive`, `C70_two_publics`, `C70_forgery`, `C70_seal_signed_total`, `C70_seal_signed`.
* **C71** Hash functions and ciphers of the standards (proved; PropPrim.v). SpecPrim.v states the standards by indices, numbers and relations, without the model: words and rotations as arithmetic, schedules and rounds as sequences, products of polynomials with a remainder relation, Poly1305 as a polynomial. PrimFacts.v (SHA-2, both word sizes by one proof), PrimFacts2.v (constants by a checked trial division and integer roots; AES: all 256 substitutions checked, products, key schedule), PrimFacts3.v (products in GF(2^128) by an invariant of the bit loop, GHASH, counter mode), PrimFacts4.v (ChaCha20 quarter rounds by index, Poly1305 by Horner's rule), PrimUnique.v (each specification has at most one result; inverses are unique because polynomial products are commutative and associative).
  Theorems: `C71_sha256`, `C71_sha512`, `C71_constants`, `C71_aes`, `C71_a256gcm`, `C71_a256gcm_accepted`, `C71_xc20p`, `C71_xc20p_accepted`, `C71_content_key`, `C71_opened`, `C71_sealed`.
* **C72** Mediated delivery with the real primitives (proved; PropWhole.v). routed_by and receive of C21 in the environment of C69 (X25519, XChaCha20-Poly1305 and AES-256-GCM computed by the model; only the DID resolver, float printing and map orders remain oracles). PropWhole.v bounds the length of every member of the sealed envelope and of the outer message, so that success follows from the size of the message, the number of recipients and the length of key ids in DID documents (short_ids, at most 65536 bytes). The condition others_closed for recipients after the first is that of C13.
  Theorems: `C72_size`, `C72_total`, `C72_total_message`, `C72_mediator`, `C72_recipient`.
* **C73** The A256CBC closure (proved; PropCbc.v). Cbc.v models libaes (padding on, its default), SpecCbc.v states CBC and the padding by byte indices over the AES of SpecPrim.v. CbcFacts.v inverts SubBytes (table, all 256 checked), ShiftRows, MixColumns (from linearity of the doubling) and AddRoundKey, hence AES; CBC follows block by block.
  Theorems: `C73_permutation`, `C73_cbc`, `C73_total`, `C73_size`, `C73_one_text`, `C73_prefix`, `C73_no_envelope`.
* **C74** Other content in a sealed envelope (proved; PropSwap.v). replaced (PropSwap.v) is the procedure of somebody without keys: it parses the text, reads iv and protected as they stand and exchanges two members. Uses seal_text and find_cek_seal (the entries open as before) and receive_jwe_env. C74_signed: via seal_signed_ok; the substituted message is unsigned (compare C10). C74_real: without laws, by C69 and the size bounds of C68.
  Theorems: `C74_replaced`, `C74_signed`, `C74_possible`, `C74_rest`, `C74_real`.
* **C75** Signed messages passed on to others (proved; PropPass.v). decrypt, get_body, set_body, set_typ and seal are the public functions somebody in between calls. carried_received (PropPass.v) generalises the last step of C23 to an envelope of any message. C75_same: both deliveries give equal messages, not only the same up to map orders. C75_example: Bob passes a message of Alice on to Dave, whom it does not name.
  Theorems: `C75_passed_on`, `C75_same`, `C75_real`.
* **C76** Envelopes are deniable towards others (proved; PropDeny.v). made (PropDeny.v) is seal with the static shared secret computed from the other side (recipient's secret, sender's public key); made_iff: seal returns a text exactly if made returns it. C76_impersonation holds for one recipient; for more, the secrets of all are needed. Consequence of the authentication by key agreement, as intended by ECDH-1PU; signed messages (C23, C75) are not deniable.
  Theorems: `C76_deniable`, `C76_impersonation`, `C76_real`.
* **C77** Secret keys in the trace log (proved; PropLog.v). Log.v models the lines of level trace function by function, up to the point where each function returns; {:?} of strings and of public keys is left open (formats), slices are printed as numbers. secret_in (PropLog.v) is the reader. C77_receive covers all envelopes (without recipients nothing is shown), C77_delivered those of seal. C77_content and C77_signing_key: equal logs for different messages and signing keys. The line of level error (message_raw_crypto.rs:121) and the frame of the logger are not modelled.
  Theorems: `C77_seal`, `C77_seal_signed`, `C77_receive`, `C77_delivered`, `C77_content`, `C77_signing_key`.
* **C78** The key for the signature in an envelope is named outside of what is signed (proved; PropKid.v). carried_key and carried_refused (PropKid.v) generalise carried_received (C75) to any verification key passed to receive and to none. sign, set_kid, set_body, set_typ and seal are the public functions the forger calls. C09 says the same of a bare signed message; there the key id is part of the signature entry, here it stands outside of it. C78_example_readme is the documented example; C78_example_as_jwe: the same text is delivered if the key is passed.
  Theorems: `C78_forged`, `C78_inner_ignored`, `C78_outer_decides`, `C78_seal_signed`, `C78_as_jwe`, `C78_real`.
* **C79** Chains of mediators of any length (proved; PropOnion.v). wrap_one and onion (PropOnion.v) are what a sender writes with the public functions for further mediators: the second half of routed_by (message.rs:462-474) for any inner text; C79_routed_by says that routed_by is a chain of one. relayed is the specification, stated with receive and forwards (C21) alone. Induction over the chain; the size from below counts the digits of the payload list and the base64 text of the ciphertext. C79_example: three mediators, two algorithms.
  Theorems: `C79_routed_by`, `C79_relayed`, `C79_unique`, `C79_delivered`, `C79_total`, `C79_real`, `C79_growth`.
* **C80** Texts accepted as DID URLs (proved; PropUrl.v). Model in DidUrl.v with the matcher of Regex.v; a search is a match with anything before and after. looks_like_did is the specification, without reference to expressions. C80_dids connects it with the DID URLs of C35; C80_no_did: a text with neither a DID nor the letters did. The code is dead: no mod statement includes the file.
  Theorems: `C80_accepts`, `C80_refuses`, `C80_dids`, `C80_surrounded`, `C80_no_did`, `C80_method`, `C80_two_colons`, `C80_unchecked`, `C80_unchecked_refused`.
* **C81** Messages on their way through mediators are open to everybody (proved; PropPeel.v). peeled and rewritten (PropPeel.v) are what somebody without secrets does, stated with decrypt, the body of forward messages (forwards, C21) and the replacement of C74; the algorithms are those that the headers name. Induction over the chain from outside; C81_rewritten ends in the same relation relayed as C79. C81_possible needs encryption that never refuses. C81_example: three mediators, Bob gets another message as Alice's.
  Theorems: `C81_read`, `C81_routed_by`, `C81_rewritten`, `C81_forged`, `C81_possible`, `C81_real`.
* **C82** When sealing succeeds, and replies to messages without sender (proved; PropReply.v). can_seal (PropReply.v) is the condition in the words of C12 to C14. C82_needed without laws; C82_iff with crypto_total, C82_real with the modelled primitives and the size bound of C69. The replies are stated for every message with the recipients that reply_to leaves, so that algorithm and body may be set afterwards.
  Theorems: `C82_needed`, `C82_iff`, `C82_real`, `C82_signed`, `C82_routed`, `C82_chain`, `C82_anonymous`, `C82_unsealable`, `C82_mended`, `C82_twice`.
* **C83** A recipient key that is too short makes sealing panic (proved; PropShort.v). meets_short_key (PropShort.v) speaks of known keys (C12) and their lengths only. panic_gen carries the proof for both kinds of encryption; that nothing panics after the loop over the recipients follows from C82. C83_example_order shows that a recipient without key in front gives an error instead.
  Theorems: `C83_iff`, `C83_real`, `C83_safe`, `C83_document`, `C83_routed`.
