{
 "claims": [
  {
   "property": "C01",
   "status": "proved",
   "theorems": [
    "C01_plain_round_trip",
    "C01_external_round_trip"
   ],
   "note": "Hypotheses env_ok (hash maps iterate over their entries; a float prints as a JSON number), sendable (the side conditions of the claim), typ and names as in the claim. Decode(encode m) per struct, parse(print j) = j, then receive is followed. The same for receive_external_crypto without conditions on typ and names."
  },
  {
   "property": "C02",
   "status": "proved",
   "theorems": [
    "C02_empty_to",
    "C02_reserved_header",
    "C02_iv_header",
    "C02_signature_header",
    "C02_signature_header_body",
    "C02_signature_header_lost"
   ],
   "note": "One theorem per condition: empty `to` always fails, a reserved header name never gives the same message back, `iv` and `signature(s)` make the text look like an envelope; with an algorithm in the header the body is then taken for the signed envelope."
  },
  {
   "property": "C03",
   "status": "proved",
   "theorems": [
    "C03_float_drift_refuted",
    "C03_body_reads",
    "C03_body_rejects",
    "C03_reads_functional",
    "C03_get_body_canonical",
    "C03_integer_documents"
   ],
   "note": "Document and value are related by an independent relation (reads); `body` is characterised by iff. The canonical form theorem has the hypotheses that the body is stable (numbers are printed as they are read, no object starts with the reserved name) and not nested too deeply; C03_float_drift_refuted shows with the modelled float code that it cannot be dropped; integer-only documents without the reserved name and modest fractions (C55) satisfy it; C63_round_trip_refuted shows that the condition on the name is needed."
  },
  {
   "property": "C04",
   "status": "proved",
   "theorems": [
    "C04_too_deep",
    "C04_deep_body_lost",
    "C04_shallow_body_received"
   ],
   "note": "Depth against an independent nesting predicate, both sides of both limits (127 for body, 126 for receive)."
  },
  {
   "property": "C05",
   "status": "proved",
   "theorems": [
    "C05_sign_verify",
    "C05_flat_sign_verify",
    "C05_sign_receive",
    "C05_sign_total"
   ],
   "note": "Key pair correctness (key_pair) is a hypothesis on the signature oracle; few_custom: at most one custom member per embedded key, needed because of C07."
  },
  {
   "property": "C06",
   "status": "proved",
   "theorems": [
    "C06_verify_sound",
    "C06_verify_value_sound"
   ],
   "note": "Inversion of the verification loop; entry_valid is stated with the text that RFC 7515 signs, built independently."
  },
  {
   "property": "C07",
   "status": "proved",
   "theorems": [
    "C07_few_order_free",
    "C07_order_rejects"
   ],
   "note": "Iteration orders are oracles; invariance for at most one custom member, a rejecting order otherwise."
  },
  {
   "property": "C08",
   "status": "proved",
   "theorems": [
    "C08_receive_signed",
    "C08_receive_decrypted",
    "C08_same_message"
   ],
   "note": "For directly signed and for decrypted-then-verified texts. C08_same_message: the returned message is the one of the signed payload."
  },
  {
   "property": "C09",
   "status": "proved",
   "theorems": [
    "C09_attacker_accepted",
    "C09_kid_decides"
   ],
   "note": "For every message and attacker key pair an accepted envelope is constructed; C09_kid_decides: without a key the hex-decoded kid is used."
  },
  {
   "property": "C10",
   "status": "proved",
   "theorems": [
    "C10_keys_ignored",
    "C10_unsigned_accepted",
    "C10_decrypted_unsigned"
   ],
   "note": "The outcome is independent of the signing key unless the (decrypted) text is classified as signed."
  },
  {
   "property": "C11",
   "status": "proved",
   "theorems": [
    "C11_jwe_protected_wins",
    "C11_jwe_sealed",
    "C11_jwe_fallback",
    "C11_jws_unprotected_wins"
   ],
   "note": "Against a specification of the getters; C11_jws_unprotected_wins exhibits an accepted envelope whose unprotected alg overrides the signed one."
  },
  {
   "property": "C12",
   "status": "proved",
   "theorems": [
    "C12_seal_receive",
    "C12_seal_total"
   ],
   "note": "Hypotheses: X25519 commutes, AEAD decryption inverts encryption, for recipients other than the first others_closed (in this run, the wrapped keys of earlier recipients do not open to something else under this recipient's key). C12_seal_total: seal succeeds under total crypto. C68 discharges the AEAD hypotheses for the two ciphers of the crate, C69 those about X25519."
  },
  {
   "property": "C13",
   "status": "proved",
   "theorems": [
    "C13_resolved_keys",
    "C13_mixed_keys"
   ],
   "note": "As C12 with the resolver as oracle; mixed: some keys given, some resolved."
  },
  {
   "property": "C14",
   "status": "proved",
   "theorems": [
    "C14_bad_arguments",
    "C14_only_bad_arguments",
    "C14_one_error"
   ],
   "note": "Which error, iff, in which order; quantified over all oracles and random values, so independent of them."
  },
  {
   "property": "C15",
   "status": "proved",
   "theorems": [
    "C15_entries"
   ],
   "note": "Inversion of the loop of seal; the entry is compared with an independent description."
  },
  {
   "property": "C16",
   "status": "proved",
   "theorems": [
    "C16_constant_key",
    "C16_key_value"
   ],
   "note": "The key is computed (ChaCha20 of the zero seed, block function modelled) and does not occur among the arguments of seal."
  },
  {
   "property": "C17",
   "status": "proved",
   "theorems": [
    "C17_decrypt_sound",
    "C17_tampering_xc20p",
    "C17_tampering_a256gcm",
    "C17_log_xc20p",
    "C17_log_a256gcm"
   ],
   "note": "C17_decrypt_sound without assumptions; the tampering theorems assume unforgeability of the AEAD for one message, the log theorems for a log of messages (only_log)."
  },
  {
   "property": "C18",
   "status": "proved",
   "theorems": [
    "C18_forged_from",
    "C18_skid_key_used"
   ],
   "note": "Constructed for arbitrary pairs of DIDs; C18_skid_key_used: the key that is used belongs to skid."
  },
  {
   "property": "C19",
   "status": "proved",
   "theorems": [
    "C19_anonymous_rejected"
   ],
   "note": "seal succeeds, receive fails for every recipient."
  },
  {
   "property": "C20",
   "status": "proved",
   "theorems": [
    "C20_cbc_never_seals",
    "C20_cbc_error",
    "C20_cbc_never_routes",
    "C20_supported"
   ],
   "note": "seal and routed_by fail for every message prepared for A256CBC."
  },
  {
   "property": "C21",
   "status": "proved",
   "theorems": [
    "C21_mediator",
    "C21_recipient",
    "C21_payload_unique",
    "C21_total"
   ],
   "note": "C12 twice and the JSON codec of Mediated. C21_payload_unique: the forwarded bytes determine the envelope."
  },
  {
   "property": "C22",
   "status": "proved",
   "theorems": [
    "C22_shape_never_succeeds",
    "C22_shape_of_mediated"
   ],
   "note": "For every message, also for every correctly built forward."
  },
  {
   "property": "C23",
   "status": "proved",
   "theorems": [
    "C23_round_trip",
    "C23_wrong_key",
    "C23_total",
    "C23_same_header_refuted"
   ],
   "note": "Round trip up to the header; C23_same_header_refuted: the header is never kept in general (the statement with header is false). C23_wrong_key: with a non-matching signer key it fails."
  },
  {
   "property": "C24",
   "status": "proved",
   "theorems": [
    "C24_verify",
    "C24_receive_without_key",
    "C24_receive_not_encrypted",
    "C24_parsing"
   ],
   "note": "No Panic reachable: verify, receive without key, receive of texts that are not encrypted, the parsing entry points."
  },
  {
   "property": "C25",
   "status": "proved",
   "theorems": [
    "C25_no_panic",
    "C25_sealed_no_panic",
    "C25_bad_text_panics",
    "C25_short_key_panics",
    "C25_wrong_cek_panics"
   ],
   "note": "C25_no_panic under explicit well-formedness, C25_sealed_no_panic for sealed envelopes; otherwise the panics are exhibited for whole families of texts and keys."
  },
  {
   "property": "C26",
   "status": "proved",
   "theorems": [
    "C26_classification",
    "C26_only_objects",
    "C26_encryption_keys",
    "C26_deterministic"
   ],
   "note": "Independent classification of the JSON tree; iff, determinism and the requirement of an object."
  },
  {
   "property": "C27",
   "status": "proved",
   "theorems": [
    "C27_to",
    "C27_to_twice",
    "C27_to_history"
   ],
   "note": "Filter specification, iteration and histories."
  },
  {
   "property": "C28",
   "status": "proved",
   "theorems": [
    "C28_frame",
    "C28_last_write",
    "C28_fails",
    "C28_resolved_kid"
   ],
   "note": "Inductive type of builder calls; per field the last writer."
  },
  {
   "property": "C29",
   "status": "proved",
   "theorems": [
    "C29_lookup",
    "C29_iterator",
    "C29_empty_key",
    "C29_frame",
    "C29_history"
   ],
   "note": "Lookup, iterator, frame and histories."
  },
  {
   "property": "C30",
   "status": "proved",
   "theorems": [
    "C30_signed_sealed_round_trip",
    "C30_sealed_round_trip",
    "C30_get_prior",
    "C30_setters",
    "C30_plain_round_trip",
    "C30_signed_round_trip"
   ],
   "note": "Invariant over histories; plain, signed, sealed and signed-then-sealed round trips."
  },
  {
   "property": "C31",
   "status": "proved",
   "theorems": [
    "C31_reply_decorator",
    "C31_reply_plain",
    "C31_chain",
    "C31_thread_exists",
    "C31_unlinked",
    "C31_unlinked_refuted",
    "C31_parent"
   ],
   "note": "Replies with and without decorator, chains of any length. C31_unlinked(_refuted): the stronger claim that a reply refers to the first message is false when that has neither thid nor decorator."
  },
  {
   "property": "C32",
   "status": "proved",
   "theorems": [
    "C32_uri",
    "C32_ambiguous",
    "C32_always_ambiguous",
    "C32_injective"
   ],
   "note": "Every URI of non-trivial length is shared by different triples; injective under the length condition."
  },
  {
   "property": "C33",
   "status": "proved",
   "theorems": [
    "C33_signed_sealed_round_trip",
    "C33_sealed_round_trip",
    "C33_history",
    "C33_raw_payload",
    "C33_deserialize",
    "C33_deserialize_total",
    "C33_one_bad",
    "C33_plain_round_trip",
    "C33_signed_round_trip"
   ],
   "note": "Histories; attachments through plain, signed, sealed and signed-then-sealed envelopes; deserialisation iff."
  },
  {
   "property": "C34",
   "status": "proved",
   "theorems": [
    "C34_matcher",
    "C34_from_code",
    "C34_from_code_error",
    "C34_bar",
    "C34_known_not_accepted",
    "C34_known_distinct"
   ],
   "note": "The matcher decides the language of the expression (C34_matcher), which is proved equal to a direct description of codes."
  },
  {
   "property": "C35",
   "status": "proved",
   "theorems": [
    "C35_did_url",
    "C35_not_did_url",
    "C35_cases",
    "C35_prefix",
    "C35_idempotent",
    "C35_injective_on_dids",
    "C35_web_refuted"
   ],
   "note": "did_url describes the DID URLs the crate recognises without regular expressions. C35_web_refuted: common did:web identifiers are not among them."
  },
  {
   "property": "C36",
   "status": "proved",
   "theorems": [
    "C36_encode_rfc",
    "C36_decode_encode",
    "C36_encode_injective",
    "C36_decode_only_encodings"
   ],
   "note": "Against RFC 4648 written as bit groups."
  },
  {
   "property": "C37",
   "status": "proved",
   "theorems": [
    "C37_panics",
    "C37_invitation",
    "C37_accepts"
   ],
   "note": "Panic iff not UTF-8; content iff document."
  },
  {
   "property": "C38",
   "status": "proved",
   "theorems": [
    "C38_external_received",
    "C38_external_refused",
    "C38_export_round_trip",
    "C38_external_round_trip",
    "C38_iv_unrelated"
   ],
   "note": "Envelope, refusals, export and the unrelated iv."
  },
  {
   "property": "C39",
   "status": "proved",
   "theorems": [
    "C39_get_iv_seal",
    "C39_get_iv_encrypt",
    "C39_get_iv_external"
   ],
   "note": "For seal, encrypt and the external path."
  },
  {
   "property": "C40",
   "status": "proved",
   "theorems": [
    "C40_kdf_correct",
    "C40_domain_separation",
    "C40_secret_length_refuted",
    "C40_agreement"
   ],
   "note": "Input of the hash as an independent text; SHA-256 is modelled. C40_secret_length_refuted: without the length condition the secret is not determined."
  },
  {
   "property": "C41",
   "status": "proved",
   "theorems": [
    "C41_encrypted_types",
    "C41_sealed_types",
    "C41_signed_types"
   ],
   "note": "Types of encrypted, sealed and signed envelopes and of the payload."
  },
  {
   "property": "C42",
   "status": "proved",
   "theorems": [
    "C42_raw_json",
    "C42_get_body",
    "C42_raw_json_injective"
   ],
   "note": "One JSON object, UTF-8, no control characters, parsed back to the same tree; the text determines the message."
  },
  {
   "property": "C43",
   "status": "proved",
   "theorems": [
    "C43_resend",
    "C43_resend_any"
   ],
   "note": "What the decoder accepts satisfies the hypotheses of C01. Conditions on the body: stable and at most 126 levels; C63_resend shows that a text without the reserved name and with integers meets them."
  },
  {
   "property": "C44",
   "status": "proved",
   "theorems": [
    "C44_message_type",
    "C44_key_ops",
    "C44_key_algorithm",
    "C44_names"
   ],
   "note": "Finite enumerations; every other string is rejected."
  },
  {
   "property": "C45",
   "status": "proved",
   "theorems": [
    "C45_expiry_ignored",
    "C45_expiry_of_received"
   ],
   "note": "The model has no clock on the receive path; any expires_time is accepted, also on received messages."
  },
  {
   "property": "C46",
   "status": "proved",
   "theorems": [
    "C46_other_entries",
    "C46_clean_failure",
    "C46_bad_entry_panics"
   ],
   "note": "Independence of entries after and cleanly failing entries before; a malformed earlier entry panics."
  },
  {
   "property": "C47",
   "status": "proved",
   "theorems": [
    "C47_static_secret",
    "C47_static_round_trip",
    "C47_empty_list"
   ],
   "note": "Static key derivation and the empty list."
  },
  {
   "property": "C48",
   "status": "proved",
   "theorems": [
    "C48_outcome",
    "C48_verify_iff",
    "C48_unusable_entry"
   ],
   "note": "Exact outcome of verify by the first entry that is not cleanly rejected."
  },
  {
   "property": "C49",
   "status": "proved",
   "theorems": [
    "C49_verify_fails",
    "C49_receive_fails"
   ],
   "note": "verify and receive under every key."
  },
  {
   "property": "C50",
   "status": "proved",
   "theorems": [
    "C50_foreign_header_rejected",
    "C50_header_text_free"
   ],
   "note": "Idealisation exact_pair (a signature validates exactly the text it was made for) for the rejection only."
  },
  {
   "property": "C51",
   "status": "proved",
   "theorems": [
    "C51_few_order_free",
    "C51_order_rejects"
   ],
   "note": "As C07 for decryption."
  },
  {
   "property": "C52",
   "status": "proved",
   "theorems": [
    "C52_iv_tail"
   ],
   "note": "For every replacement of the tail and every receiver."
  },
  {
   "property": "C53",
   "status": "proved",
   "theorems": [
    "C53_grammar",
    "C53_grammar_slice",
    "C53_unambiguous",
    "C53_print",
    "C53_numbers"
   ],
   "note": "Inductive grammar of RFC 8259 with the tree as index; iff, unambiguous, printing."
  },
  {
   "property": "C54",
   "status": "proved",
   "theorems": [
    "C54_utf8",
    "C54_encode",
    "C54_decoded_strings",
    "C54_decoded_trees"
   ],
   "note": "UTF-8 as concatenation of encoded scalar values; iff."
  },
  {
   "property": "C55",
   "status": "proved",
   "theorems": [
    "C55_read",
    "C55_read_all",
    "C55_collected",
    "C55_read_value",
    "C55_print",
    "C55_kept",
    "C55_env",
    "C55_body",
    "C55_sendable",
    "C55_plain_round_trip"
   ],
   "note": "f64 reading (serde_json without float_roundtrip) is modelled with exact integer arithmetic and rounding to nearest even; printing as the shortest nearest decimal in the layout of ryu (the arithmetic of ryu itself is not modelled). The drift is C03_float_drift_refuted. C55_read_all specifies what every token is read as (collected digits, rounded powers of ten)."
  },
  {
   "property": "C56",
   "status": "proved",
   "theorems": [
    "C56_message_sound",
    "C56_message_complete",
    "C56_jws_sound",
    "C56_jws_complete",
    "C56_jwe_sound",
    "C56_jwe_complete",
    "C56_slices",
    "C56_parts",
    "C56_variants",
    "C56_plain_received",
    "C56_plain_accepted"
   ],
   "note": "SpecDecode.v describes fields, structs and flattened parts by relations (only/omitted/given, required/optional/defaulted); the decoders of Serde.v are shown sound and complete against it. Completeness is up to the order of maps. C56_variants: both notations of enum values, with the flag bf for buffered positions."
  },
  {
   "property": "C57",
   "status": "proved",
   "theorems": [
    "C57_message",
    "C57_receive",
    "C57_envelope",
    "C57_reordered"
   ],
   "note": "reordered (SpecDecode.v): permutation of members of objects with distinct names, at any depth, reflexive, symmetric and transitive. Every relation of C56 is shown to ignore it. Objects with repeated names are excluded: there the order counts (example)."
  },
  {
   "property": "C58",
   "status": "proved",
   "theorems": [
    "C58_material",
    "C58_sealed",
    "C58_relabelled"
   ],
   "note": "same_material (SpecDecode.v) names the four parts that count. The entries are outside the authenticated data (C17)."
  },
  {
   "property": "C59",
   "status": "proved",
   "theorems": [
    "C59_sending",
    "C59_keys_given",
    "C59_key_missing",
    "C59_receiving",
    "C59_sender_missing",
    "C59_sender_needed",
    "C59_round_trip",
    "C59_sealed_refused"
   ],
   "note": "NoResolve.v models the functions of this configuration separately, with the lines under cfg(not(feature = resolve))."
  },
  {
   "property": "C60",
   "status": "proved",
   "theorems": [
    "C60_from_str",
    "C60_error",
    "C60_bytes",
    "C60_round_trip",
    "C60_compact_refused",
    "C60_message_refused"
   ],
   "note": "Build.v models from_str and try_from; claims_text (SpecDecode.v) and document (SpecJson.v) describe the accepted texts."
  },
  {
   "property": "C61",
   "status": "proved",
   "theorems": [
    "C61_algorithm_text",
    "C61_custom_member",
    "C61_captured",
    "C61_unreadable",
    "C61_ephemeral",
    "C61_message_lost",
    "C61_recipients",
    "C61_new_key"
   ],
   "note": "Build.v models the builders; jwk_text (SpecDecode.v) describes readable keys."
  },
  {
   "property": "C62",
   "status": "proved",
   "theorems": [
    "C62_read",
    "C62_read_flat",
    "C62_one_entry",
    "C62_no_entry",
    "C62_sign"
   ],
   "note": "Build.v models the constructors."
  },
  {
   "property": "C63",
   "status": "proved",
   "theorems": [
    "C63_contained",
    "C63_refused",
    "C63_never_stored",
    "C63_text_lost",
    "C63_message_lost",
    "C63_never_replaced",
    "C63_unlimited_depth",
    "C63_ordinary_text",
    "C63_ordinary_received",
    "C63_resend",
    "C63_order_refuted",
    "C63_round_trip_refuted"
   ],
   "note": "reads (Spec.v) has a separate case for the reserved name; part: occurrence at any depth. C63_order_refuted and C63_round_trip_refuted: witnesses that C57 and C03 need the condition on the name."
  },
  {
   "property": "C64",
   "status": "proved",
   "theorems": [
    "C64_data",
    "C64_attachment",
    "C64_try_from",
    "C64_value_back"
   ],
   "note": "Call histories folded over the builders; latest: relational description of the last call for a member."
  },
  {
   "property": "C65",
   "status": "proved",
   "theorems": [
    "C65_marks",
    "C65_test",
    "C65_started_thread_lost",
    "C65_reply_thread",
    "C65_forward",
    "C65_forward_sent"
   ],
   "note": "C65_test relates the test of the code to marks_reply (SpecOps.v); C65_forward also gives the type, C65_forward_sent the round trip."
  },
  {
   "property": "C66",
   "status": "proved",
   "theorems": [
    "C66_written",
    "C66_received",
    "C66_sending",
    "C66_plain",
    "C66_envelopes",
    "C66_signed",
    "C66_sealed",
    "C66_orders_refuted"
   ],
   "note": "reorder (SpecEnv.v) exchanges the iteration order of an environment; calm states the condition on embedded keys. Proved by the completeness of the decoders (C56) and by the invariance of receive under reordering of members (C57). C66_orders_refuted: witness that the condition is needed."
  },
  {
   "property": "C67",
   "status": "proved",
   "theorems": [
    "C67_shown",
    "C67_explained",
    "C67_visible",
    "C67_size"
   ],
   "note": "alike, differ_only and same_but_for (SpecEnv.v). Secrecy of the ciphers themselves is outside the model; note C16: the content key is a constant, so whoever knows the program can open the ciphertext."
  },
  {
   "property": "C68",
   "status": "proved",
   "theorems": [
    "C68_lawful",
    "C68_accepted_xc20p",
    "C68_accepted_a256gcm",
    "C68_size",
    "C68_defined_xc20p",
    "C68_defined_a256gcm",
    "C68_nonce_reuse",
    "C68_substitution",
    "C68_seal_total",
    "C68_seal_receive",
    "C68_constant_key"
   ],
   "note": "Aead.v models both ciphers (RFC 8439, draft-irtf-cfrg-xchacha-03, FIPS 197, SP 800-38D), checked against published test vectors. The laws assumed elsewhere are proved of them; seal, receive and C16 are restated with them, so that of the primitives only X25519 (two laws, proved in C69) remains assumed. C68_substitution: the S-box is the one FIPS 197 defines. Secrecy and unforgeability are not claimed."
  },
  {
   "property": "C69",
   "status": "proved",
   "theorems": [
    "C69_prime",
    "C69_curve",
    "C69_group",
    "C69_denominators",
    "C69_multiples",
    "C69_public_key",
    "C69_clamp",
    "C69_agreement",
    "C69_same_point",
    "C69_low_order",
    "C69_low_order_receive",
    "C69_lawful",
    "C69_seal_total",
    "C69_seal_receive",
    "C69_public_envelope"
   ],
   "note": "Curve.v models X25519 (RFC 7748); PrimeCert.v holds a primality certificate (Pocklington) of the modulus and the proof that 121665*121666 is no square; CurveField.v is the field, Edwards.v the group law (complete, since the parameter is no square), CurveFacts.v the ladder. C69_lawful, C69_seal_total and C69_seal_receive: the environment whole has X25519, both ciphers and serde_json floats; only signatures, resolver and hash map orders are left open. For recipients after the first others_closed remains. C69_multiples is about points of the curve; for coordinates of the twist only C69_same_point is stated. Secrecy is not claimed. The crate multiplies the base point by a table, the model by the ladder."
  },
  {
   "property": "C70",
   "status": "proved",
   "theorems": [
    "C70_curve",
    "C70_base",
    "C70_order",
    "C70_reads",
    "C70_reads_one",
    "C70_text",
    "C70_public_key",
    "C70_sign",
    "C70_verify",
    "C70_verify_error",
    "C70_unique",
    "C70_key_pair",
    "C70_sign_receive",
    "C70_any_signer",
    "C70_weak",
    "C70_weak_receive",
    "C70_two_publics",
    "C70_forgery",
    "C70_seal_signed_total",
    "C70_seal_signed"
   ],
   "note": "Ed25519.v models ed25519-dalek 1.0 (RFC 8032), Sha512.v its hash, both checked against published vectors when PropEd.v is compiled. EdOrder.v: certificate that the order L is prime, and [L]B = 0 by a checked chain; EdPoint.v: extended coordinates and texts of points against the group of C69; EdFacts.v: signatures. C70_reads, C70_verify, C70_verify_error and C70_sign are equivalences. C70_seal_signed_total bounds (recipients + 2) * (message bytes + 1000) by 2^22. Not claimed: unforgeability. The last hypothesis of C70_forgery (two challenges differ) is computed for a vector, not proved of the example. Simplification: dalek multiplies by tables, the model by doubling."
  },
  {
   "property": "C71",
   "status": "proved",
   "theorems": [
    "C71_sha256",
    "C71_sha512",
    "C71_constants",
    "C71_aes",
    "C71_a256gcm",
    "C71_a256gcm_accepted",
    "C71_xc20p",
    "C71_xc20p_accepted",
    "C71_content_key",
    "C71_opened",
    "C71_sealed"
   ],
   "note": "SpecPrim.v states the standards by indices, numbers and relations, without the model: words and rotations as arithmetic, schedules and rounds as sequences, products of polynomials with a remainder relation, Poly1305 as a polynomial. PrimFacts.v (SHA-2, both word sizes by one proof), PrimFacts2.v (constants by a checked trial division and integer roots; AES: all 256 substitutions checked, products, key schedule), PrimFacts3.v (products in GF(2^128) by an invariant of the bit loop, GHASH, counter mode), PrimFacts4.v (ChaCha20 quarter rounds by index, Poly1305 by Horner's rule), PrimUnique.v (each specification has at most one result; inverses are unique because polynomial products are commutative and associative)."
  },
  {
   "property": "C72",
   "status": "proved",
   "theorems": [
    "C72_size",
    "C72_total",
    "C72_total_message",
    "C72_mediator",
    "C72_recipient"
   ],
   "note": "routed_by and receive of C21 in the environment of C69 (X25519, XChaCha20-Poly1305 and AES-256-GCM computed by the model; only the DID resolver, float printing and map orders remain oracles). PropWhole.v bounds the length of every member of the sealed envelope and of the outer message, so that success follows from the size of the message, the number of recipients and the length of key ids in DID documents (short_ids, at most 65536 bytes). The condition others_closed for recipients after the first is that of C13."
  },
  {
   "property": "C73",
   "status": "proved",
   "theorems": [
    "C73_permutation",
    "C73_cbc",
    "C73_total",
    "C73_size",
    "C73_one_text",
    "C73_prefix",
    "C73_no_envelope"
   ],
   "note": "Cbc.v models libaes (padding on, its default), SpecCbc.v states CBC and the padding by byte indices over the AES of SpecPrim.v. CbcFacts.v inverts SubBytes (table, all 256 checked), ShiftRows, MixColumns (from linearity of the doubling) and AddRoundKey, hence AES; CBC follows block by block."
  },
  {
   "property": "C74",
   "status": "proved",
   "theorems": [
    "C74_replaced",
    "C74_signed",
    "C74_possible",
    "C74_rest",
    "C74_real"
   ],
   "note": "replaced (PropSwap.v) is the procedure of somebody without keys: it parses the text, reads iv and protected as they stand and exchanges two members. Uses seal_text and find_cek_seal (the entries open as before) and receive_jwe_env. C74_signed: via seal_signed_ok; the substituted message is unsigned (compare C10). C74_real: without laws, by C69 and the size bounds of C68."
  },
  {
   "property": "C75",
   "status": "proved",
   "theorems": [
    "C75_passed_on",
    "C75_same",
    "C75_real"
   ],
   "note": "decrypt, get_body, set_body, set_typ and seal are the public functions somebody in between calls. carried_received (PropPass.v) generalises the last step of C23 to an envelope of any message. C75_same: both deliveries give equal messages, not only the same up to map orders. C75_example: Bob passes a message of Alice on to Dave, whom it does not name."
  },
  {
   "property": "C76",
   "status": "proved",
   "theorems": [
    "C76_deniable",
    "C76_impersonation",
    "C76_real"
   ],
   "note": "made (PropDeny.v) is seal with the static shared secret computed from the other side (recipient's secret, sender's public key); made_iff: seal returns a text exactly if made returns it. C76_impersonation holds for one recipient; for more, the secrets of all are needed. Consequence of the authentication by key agreement, as intended by ECDH-1PU; signed messages (C23, C75) are not deniable."
  },
  {
   "property": "C77",
   "status": "proved",
   "theorems": [
    "C77_seal",
    "C77_seal_signed",
    "C77_receive",
    "C77_delivered",
    "C77_content",
    "C77_signing_key"
   ],
   "note": "Log.v models the lines of level trace function by function, up to the point where each function returns; {:?} of strings and of public keys is left open (formats), slices are printed as numbers. secret_in (PropLog.v) is the reader. C77_receive covers all envelopes (without recipients nothing is shown), C77_delivered those of seal. C77_content and C77_signing_key: equal logs for different messages and signing keys. The line of level error (message_raw_crypto.rs:121) and the frame of the logger are not modelled."
  },
  {
   "property": "C78",
   "status": "proved",
   "theorems": [
    "C78_forged",
    "C78_inner_ignored",
    "C78_outer_decides",
    "C78_seal_signed",
    "C78_as_jwe",
    "C78_real"
   ],
   "note": "carried_key and carried_refused (PropKid.v) generalise carried_received (C75) to any verification key passed to receive and to none. sign, set_kid, set_body, set_typ and seal are the public functions the forger calls. C09 says the same of a bare signed message; there the key id is part of the signature entry, here it stands outside of it. C78_example_readme is the documented example; C78_example_as_jwe: the same text is delivered if the key is passed."
  },
  {
   "property": "C79",
   "status": "proved",
   "theorems": [
    "C79_routed_by",
    "C79_relayed",
    "C79_unique",
    "C79_delivered",
    "C79_total",
    "C79_real",
    "C79_growth"
   ],
   "note": "wrap_one and onion (PropOnion.v) are what a sender writes with the public functions for further mediators: the second half of routed_by (message.rs:462-474) for any inner text; C79_routed_by says that routed_by is a chain of one. relayed is the specification, stated with receive and forwards (C21) alone. Induction over the chain; the size from below counts the digits of the payload list and the base64 text of the ciphertext. C79_example: three mediators, two algorithms."
  },
  {
   "property": "C80",
   "status": "proved",
   "theorems": [
    "C80_accepts",
    "C80_refuses",
    "C80_dids",
    "C80_surrounded",
    "C80_no_did",
    "C80_method",
    "C80_two_colons",
    "C80_unchecked",
    "C80_unchecked_refused"
   ],
   "note": "Model in DidUrl.v with the matcher of Regex.v; a search is a match with anything before and after. looks_like_did is the specification, without reference to expressions. C80_dids connects it with the DID URLs of C35; C80_no_did: a text with neither a DID nor the letters did. The code is dead: no mod statement includes the file."
  },
  {
   "property": "C81",
   "status": "proved",
   "theorems": [
    "C81_read",
    "C81_routed_by",
    "C81_rewritten",
    "C81_forged",
    "C81_possible",
    "C81_real"
   ],
   "note": "peeled and rewritten (PropPeel.v) are what somebody without secrets does, stated with decrypt, the body of forward messages (forwards, C21) and the replacement of C74; the algorithms are those that the headers name. Induction over the chain from outside; C81_rewritten ends in the same relation relayed as C79. C81_possible needs encryption that never refuses. C81_example: three mediators, Bob gets another message as Alice's."
  },
  {
   "property": "C82",
   "status": "proved",
   "theorems": [
    "C82_needed",
    "C82_iff",
    "C82_real",
    "C82_signed",
    "C82_routed",
    "C82_chain",
    "C82_anonymous",
    "C82_unsealable",
    "C82_mended",
    "C82_twice"
   ],
   "note": "can_seal (PropReply.v) is the condition in the words of C12 to C14. C82_needed without laws; C82_iff with crypto_total, C82_real with the modelled primitives and the size bound of C69. The replies are stated for every message with the recipients that reply_to leaves, so that algorithm and body may be set afterwards."
  },
  {
   "property": "C83",
   "status": "proved",
   "theorems": [
    "C83_iff",
    "C83_real",
    "C83_safe",
    "C83_document",
    "C83_routed"
   ],
   "note": "meets_short_key (PropShort.v) speaks of known keys (C12) and their lengths only. panic_gen carries the proof for both kinds of encryption; that nothing panics after the loop over the recipients follows from C82. C83_example_order shows that a recipient without key in front gives an error instead."
  }
 ]
}