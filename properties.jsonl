{"id": "C01", "title": "Plain message survives as_raw_json -> receive", "statement": "For every plain message whose `to` list is non-empty, whose `typ` is not the encrypted/signed one, whose custom header names avoid the reserved names and whose body can be nested one level deeper, `Message::receive(m.as_raw_json())` returns Ok with every header, custom header, recipient, attachment and the body unchanged (custom headers as a map, flat-serialisation flags reset).", "quantifier": "all message values (all strings, any number of recipients, custom headers, attachments, JSON bodies), all hash-map iteration orders", "why_tests_cant": "The space of messages and of hash-map iteration orders is infinite; the tests round-trip a handful of fixed ASCII messages.", "anchors": ["src/messages/message.rs: Message, as_raw_json, receive", "src/messages/helpers/receive.rs: get_message_type", "src/messages/headers/didcomm.rs: DidCommHeader", "src/messages/headers/jwm.rs: JwmHeader"]}
{"id": "C02", "title": "What breaks the plain round trip", "statement": "The side conditions of C01 are needed: a message with an empty `to` list, or with a custom header called like an envelope or header field (`iv`, `signature`, `signatures`, `body`, `typ`, `id`, ...), is serialised without error but `receive` never gives the same message back.", "quantifier": "existence of witnesses for each side condition, plus: for every message with an empty `to` list receive fails", "why_tests_cant": "A test would have to guess the bad names; the claim for empty `to` is about every message.", "anchors": ["src/messages/message.rs: add_header_field, as_raw_json, receive", "src/messages/headers/didcomm.rs: DidCommHeader (to, other)", "src/messages/helpers/receive.rs: UnknownReceivedMessage"]}
{"id": "C03", "title": "body()/get_body() preserve the JSON value and are canonical", "statement": "If `body(t)` is accepted then `get_body()` yields JSON text that `body` accepts again and that yields itself (a canonical form), up to the drift of decimal fractions through the f64 parser and unless an object starts with the member name serde_json reserves (C63); integers, strings and array order are preserved, object keys are unique and sorted with the last duplicate winning, and `body` changes nothing else in the message. Texts that are not JSON are rejected.", "quantifier": "all byte strings given to body, all messages", "why_tests_cant": "Infinitely many JSON documents, escapes and nestings.", "anchors": ["src/messages/message.rs: body, get_body"]}
{"id": "C04", "title": "Nesting boundary of bodies", "statement": "`body` accepts exactly JSON nested at most 127 levels; a body nested exactly 127 levels is accepted and serialised but the resulting plain message is rejected by `receive`; up to 126 levels are received.", "quantifier": "all bodies by nesting depth", "why_tests_cant": "Boundary of a recursion limit inside a dependency, for all shapes of nesting.", "anchors": ["src/messages/message.rs: body, as_raw_json, receive"]}
{"id": "C05", "title": "sign -> verify round trip", "statement": "For every message with an algorithm header set by as_jws/as_flat_jws, every supported signature algorithm and every key pair for which signing and validation are correct, if `sign` returns a JWS then `verify` with the matching public key returns the message that was signed with its JOSE header reset to the default; flat and general serialisations alike (general: as long as there is at least one recipient).", "quantifier": "all messages, all algorithms, all keys, all hash-map orders", "why_tests_cant": "Depends on byte-exact re-serialisation of the protected header for every header content.", "anchors": ["src/messages/message_raw_crypto.rs: sign, verify", "src/messages/jws.rs: Jws, Signature", "src/messages/helpers/serialization.rs"]}
{"id": "C06", "title": "verify is sound", "statement": "If `verify(jws, key)` returns a message then one of the signature entries of the envelope passes the signature check under `key` over exactly `base64url(protected header) . payload` with an algorithm named by that entry, and the message returned is the one encoded in that same payload.", "quantifier": "all byte strings, all keys, all signature oracles", "why_tests_cant": "Statement over all forged inputs.", "anchors": ["src/messages/message_raw_crypto.rs: verify, verify_value"]}
{"id": "C07", "title": "Protected headers carrying a JWK with several custom members", "statement": "Verification re-serialises the protected header. With at most one custom member per embedded JWK the result of sign/verify does not depend on hash-map iteration order; with two or more there is an iteration order under which a correctly signed envelope is rejected.", "quantifier": "all hash-map iteration orders at signer and verifier", "why_tests_cant": "The iteration order is random per process and not controllable from a test.", "anchors": ["src/messages/message_raw_crypto.rs: sign, verify, encrypt, decrypt", "src/messages/headers/jwk.rs: Jwk.other"]}
{"id": "C08", "title": "receive of a JWS authenticates under the given key", "statement": "If `receive` is given a signing key and a JWS envelope (classified as signed) and returns a message, then some signature entry over exactly the returned payload is valid under that key.", "quantifier": "all incoming texts, all keys", "why_tests_cant": "Statement over all forged inputs.", "anchors": ["src/messages/message.rs: receive", "src/messages/helpers/receive.rs: receive_jws"]}
{"id": "C09", "title": "receive of a JWS without key trusts the key named in the envelope", "statement": "When `signing_sender_public_key` is None the key is the hex-decoded `kid` found in the envelope itself, so for every message content and every attacker key pair there is an envelope that `receive` accepts: acceptance says nothing about the sender named in `from`.", "quantifier": "all messages (any `from`), all key pairs", "why_tests_cant": "Needs a construction for every sender identity.", "anchors": ["src/messages/helpers/receive.rs: receive_jws", "src/messages/helpers/encryption.rs: get_signing_sender_public_key"]}
{"id": "C10", "title": "Passing a signing key does not require a signature", "statement": "`receive(text, .., Some(key))` returns unsigned plain messages (and encrypted but unsigned ones) unchanged: the result is independent of the signing key whenever the decrypted text is not classified as signed.", "quantifier": "all plain messages, all keys", "why_tests_cant": "Absence of a check cannot be seen from positive tests.", "anchors": ["src/messages/message.rs: receive"]}
{"id": "C11", "title": "Which header decides algorithm and key id", "statement": "For a JWE the integrity protected header wins over the unprotected one for every looked-up member; for a JWS signature entry the unprotected header wins over the protected one, so an unprotected `alg` overrides the signed one.", "quantifier": "all headers, all members with a getter", "why_tests_cant": "Case analysis over all combinations of present/absent members.", "anchors": ["src/messages/helpers/getters.rs: create_fallback_getter", "src/messages/jwe.rs: Jwe", "src/messages/jws.rs: Signature", "src/messages/message_raw_crypto.rs: verify"]}
{"id": "C12", "title": "seal -> receive round trip with explicit keys", "statement": "For every message, both supported content algorithms, flat or general serialisation, every number of recipients and every recipient i: if `seal` with the recipients' public keys returns an envelope, then `receive` with recipient i's private key and the sender's public key returns the sealed message (plus the recipient list that seal adds), for every choice of the random values drawn.", "quantifier": "all messages, recipients, keys, random tapes, hash-map orders, given an AEAD/DH that satisfy correctness laws", "why_tests_cant": "Tests run two or three fixed key sets; the claim is for every recipient position, list length and randomness.", "anchors": ["src/messages/message.rs: seal, receive", "src/messages/helpers/encryption.rs: encrypt_cek, decrypt_cek, generate_kek", "src/messages/helpers/receive.rs: receive_jwe", "src/messages/message_raw_crypto.rs: encrypt, decrypt"]}
{"id": "C13", "title": "seal -> receive round trip with resolved keys", "statement": "The same as C12 when keys are not passed but resolved from the recipients' and the sender's DIDs.", "quantifier": "all resolvers that map the DIDs to the matching public keys", "why_tests_cant": "The resolver is an external component; tests use did:key only.", "anchors": ["src/messages/message.rs: seal, receive", "src/messages/helpers/encryption.rs: generate_shared_for_recipient", "src/messages/helpers/receive.rs: receive_jwe"]}
{"id": "C14", "title": "seal rejects bad arguments with a defined error", "statement": "`seal` fails with InvalidKeySize exactly when the private key is not 32 bytes; otherwise with the length-mismatch error exactly when a key list of the wrong length is given; otherwise with NoJweRecipient exactly when `to` is empty; otherwise with the flat error exactly when flat serialisation is asked for several recipients. None of these draws randomness or contacts the resolver.", "quantifier": "all messages and argument combinations", "why_tests_cant": "Ordering of checks over all combinations.", "anchors": ["src/messages/message.rs: seal"]}
{"id": "C15", "title": "One recipient entry per `to` entry", "statement": "A general sealed envelope carries exactly one recipient entry per `to` entry, in order, whose `kid` is the DID part of that entry; the flat one carries exactly the single entry at top level.", "quantifier": "all recipient lists", "why_tests_cant": "List induction.", "anchors": ["src/messages/message.rs: seal", "src/messages/helpers/encryption.rs: encrypt_cek, get_did_from_didurl"]}
{"id": "C16", "title": "The content encryption key is a constant", "statement": "Every envelope produced by `seal` (any message, keys, recipients, randomness) is decrypted by `Message::decrypt` with one fixed 32-byte key that does not depend on any of them; no private key is needed to read sealed messages.", "quantifier": "all messages, keys and random tapes", "why_tests_cant": "Tests check that receivers can decrypt, not that others cannot.", "anchors": ["src/messages/message.rs: seal", "src/messages/message_raw_crypto.rs: decrypt"]}
{"id": "C17", "title": "Tampering with protected header, ciphertext, iv or tag is detected", "statement": "If `decrypt` accepts an envelope under a key, then the AEAD accepted exactly the transmitted iv, ciphertext and tag together with the transmitted protected header as associated data; with an unforgeable AEAD, an accepted envelope has the same iv, payload and (re-serialised) protected header as the one produced by the sender.", "quantifier": "all modified envelopes", "why_tests_cant": "Statement over all tampered inputs.", "anchors": ["src/messages/message_raw_crypto.rs: encrypt, decrypt"]}
{"id": "C18", "title": "`from` is not bound to the sender key", "statement": "`receive` authenticates the key belonging to `skid`, but never compares `skid` with the decrypted `from`: for every pair of DIDs E, A an authenticated sender E can produce an envelope that any recipient accepts with `from` = A.", "quantifier": "all pairs of DIDs, all keys", "why_tests_cant": "Absence of a check.", "anchors": ["src/messages/helpers/receive.rs: receive_jwe", "src/messages/helpers/encryption.rs: decrypt_cek"]}
{"id": "C19", "title": "Envelopes sealed without `from` cannot be received", "statement": "If `from` is absent, `seal` succeeds but every recipient's `receive` fails.", "quantifier": "all messages without `from`, all recipients", "why_tests_cant": "Universal failure claim.", "anchors": ["src/messages/message.rs: seal", "src/messages/message_raw_crypto.rs: encrypt", "src/messages/helpers/encryption.rs: decrypt_cek"]}
{"id": "C20", "title": "A256CBC can be selected but never sealed", "statement": "For every message prepared with as_jwe/as_flat_jwe for A256CBC, `seal` and `routed_by` return an error; XC20P and A256GCM headers map back to the same algorithm.", "quantifier": "all messages and keys", "why_tests_cant": "Universal failure claim.", "anchors": ["src/messages/headers/jwm.rs: as_encrypted", "src/crypto/encryptor.rs: TryFrom", "src/messages/helpers/encryption.rs: encrypt_cek"]}
{"id": "C21", "title": "Routed messages reach the recipient through the mediator", "statement": "If `routed_by` returns an envelope, the mediator's `receive` returns a forward message whose body names the first recipient and contains byte for byte a sealed envelope, and the recipient's `receive` of those bytes returns the original message.", "quantifier": "all messages, keys, random tapes", "why_tests_cant": "Two nested encryptions and a byte-array JSON encoding for arbitrary content.", "anchors": ["src/messages/message.rs: routed_by", "src/messages/mediated.rs: Mediated"]}
{"id": "C22", "title": "Mediated::shape never succeeds", "statement": "`Mediated::shape(m)` returns an error for every message, including every correctly received forward message.", "quantifier": "all messages", "why_tests_cant": "Universal failure claim.", "anchors": ["src/messages/mediated.rs: Mediated::shape"]}
{"id": "C23", "title": "seal_signed -> receive round trip", "statement": "If `seal_signed` returns an envelope then `receive` with the recipient's keys and the signer's public key returns the message that was signed, with the envelope header reset to the default.", "quantifier": "all messages, keys, algorithms, randomness", "why_tests_cant": "Composition of C05 and C12 with a re-parsed JWS as body.", "anchors": ["src/messages/message.rs: seal_signed, receive", "src/messages/helpers/receive.rs: receive_jws"]}
{"id": "C24", "title": "receive, verify and parsing never panic on plain or signed input", "statement": "`verify` never panics; `receive` without an encryption key never panics, whatever the text.", "quantifier": "all byte strings and keys", "why_tests_cant": "Panic freedom over all inputs.", "anchors": ["src/messages/message.rs: receive", "src/messages/message_raw_crypto.rs: verify", "src/messages/helpers/receive.rs: receive_jws"]}
{"id": "C25", "title": "receive panics on malformed encrypted envelopes", "statement": "There are texts (bad base64 in iv/ciphertext, iv longer than 24 bytes, wrong-length recipient iv, short keys) on which `receive` with a private key panics instead of returning an error; for envelopes whose base64 and lengths are well-formed it does not panic.", "quantifier": "witnesses, and all well-formed envelopes", "why_tests_cant": "Panic conditions over all inputs.", "anchors": ["src/messages/jwe.rs: get_iv, get_payload", "src/messages/helpers/encryption.rs: decrypt_cek", "src/crypto/encryptor.rs: decrypter"]}
{"id": "C26", "title": "Classification of incoming texts", "statement": "`receive` treats a text as encrypted iff it has a non-null top-level `iv` (or is a plain message whose typ says so), as signed iff it has no `iv` but a non-null `signature`/`signatures` (or typ says so), otherwise as plain.", "quantifier": "all texts", "why_tests_cant": "All combinations of members, with duplicates and nulls.", "anchors": ["src/messages/helpers/receive.rs: get_message_type"]}
{"id": "C27", "title": "to() leaves exactly the non-empty recipients in order", "statement": "After `to(xs)` the recipient list is the old list followed by xs with all empty strings removed, in order; applying it any number of times equals applying it once to the concatenation.", "quantifier": "all lists, all sequences of calls", "why_tests_cant": "Loop with removal; needs induction.", "anchors": ["src/messages/message.rs: to"]}
{"id": "C28", "title": "Setter histories: last write wins and nothing else changes", "statement": "For every sequence of setter calls, each header field holds the value of the last call that writes it (or its initial value), and fields not written by any call keep their value.", "quantifier": "all finite sequences of setter calls on all messages", "why_tests_cant": "All interleavings of setters.", "anchors": ["src/messages/message.rs: from, thid, pthid, m_type, typ, kid, timed, body, jwm_header, didcomm_header, as_jwe, as_jws"]}
{"id": "C29", "title": "Custom headers behave like a map", "statement": "`add_header_field` with a non-empty key binds the key to the last value given, keeps all other keys, keeps keys unique, and is a no-op for the empty key; `get_application_params` yields each key once with that value.", "quantifier": "all sequences of insertions", "why_tests_cant": "History property.", "anchors": ["src/messages/message.rs: add_header_field, get_application_params"]}
{"id": "C30", "title": "Rotation data", "statement": "`get_prior` succeeds iff `is_rotation`; no sequence of setters makes a message a rotation; rotation data survives every round trip.", "quantifier": "all messages and setter histories", "why_tests_cant": "History property.", "anchors": ["src/messages/message.rs: get_prior, is_rotation", "src/messages/headers/prior_claims.rs"]}
{"id": "C31", "title": "Threading of replies and children", "statement": "`reply_to` copies thid/pthid (or follows the implicit reply thread) and appends the sender to `to`; `with_parent` sets pthid to the parent's thid or id; all replies of a chain of any length carry the same thread id. A first message without thread id and decorator is not linked to its replies: none of them mentions its id.", "quantifier": "all messages, chains of any length", "why_tests_cant": "Induction over the chain.", "anchors": ["src/messages/headers/didcomm.rs: reply_to", "src/messages/message.rs: reply_to, with_parent", "src/messages/headers/decorators.rs: Thread"]}
{"id": "C32", "title": "Message URIs are ambiguous", "statement": "`get_message_uri` concatenates id, thid and pthid without separator: distinct triples share a URI; for ids of equal fixed length without thread ids it is injective.", "quantifier": "all id triples", "why_tests_cant": "Injectivity.", "anchors": ["src/messages/headers/didcomm.rs: get_message_uri"]}
{"id": "C33", "title": "Attachments keep order and content", "statement": "After any sequence of `append_attachment` the iterator yields exactly the attachments in order; raw payloads come back from base64url; `deserialize_attachments(\"application/json\")` decodes exactly the attachments whose *format* is application/json, in order, and fails if any is undecodable.", "quantifier": "all sequences of attachments", "why_tests_cant": "History property.", "anchors": ["src/messages/attachment.rs: append_attachment, attachment_iter, deserialize_attachments"]}
{"id": "C34", "title": "Problem codes", "statement": "`Problem::from_code` accepts exactly the strings of its regular expression (so also codes starting with `|.`) and keeps the code verbatim; no code built by `from_known_problem` is accepted by `from_code`.", "quantifier": "all strings; all known problems", "why_tests_cant": "Language equality.", "anchors": ["src/messages/problem_report.rs"]}
{"id": "C35", "title": "Recipient kid is the DID part of a DID URL", "statement": "The kid placed in a recipient entry is the part of the recipient string before the first of `/ ? #` when the string is a DID URL of the form the crate recognises (method of lower-case letters; all parts of the method-specific id but the last of lower-case letters), and the empty string otherwise (so for did:web:example.com:user:alice); it is idempotent.", "quantifier": "all strings", "why_tests_cant": "Regular expression semantics on all strings.", "anchors": ["src/messages/helpers/encryption.rs: get_did_from_didurl"]}
{"id": "C36", "title": "base64url codec", "statement": "decode(encode(b)) = b for all bytes; encode is injective; two different texts decode to the same bytes only if they differ in trailing `=`.", "quantifier": "all byte strings", "why_tests_cant": "Infinite domain.", "anchors": ["src/messages/helpers/serialization.rs", "src/messages/jwe.rs", "src/messages/attachment.rs: with_raw_payload"]}
{"id": "C37", "title": "Out-of-band invitations", "statement": "`as_out_of_band_invitation` sets type and typ, appends the attachments in order, sets the body, and panics exactly when the body bytes are not UTF-8.", "quantifier": "all messages, bodies, attachment lists", "why_tests_cant": "Panic condition over all inputs.", "anchors": ["src/messages/out_of_band.rs"]}
{"id": "C38", "title": "External crypto path", "statement": "For every message, `received_as_jwe(seal_pre_encrypted(c))` exposes exactly the ciphertext bytes c and the sender; `receive_external_crypto` of the exported payload returns the message; but the iv in the envelope is unrelated to the iv handed out by `export_for_encryption`.", "quantifier": "all messages, ciphertexts and random tapes", "why_tests_cant": "Random values must be quantified.", "anchors": ["src/messages/message.rs: export_for_encryption, seal_pre_encrypted, received_as_jwe, receive_external_crypto"]}
{"id": "C39", "title": "Message::get_iv rejects every sealed envelope", "statement": "`Message::get_iv` fails on every envelope produced by seal/encrypt.", "quantifier": "all messages, keys, random tapes", "why_tests_cant": "Universal failure claim.", "anchors": ["src/messages/message.rs: get_iv"]}
{"id": "C40", "title": "Key derivation agreement and domain separation", "statement": "Sender and recipient derive the same key-encryption key from their own private and the other's public keys; the hashed input determines algorithm name, both infos and (for fixed-length secrets) the secret.", "quantifier": "all keys, algorithm names, infos", "why_tests_cant": "Injectivity of a length-prefixed encoding.", "anchors": ["src/messages/helpers/encryption.rs: concat_kdf, generate_kek"]}
{"id": "C41", "title": "Declared types of envelopes", "statement": "Every sealed envelope declares typ encrypted (forward stays forward), every signed one declares typ signed, and the signed payload declares plain.", "quantifier": "all messages", "why_tests_cant": "All header states.", "anchors": ["src/messages/message_raw_crypto.rs: encrypt, sign"]}
{"id": "C42", "title": "Serialised JSON is well-formed for arbitrary strings", "statement": "The JSON text produced for any message is valid UTF-8 when its strings are, contains no raw control characters, is a single JSON object, and parsing it gives back exactly the tree that was printed, whatever characters (quotes, backslashes, control characters) occur in strings.", "quantifier": "all strings", "why_tests_cant": "Injection/escaping is a for-all property.", "anchors": ["src/messages/message.rs: as_raw_json, get_body"]}
{"id": "C43", "title": "Accepted messages are stable under re-sending", "statement": "If `receive` accepts a plain text and the result has a non-empty `to`, stable numbers and no member name reserved by serde_json in its body, then serialising the result and receiving it again gives the same message.", "quantifier": "all texts", "why_tests_cant": "Ranges over all accepted texts, not only produced ones.", "anchors": ["src/messages/message.rs: receive, as_raw_json"]}
{"id": "C44", "title": "Enumerated header values are unambiguous", "statement": "Message types, key algorithms and key operations have pairwise distinct JSON names, and decoding a name gives the value it was encoded from.", "quantifier": "all enum values and strings", "why_tests_cant": "Injectivity plus rejection of all other strings.", "anchors": ["src/messages/headers/types.rs", "src/messages/headers/jwk.rs"]}
{"id": "C45", "title": "Expiry is not enforced", "statement": "The outcome of `receive` does not depend on the clock: for every accepted plain message, changing `expires_time` to any value leaves it accepted.", "quantifier": "all messages, all expiry values", "why_tests_cant": "Absence of a check.", "anchors": ["src/messages/message.rs: receive, timed"]}
{"id": "C46", "title": "Other recipients' entries do not matter", "statement": "As long as entries before recipient i's fail cleanly, `receive` for recipient i does not depend on the other entries; with a malformed earlier entry it panics.", "quantifier": "all recipient lists", "why_tests_cant": "List induction over attacker-supplied entries.", "anchors": ["src/messages/helpers/receive.rs: receive_jwe"]}
{"id": "C47", "title": "Envelopes without recipient entries", "statement": "A JWE with neither `recipients` nor a top-level recipient is decrypted with the raw ECDH secret of the two static keys; an empty `recipients` list is an error.", "quantifier": "all envelopes", "why_tests_cant": "Case analysis over envelope shapes.", "anchors": ["src/messages/helpers/receive.rs: receive_jwe"]}
{"id": "C48", "title": "verify stops at the first unusable signature entry", "statement": "`verify` returns the payload iff the first entry that is not cleanly rejected is valid; an entry with a missing/unknown alg, missing protected header or malformed signature before a valid one makes verification fail.", "quantifier": "all lists of signature entries", "why_tests_cant": "List induction.", "anchors": ["src/messages/message_raw_crypto.rs: verify"]}
{"id": "C49", "title": "Signing for nobody", "statement": "A general JWS produced from a message with an empty `to` has no signature entry and is rejected by verify under every key.", "quantifier": "all messages with empty `to`, all keys", "why_tests_cant": "Universal failure claim.", "anchors": ["src/messages/message_raw_crypto.rs: sign, verify"]}
{"id": "C50", "title": "verify checks the re-serialised header", "statement": "verify checks the signature against the header as the crate itself would write it, not against the received header text: a signature that is valid by RFC 7515 over a header text in any other member order, spacing or with unknown members is rejected, and two header texts that decode to the same header are interchangeable.", "quantifier": "all header texts, payloads, signatures and keys", "why_tests_cant": "Universal over all texts of a header.", "anchors": ["src/messages/message_raw_crypto.rs: verify", "src/messages/helpers/serialization.rs: base64_jwm_header"]}
{"id": "C51", "title": "Custom members of header keys and decryption", "statement": "The associated data of decryption are the protected header as re-serialised by the receiver: with at most one custom member in each header key the outcome does not depend on map iteration order; with two or more, some order makes an untouched envelope fail to decrypt with the right key.", "quantifier": "all messages, keys, random values and iteration orders", "why_tests_cant": "HashMap order is random per process; a test sees some orders only.", "anchors": ["src/messages/message_raw_crypto.rs: encrypt, decrypt", "src/messages/headers/jwk.rs: Jwk.other"]}
{"id": "C52", "title": "A256GCM leaves half of the iv unauthenticated", "statement": "Of the 24 iv bytes in an envelope sealed with ECDH-1PU+A256KW only the first 12 are used: the rest can be replaced, cut off or extended and every receiver gives the same result.", "quantifier": "all sealed envelopes, all replacements, all receivers", "why_tests_cant": "Universal over all replacements and receivers.", "anchors": ["src/crypto/encryptor.rs: A256GCM", "src/messages/message.rs: seal"]}
{"id": "C53", "title": "JSON texts are read as RFC 8259 defines them", "statement": "Wherever the crate reads JSON, exactly the texts of the RFC 8259 grammar are accepted; the tree obtained is the one the text stands for (escapes, surrogate pairs, number tokens, nesting, white space), no text stands for two trees, and printed values are texts that stand for themselves.", "quantifier": "all byte strings, all trees", "why_tests_cant": "The set of texts is infinite and tests try a handful; accepting one text too many or reading an escape wrongly goes unnoticed.", "anchors": ["src/messages/message.rs: serde_json::from_str/from_slice/to_string", "src/messages/helpers/receive.rs"]}
{"id": "C54", "title": "Byte strings are accepted as text exactly when they are UTF-8", "statement": "The UTF-8 check accepts exactly the concatenations of encodings of Unicode scalar values (shortest form, no surrogates, at most U+10FFFF), escapes decode to such encodings, and every string decoded from UTF-8 JSON is UTF-8.", "quantifier": "all byte strings, all code points", "why_tests_cant": "Covers all overlong, truncated, surrogate and out of range forms at once.", "anchors": ["src/messages/out_of_band.rs: String::from_utf8", "src/messages/message.rs: serde_json::from_slice"]}
{"id": "C55", "title": "Fractions in bodies keep their value", "statement": "Numbers with fraction or exponent in a body are read as the nearest binary64 value (significand below 2^53, power of ten from -22 to 22) and printed as the shortest nearest decimal that is read as that value; numbers of up to 15 digits with at most 22 places, below 10^15 or from 10^16 to 10^23, keep sign and exact value through setting, sending and receiving, and the printed text is a fixed point. Beyond that range the printed text can be read as another number. Of any token of fewer than 10^9 digits the leading digits that fit 64 bits count; they and the power of ten are rounded, then their product or quotient is rounded.", "quantifier": "all number tokens, all binary64 values, all documents and messages", "why_tests_cant": "There are 2^64 values and infinitely many tokens; the drift shows only for a few of them.", "anchors": ["src/messages/message.rs: body, get_body", "Cargo.toml: serde_json (f64 reading and printing)"]}
{"id": "C56", "title": "Which texts are messages and envelopes", "statement": "A text is read as a message, signed envelope or encrypted envelope exactly when it is a JSON document whose members (by name, each at most once; parts also by position in an array) have the types of the fields, required members are there, and whatever is kept for flattened parts is nested at most 126 deep with readable numbers; names from a fixed list are given as text or as an object with that single member and value null (or {}, but only among members kept for flattened parts); the result is the one those members describe, up to the order of maps. Received plain messages are such texts and such texts are received.", "quantifier": "all texts, all environments", "why_tests_cant": "Every member can be missing, null, duplicated, of another type or in array form; tests try a few combinations.", "anchors": ["src/messages/message.rs: Message (Deserialize), receive", "src/messages/jwe.rs: Jwe", "src/messages/jws.rs: Jws, Signature", "src/messages/headers/jwk.rs: Jwk", "src/messages/headers/jwm.rs: JwmHeader", "src/messages/headers/didcomm.rs: DidCommHeader", "src/messages/attachment.rs: Attachment", "src/messages/mediated.rs: Mediated"]}
{"id": "C57", "title": "The order of members does not count", "statement": "Two texts whose documents differ only in white space and in the order of the members of objects with distinct names (at any depth) are read as the same message up to the order of maps, provided the body does not use the member name serde_json reserves (C63); receive gives the same message, the same error or panics for both, and for signed and encrypted envelopes gives exactly the same result, with any keys.", "quantifier": "all texts, all rearrangements, all keys, all environments", "why_tests_cant": "The number of arrangements grows with the factorial of the number of members; the code keeps maps with an arbitrary order and serialises protected headers again before checking them.", "anchors": ["src/messages/message.rs: receive", "src/messages/helpers/receive.rs: get_message_type, receive_jwe, receive_jws", "src/messages/message_raw_crypto.rs: decrypt, verify"]}
{"id": "C58", "title": "What counts in a recipient entry", "statement": "Of a recipient entry only the public value of the ephemeral key, the custom members iv and tag and the wrapped key influence receive. Entries can be relabelled (kid, alg, kty, crv, use, key_ops, further members) or moved between the flattened and the general form on the way: the outcome of receive is the same for every key.", "quantifier": "all encrypted envelopes, all sealed messages, all changes of the other members, all keys, all environments", "why_tests_cant": "Needs equality of the outcome for all envelopes and all changed labels; the entries are not covered by any integrity check.", "anchors": ["src/messages/helpers/encryption.rs: decrypt_cek", "src/messages/helpers/receive.rs: receive_jwe", "src/messages/jwe.rs: Recipient"]}
{"id": "C59", "title": "Without the feature resolve", "statement": "In the configuration without DID resolution: sending with whatever keys is sending with a resolver that finds nothing; with a key for every recipient it gives exactly the texts of the default configuration; a recipient without key makes sending fail. Receiving gives the same as in the default configuration for everything that is not encrypted and whenever the key of the sender is given; without it an encrypted text is refused before any key is used. Sealed messages are received by each of their recipients.", "quantifier": "all messages, keys, random values, texts, environments", "why_tests_cant": "The tests run in the default configuration only; the other one has its own code paths for every key.", "anchors": ["src/messages/message.rs: as_jwe, seal, routed_by, receive", "src/messages/helpers/encryption.rs: encrypt_cek, decrypt_cek, generate_kek", "src/messages/helpers/receive.rs: receive_jwe", "Cargo.toml: features"]}
{"id": "C60", "title": "Rotation claims from a text", "statement": "PriorClaims is read from a text exactly when the text is a JSON document with a text iss and at most an optional text sub (also in array form), with one error for everything else and another one for bytes that are no UTF-8; what is written is read back. A compact JWT, which the DIDComm specification prescribes for from_prior, is always refused, and a message with a text in from_prior cannot be read or received.", "quantifier": "all texts, all byte sequences, all messages", "why_tests_cant": "Quantifies over all texts; the refusal of every JWT follows from the grammar of JSON.", "anchors": ["src/messages/headers/prior_claims.rs: from_str, try_from", "src/messages/headers/didcomm.rs: DidCommHeader", "src/messages/message.rs: receive"]}
{"id": "C61", "title": "Keys put together by callers", "statement": "A custom member added to a Jwk is read back if its name is not one of the fields; under the name of an absent optional text field it is read as that field; under any other field name the key cannot be read at all, and a message with that key in its header cannot be received. An ephemeral key that is set is read back. Recipients given to a plain message arrive as given. KeyAlgorithm::to_string is the registered name in quotation marks, never the name itself.", "quantifier": "all keys, names, values, messages, environments", "why_tests_cant": "Three different outcomes depend on the name and on which fields are set; nothing in the code checks the name.", "anchors": ["src/messages/headers/jwk.rs: Jwk::new, ephemeral, add_other_header, KeyAlgorithm::to_string", "src/messages/message.rs: receive"]}
{"id": "C62", "title": "Signed envelopes put together by callers", "statement": "The payload and the signatures given to Jws::new or Jws::new_flat are the ones that are read from the text. The general form with one signature and the flattened form are verified and received with the same outcome under every key; the general form without signatures is always refused. `sign` makes exactly such envelopes: one signature in flattened form, otherwise the same signature once per receiver.", "quantifier": "all payloads, signatures, keys, environments", "why_tests_cant": "Compares two envelope forms for all signatures, valid or not.", "anchors": ["src/messages/jws.rs: Jws::new, Jws::new_flat, Signature::new", "src/messages/message_raw_crypto.rs: verify", "src/messages/helpers/receive.rs: receive_jws"]}
{"id": "C63", "title": "The member name reserved by serde_json", "statement": "serde_json (feature raw_value) gives the member name `$serde_json::private::RawValue` a meaning in every body: an object with this one member and a text as value is replaced by what that text is read as, without regard to the nesting limit; any other object that starts with it makes the whole text unacceptable. If it comes later in an object it is accepted, but when sorting moves it to the front the message can be set and sent and is then refused by body and receive; stored bodies never contain an object that would be replaced. Bodies without the name stay without it and within the limit, so they can be sent on.", "quantifier": "all body texts, all messages, all environments", "why_tests_cant": "The behaviour comes from a feature of a dependency and depends on the place of one name in an object; no test of the crate uses it.", "anchors": ["src/messages/message.rs:195-200", "Cargo.toml:21", "src/messages/helpers/receive.rs:30-87"]}
{"id": "C64", "title": "Attachments as built", "statement": "After any sequence of calls on the two attachment builders every member of the attachment is what the last call for it gave (raw payloads base64url encoded), links are collected in order, data given again replaces all earlier data, and the modification time is set exactly if asked for in the constructor. Appending adds this one attachment at the end and changes nothing else. A value attached through try_from under the format application/json is decoded again after the earlier ones, also on the receiving side; under any other format it is not.", "quantifier": "all sequences of builder calls, all messages, all values and decoders", "why_tests_cant": "Covers every interleaving of setter calls, including repeated ones.", "anchors": ["src/messages/attachment.rs:44-268", "src/messages/attachment.rs:278-316"]}
{"id": "C65", "title": "Thread decorators and forward headers as created", "statement": "A created thread decorator marks a message as an implicit reply exactly if it names another message, and replies then go to the thread it names. A message that starts a thread with a decorator naming itself is not linked by it: replies copy its thid only. DidCommHeader::forward takes over receivers, sender and times, but its type is that of any new header and not the forward type.", "quantifier": "all ids, messages, headers, clock values", "why_tests_cant": "Relates the constructors to the reply logic for all messages.", "anchors": ["src/messages/headers/decorators.rs:42-97", "src/messages/headers/didcomm.rs:78-121"]}
{"id": "C66", "title": "Iteration orders of hash maps do not count", "statement": "Messages that are equal in Rust's sense are written as documents that differ in the order of members only, and are received alike. Nothing that seal, seal_signed or routed_by produce depends on an iteration order. Receiving gives the same error or an equal message under all iteration orders for every text that is not an envelope, and for envelopes whose protected headers embed no key with two or more custom members; in particular for everything signed or sealed from a message with such a header. Without that condition it fails: the same signed text can be accepted under one order and refused under another.", "quantifier": "all messages, texts, keys, environments and pairs of iteration orders", "why_tests_cant": "Rust randomises iteration orders per process; a test sees one of them.", "anchors": ["src/messages/headers/jwk.rs: Jwk", "src/messages/headers/didcomm.rs: DidCommHeader", "src/messages/message.rs: receive", "src/messages/helpers/receive.rs"]}
{"id": "C67", "title": "What an encrypted envelope shows", "statement": "With the same keys and random values, two messages with the same envelope header, sender, addressees and form give envelopes that differ in ciphertext and tag at most; identifier, type, thread, times, custom headers, body and attachments have no influence on anything else. Every such message is consistent with a given envelope: an answer of the content cipher to that message alone gives the same text. Readable without any key are the algorithm, the sender, all addressees and the other members of the header, and the exact length of the message.", "quantifier": "all messages, keys, random values, environments", "why_tests_cant": "A statement about pairs of runs (non-interference).", "anchors": ["src/messages/message.rs:485-535", "src/messages/message_raw_crypto.rs:32-83", "src/messages/helpers/encryption.rs:122-218"]}
{"id": "C68", "title": "The content ciphers", "statement": "Decryption with XChaCha20-Poly1305 and AES-256-GCM accepts exactly what encryption under the same key, nonce and associated data produces; ciphertexts are 16 bytes longer than the text; encryption fails for over-long texts only. Under one key and nonce ciphertexts differ exactly where the texts differ. With these ciphers seal succeeds on every message of up to 64 MiB with known recipient keys, every recipient receives the message, and so does everybody who knows the constant content key; of the primitives only two laws of X25519 are assumed.", "quantifier": "all keys, nonces, associated data, texts, messages, recipients and random values", "why_tests_cant": "The round trip laws are proved of the algorithms for all inputs; tests run single vectors.", "anchors": ["src/crypto/encryptor.rs:26-99", "src/messages/helpers/encryption.rs:80-101", "src/messages/helpers/encryption.rs:161-194", "Cargo.toml:24-25"]}
{"id": "C69", "title": "The key agreement", "statement": "X25519 as the crate uses it multiplies points: 2^255-19 is prime, the points of the Edwards curve form a commutative group, and on every point of the curve and for every secret the ladder gives the coordinate of the multiple by the secret with three bits cleared and one set; so both sides of an agreement compute the same 32 bytes. With this agreement, the two ciphers and the number format, seal succeeds and recipients receive with no law of cryptography assumed. Public keys of low order are accepted: the shared secret is then zero for every secret, every recipient key opens such an envelope like every other one, and anybody can make one without a secret.", "quantifier": "all secrets, points, public keys, messages, recipients and random values", "why_tests_cant": "Commutativity for all pairs of 2^251 secrets rests on the group law of an elliptic curve and on the primality of the modulus.", "anchors": ["src/messages/helpers/encryption.rs:51-55", "src/messages/helpers/encryption.rs:138-139", "src/messages/helpers/encryption.rs:365-371", "src/messages/helpers/receive.rs:84-87", "Cargo.toml:32"]}
{"id": "C70", "title": "EdDSA signatures", "statement": "Ed25519 as the crate uses it follows RFC 8032: its curve is the group of C69 in other coordinates, the generator has prime order, texts of points are read back, and exactly the signatures that satisfy the verification equation with a reduced second number are accepted; which keys and signatures are errors is said exactly. Every signature made with a seed and its own public key is accepted, so signed, and signed and sealed, messages are received with no law of cryptography assumed, and signing and sealing succeed on every message of bounded size. No second signature differs in its second half only. Two weaknesses are accepted: a public key that is the text of the neutral element (four texts) validates one signature on all messages, and since the two halves of a key pair are not compared, two signatures of one message with one secret next to two public keys let everybody sign as the owner of the secret (unless two hashes agree), and receive takes such messages.", "quantifier": "all seeds, keys, texts, signatures, messages, recipients and random values", "why_tests_cant": "That every honest signature verifies, and that every accepted signature satisfies the equation, is a statement about a group of 2^252 elements; malleability and the forgeries are attacks no test of the crate tries.", "anchors": ["src/crypto/signer.rs:27-37", "src/crypto/signer.rs:67-76", "src/messages/message_raw_crypto.rs:128-210", "Cargo.toml:29"]}
{"id": "C71", "title": "Hash functions and ciphers of the standards", "statement": "The hash functions and ciphers that the model computes with are exactly those of the standards, for all inputs: SHA-256 and SHA-512 are FIPS 180-4, with constants that are the roots of the first primes; AES-256 is FIPS 197, with the field of 256 elements; A256GCM is NIST SP 800-38D, with the field of 2^128 elements; XC20P is the construction of draft-irtf-cfrg-xchacha on RFC 8439. Each of these specifications has one result per input. The content key of every sealed message is the first half of the ChaCha20 block of zeros, and the ciphertext and tag of everything that seal makes, or that decrypt opens, are those of the standard for the transmitted iv and the protected header.", "quantifier": "all keys, nonces, associated data, texts (up to the limits of the crates), messages, recipients and random values", "why_tests_cant": "Test vectors check single points of functions on arbitrarily long texts; a wrong counter carry, a wrong table entry or a wrong padding shows only on some of them.", "anchors": ["src/crypto/encryptor.rs:26-50", "src/crypto/encryptor.rs:75-99", "src/messages/helpers/encryption.rs:276-279", "src/messages/message.rs:506-508", "Cargo.toml:24-25", "Cargo.toml:36"]}
{"id": "C72", "title": "Mediated delivery with the real primitives", "statement": "With X25519 and the two ciphers as the crate computes them, and nothing assumed about cryptography, routed_by makes an envelope for every message of at most 64 KiB to at most 128 recipients, a sealed envelope has at most 22 times the bytes of the message plus 9000 per recipient plus 2000, the mediator opens the outer envelope with its secret and finds the identifier of the first recipient and the inner envelope byte for byte, and the first recipient (and every other one whose secret does not open an earlier entry) receives from it the message that was sent.", "quantifier": "all messages, recipients, secrets, mediators, public keys, random values and both algorithms", "why_tests_cant": "The two layers share the sender key, the constant content key and the header code; the size of the outer body depends on the digits of every byte of the inner envelope.", "anchors": ["src/messages/message.rs:454-475", "src/messages/mediated.rs:3-48", "src/messages/message.rs:484-535", "src/messages/helpers/encryption.rs:122-219", "src/messages/helpers/receive.rs:53-122"]}
{"id": "C73", "title": "The A256CBC closure", "statement": "The closure that CryptoAlgorithm::A256CBC gives for encryption succeeds exactly for keys of 32 and nonces of 16 bytes and then returns AES-256-CBC (NIST SP 800-38A) of the text with PKCS #7 padding, whatever the associated data; the result has 16 * (n / 16 + 1) bytes for n bytes of text and determines the text; with the same nonce, results agree in their first blocks exactly as far as the texts do; Message::encrypt never makes an envelope with it. AES-256 is a permutation of the blocks for every key.", "quantifier": "all keys, nonces, texts, associated data and messages", "why_tests_cant": "Padding and chaining depend on the length of the text modulo 16 and on all blocks before; injectivity quantifies over pairs of texts.", "anchors": ["src/crypto/encryptor.rs:52-68", "src/messages/message_raw_crypto.rs:32-83", "src/messages/jwe.rs:107-112", "Cargo.toml:26"]}
{"id": "C74", "title": "Other content in a sealed envelope", "statement": "There is one 32 byte key with which anyone who has read an envelope made by seal or seal_signed, and who holds no secret key and no signing key, can encrypt any other message (any sender named in it) with the iv and the protected header of that envelope and put it in place of its ciphertext and tag. Nothing else in the envelope changes; every recipient for whom the original was made receives the other message, using their own key and the public key of the original sender, also if a signing key is passed and the original was signed. This always succeeds with total ciphers, and with the modelled X25519, XChaCha20-Poly1305 and AES-GCM for all messages up to 64 MiB.", "quantifier": "for all environments satisfying the laws (or with the modelled primitives), messages, senders, recipients, keys, random values, envelopes and substituted messages", "why_tests_cant": "A test shows one substitution; that it works for every envelope, recipient and replacement message is a statement about all of them, and the tests of the crate only alter bytes at random.", "anchors": ["src/messages/message.rs:485-535", "src/messages/message.rs:621-637", "src/messages/message_raw_crypto.rs:32-83", "src/messages/message_raw_crypto.rs:97-125", "src/messages/helpers/receive.rs:53-122"]}
{"id": "C75", "title": "Signed messages passed on to others", "statement": "A signature does not bind a message to those for whom it was sealed: from any envelope made by seal_signed whoever opens it (which takes no key, C16) gets a message whose body, set as the body of any own message of type JWS and sealed under the own name for any third party, is received there, with the verification key of the first sender, as exactly the message that the recipients of the first sender get: the signature is accepted, the first sender is named as sender, the first recipients as recipients, and nothing of the message in between is left. The same holds with X25519, the ciphers and Ed25519 as the crate computes them.", "quantifier": "for all environments satisfying the laws (or with the modelled primitives), messages, senders, signers, recipients, third parties, keys, random values and messages in between", "why_tests_cant": "Tests send each envelope to those named in it; that every signed message can be passed on, unnoticed, quantifies over all messages and both envelopes.", "anchors": ["src/messages/message.rs:621-637", "src/messages/message.rs:410-448", "src/messages/helpers/receive.rs:132-182", "src/messages/message.rs:197-200", "src/messages/message_raw_crypto.rs:97-125", "src/messages/message_raw_crypto.rs:146-210"]}
{"id": "C76", "title": "Envelopes are deniable towards others", "statement": "A sealed envelope proves nothing to a third party: for every text that seal makes, the recipients, with their own secrets, the public key of the sender and the same random values, compute exactly the same text without the sender's secret (a single recipient alone). Conversely whoever holds the secret of a recipient can make an envelope with any message from anyone, of whom only the public key is known, and receive accepts it for that recipient as a message of that sender. The first part also holds with X25519 and the ciphers as the crate computes them.", "quantifier": "for all environments satisfying the laws (or with the modelled primitives), messages, numbers of recipients, secrets, keys and random values", "why_tests_cant": "That two ways to compute an envelope agree for all messages, secrets and random values rests on the symmetry of the key agreement in every entry; tests compare no such texts, because the random values differ in every run.", "anchors": ["src/messages/helpers/encryption.rs:122-219", "src/messages/helpers/encryption.rs:297-321", "src/messages/message.rs:485-535", "src/messages/helpers/receive.rs:53-122"]}
{"id": "C77", "title": "Secret keys in the trace log", "statement": "With log level trace, every successful seal and seal_signed writes the sender's X25519 secret key in plain decimal text to the log, and every receive that opens an envelope with recipients writes the recipient's: one fixed procedure reads it back from the lines, whatever the escapes of strings, the keys, the random values and the recipients are. Of the message itself the log of seal depends on nothing but the recipients, the algorithm and the choice of the flat form, and that of seal_signed not on the signing key.", "quantifier": "for all environments, formatters, messages, keys, random values and envelopes", "why_tests_cant": "Tests do not read the log; that the key appears in every run, and that nothing of the message does, are statements about all runs.", "anchors": ["src/messages/helpers/encryption.rs:29-61", "src/messages/helpers/encryption.rs:122-201", "src/messages/helpers/encryption.rs:297-322", "src/messages/message.rs:505-528", "src/messages/helpers/receive.rs:99-112", "Cargo.toml:39-40"]}
{"id": "C78", "title": "The key for the signature in an envelope is named outside of what is signed", "statement": "If receive gets no verification key, the signature inside an encrypted envelope is checked with the key that the header of the message around it names in hexadecimal; what the signed message or the signature names does not count, and neither does the sender. So anybody can sign a message with any content and any sender named in it with an own key, set it as the body of an own message that names this key, and seal it under the own name: it is received as a signed message of the one named. Conversely, if the message around names no key in hexadecimal, receive returns a JWS error however valid the signature is. That is the case for all messages that as_jwe prepares with a 32 byte key (its base64 text is not hexadecimal) or with a DID URL from a resolved document, and for the example of README.md:165-209, which is therefore never received. The forgery also works with X25519, the ciphers and Ed25519 as the crate computes them.", "quantifier": "for all environments satisfying the laws (or with the modelled primitives), messages, senders, signers, recipients, keys and random values", "why_tests_cant": "Tests pass a key or use one fixed key id and look at one outcome; the documented example never looks at the result; that the outcome depends on the outer key id alone quantifies over both messages, all signers and senders.", "anchors": ["src/messages/helpers/receive.rs:132-149", "src/messages/helpers/encryption.rs:236-248", "src/messages/message.rs:160-183", "src/messages/message.rs:621-637", "src/messages/message.rs:276-284", "README.md:165-209", "src/lib.rs:274-300"]}
{"id": "C79", "title": "Chains of mediators of any length", "statement": "An envelope for a recipient wrapped, as routed_by does for one mediator, once for each mediator of a chain, the last one first, reaches its recipient whatever the length of the chain: each mediator in turn opens with its own secret what it is sent and finds the identifier of the next one, which is the one meant, and the payload for it; the last one finds the identifier of the recipient and the innermost envelope, byte for byte, from which the recipient receives the message that was sent. No other identifiers or bytes can be found on the way. With good arguments chains of every length can be made; routed_by makes the chain of one. With X25519 and the ciphers as the crate computes them each mediator makes the text at least four times as long, so n of them at least 4^n times.", "quantifier": "for all environments satisfying the laws (or with the modelled primitives), messages, recipients, keys, random values and chains of mediators with any mixture of algorithms", "why_tests_cant": "Tests route over one mediator; that every chain works is an induction over its length, and the growth is exponential in it.", "anchors": ["src/messages/message.rs:454-475", "src/messages/mediated.rs:6-40", "README.md:102-162"]}
{"id": "C80", "title": "Texts accepted as DID URLs", "statement": "DidUrl::from_str accepts exactly the texts that contain, anywhere, three letters each of which is d or i, a colon, any number of small letters and another colon, and keeps the whole text; every other text gives BadDid, none panics. So every DID URL that get_did_from_didurl understands is accepted and printed back unchanged, but so are texts without any DID, and text before and after does not count. Texts with fewer than two colons and methods with capital letters or digits are refused. Values read from JSON are not checked at all. (The file is not included by any mod statement; the claim is about the file as it stands.)", "quantifier": "for all texts", "why_tests_cant": "The set of accepted texts is infinite, and the pattern looks as if it asked for the prefix did at the start.", "anchors": ["src/messages/didurl.rs:6-25", "src/messages/helpers/encryption.rs:384-410"]}
{"id": "C81", "title": "Messages on their way through mediators are open to everybody", "statement": "There is one key of 32 bytes, the same for all messages, senders, recipients and mediators, with which whoever sees the text on its way through a chain of mediators of any length, and has no secret, opens the envelopes of all mediators one after the other, reads the identifiers of all mediators and of the recipient and finds the innermost envelope, byte for byte, and opens that as well. With the same key the message in the innermost envelope can be replaced and the result put back through all layers: every mediator opens what it is sent with its own secret and the key of the sender and passes the rest on as before, and the recipient receives the other message. The same holds for what routed_by makes, and with X25519 and the ciphers as the crate computes them.", "quantifier": "for all environments satisfying the laws (or with the modelled primitives), messages, replacements, keys, random values and chains of mediators with any mixture of algorithms", "why_tests_cant": "That no layer hides anything from anybody is a statement about all chains and all keys; a test with the intended keys shows the opposite impression.", "anchors": ["src/messages/message.rs:454-475", "src/messages/message.rs:485-535", "src/messages/mediated.rs:6-40"]}
{"id": "C82", "title": "When sealing succeeds, and replies to messages without sender", "statement": "seal succeeds exactly when the secret has 32 bytes, there are recipients (one for the flat form), a given list of keys has one place for each of them, the algorithm is one of those that wrap keys, and for every recipient there is a key of at least 32 bytes, given or in the document that the resolver has for it; that this is necessary needs no assumption, that it suffices needs encryption that does not refuse (proved for the ciphers of the crate and messages of up to 64 MiB). seal_signed succeeds exactly when seal would and the message can be signed, routed_by exactly when seal would and the mediator has a non-empty name and a key, and chains of mediators exactly when this holds for all of them. reply_to puts the sender of the other message at the end of the recipients, and the empty text if there is none, which to() never does: such a reply is sealed only if a key is given in the last place or the resolver has a document for the empty text; a call of to() takes the empty text out again. A reply already addressed to the sender is sealed with two entries for it.", "quantifier": "for all environments, messages, keys and random values", "why_tests_cant": "An exact condition for success over all messages, keys and resolvers; tests show single successes and failures.", "anchors": ["src/messages/message.rs:485-535", "src/messages/message.rs:130-133", "src/messages/headers/didcomm.rs:83-97", "src/messages/helpers/encryption.rs:122-218"]}
{"id": "C83", "title": "A recipient key that is too short makes sealing panic", "statement": "seal panics exactly when its arguments pass the checks it makes (32 bytes of secret, one recipient for the flat form, as many keys as recipients), the message names some algorithm, and the first recipient without a key of at least 32 bytes has a shorter one, given or in its DID document; if recipients come before it, the algorithm must be one that wraps keys. So it never panics if every recipient has a sufficient key or none at all, and whoever chooses the DID document of one recipient makes a sender panic that could seal for the others. routed_by panics exactly when the algorithm wraps keys and there is no recipient, or seal panics, or seal succeeds and the mediator has a name and a key that is too short.", "quantifier": "for all environments with lawful, total encryption (and for the ciphers of the crate up to 64 MiB), all messages, keys and random values", "why_tests_cant": "The exact set of panicking inputs, over all lists of recipients and all resolvers; tests use well-formed keys.", "anchors": ["src/messages/message.rs:485-535", "src/messages/message.rs:454-475", "src/messages/helpers/encryption.rs:122-218", "src/messages/helpers/encryption.rs:344-371"]}
