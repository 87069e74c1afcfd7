{"id": "C01", "title": "X3DH: both sides derive the same root and chain key", "statement": "For any identity, base, signed-prekey and (present or absent) one-time-prekey key pairs, the keys the initiator computes from the responder's public keys equal the keys the responder computes from the initiator's public keys; neither computation errors or panics when all keys are present.", "quantifier": "all private keys on both sides, with and without a one-time prekey, all Diffie-Hellman functions that commute", "why_tests_cant": "A test fixes a handful of key pairs; agreement must hold for all 2^256-sized key choices and both one-time-prekey cases.", "anchors": ["ratchet/ratchet.go: CalculateSenderSession, CalculateReceiverSession", "kdf/hkdf.go: DeriveSecrets, CalculateSharedSecret"]}
{"id": "C02", "title": "X3DH binds every input secret", "statement": "The secret fed to the key derivation determines each of the three (or four) Diffie-Hellman outputs and whether a one-time prekey was used: two handshakes with different DH outputs, or one with and one without a one-time prekey, never feed the same bytes to the derivation.", "quantifier": "all pairs of handshakes", "why_tests_cant": "An omitted or swapped DH output still lets both honest sides agree, so round-trip tests pass.", "anchors": ["ratchet/ratchet.go: CalculateSenderSession"]}
{"id": "C03", "title": "Symmetric (both online) session agreement", "statement": "When two parties run the symmetric key agreement with each other's base and identity keys they derive the same root and chain keys exactly when the role comparison distinguishes them (the first three bytes of the two base public keys differ); if those three bytes coincide both act as receiver, and the outputs are computed with the Diffie-Hellman terms in different order (disagreement is exhibited).", "quantifier": "all key pairs of both parties", "why_tests_cant": "Coinciding three-byte prefixes occur with probability 2^-24, so a random test never sees the failure.", "anchors": ["ratchet/ratchet.go: CalculateSymmetricSession, isSender"]}
{"id": "C04", "title": "Diffie-Hellman ratchet step agreement", "statement": "From equal root keys, one party ratcheting with (own private, peer public) and the other with (own private, peer public) obtain equal new root keys and equal chain keys with index 0, each 32 bytes long.", "quantifier": "all root keys and both ratchet key pairs", "why_tests_cant": "Must hold for all keys, and the ratchet runs unboundedly many times.", "anchors": ["keys/root/key.go: CreateChain"]}
{"id": "C05", "title": "First contact end to end through the wire", "statement": "If the initiator processes the responder's valid bundle, encrypts any plaintext, serializes it, and the responder parses those bytes and decrypts the pre-key message with its own stored keys, the responder obtains exactly the plaintext and its session record then holds the session matching the initiator's (same root derivation, same chain keys); this holds for any trust policy that trusts both identities, any registration ids and any prekey id other than 0xFFFFFF.", "quantifier": "all plaintexts, all randomness, all key material, all ids below 2^32 except 0xFFFFFF", "why_tests_cant": "Depends on all key material and message lengths (padding, varint widths); tests sample a few.", "anchors": ["session/session.go: ProcessBundle, Process, processV3", "session/cipher.go: Encrypt, DecryptMessage", "protocol/prekey_signal_message.go", "serialize/proto.go"]}
{"id": "C06", "title": "Two-party conversation decrypts correctly under any schedule", "statement": "After first contact, for any interleaving of sends by either party and deliveries of already-sent messages in any order, with loss and duplication, every delivery returns exactly the plaintext that was sent the first time the message is delivered while its key is retained, and every later delivery of it is an error; both sides stay synchronised. A message's key is retained when its chain is among the receiver's last five chains, it is at most 5000 ahead of the receiver's position in that chain, and at most 2000 newer keys were skipped after it.", "quantifier": "all finite schedules of sends, deliveries, losses, duplications and reorderings; all plaintexts and randomness with distinct ratchet keys", "why_tests_cant": "The schedule space is infinite; tests exercise a few fixed orders.", "anchors": ["session/cipher.go: Encrypt, DecryptWithState, getOrCreateChainKey, getOrCreateMessageKeys", "state/record/state_session.go"]}
{"id": "C07", "title": "At most one successful decryption per (ratchet key, counter)", "statement": "Within one session state, over any sequence of decrypt attempts with arbitrary (also forged or malformed) messages and encryptions, two attempts with the same sender ratchet key and the same counter cannot both succeed while the chain for that ratchet key has not been evicted, provided no chain index wraps around 2^32.", "quantifier": "all histories of operations on one session state, all messages including adversarial ones, no assumption on the cryptography", "why_tests_cant": "Replays interact with skipped-key storage, eviction and out-of-order delivery over unbounded histories.", "anchors": ["session/cipher.go: getOrCreateMessageKeys", "state/record/state_session.go: RemoveMessageKeys, SetMessageKeys"]}
{"id": "C08", "title": "Replay after archived-session promotion", "statement": "A message just accepted through any session of a record (current or archived) is refused when it is delivered again at once, provided no other session of the record would accept it. The expectation without the proviso is false with a serializing store: promoting an archived session leaves duplicate copies of archived sessions in the list, so (a) a message can be accepted twice in a row when the record already holds such a duplicate, and (b) after the last archived session is promoted, its stale copy later accepts messages it had already accepted.", "quantifier": "all session records, all positions of the matching archived state", "why_tests_cant": "Needs a slice-aliasing effect plus store reload plus replay: a specific history no unit test drives.", "anchors": ["session/cipher.go: DecryptWithRecord", "state/record/session.go: PromoteState"]}
{"id": "C09", "title": "Session records stay bounded", "statement": "Over any history of public operations a session state never holds more than 5 receiver chains nor more than 2000 stored message keys in any chain, and a record never holds more than 40 archived states.", "quantifier": "all finite histories of operations, adversarial messages included", "why_tests_cant": "The caps are reached only after thousands of adversarial messages; off-by-one errors need exact boundary histories.", "anchors": ["state/record/state_session.go: AddReceiverChain, SetMessageKeys", "state/record/session.go: PromoteState"]}
{"id": "C10", "title": "Work per received message is bounded and the jump limit is exact", "statement": "A single decrypt attempt against one state derives at most 5001 message keys; a counter more than 5000 ahead of the chain index is rejected with 'Too many messages into the future!' and a counter exactly 5000 ahead is processed.", "quantifier": "all states and all counters in the uint32 range, including near 2^32 where the subtraction could wrap", "why_tests_cant": "Boundary behaviour over the whole uint32 range and every chain index.", "anchors": ["session/cipher.go: getOrCreateMessageKeys, maxFutureMessages"]}
{"id": "C11", "title": "A failed decrypt writes nothing (serializing store)", "statement": "With a store that returns fresh copies, if Decrypt or DecryptMessage returns an error then no session is stored and no prekey is removed; the only write that can precede an error is SaveIdentity in DecryptMessage, and only for an identity the policy trusted.", "quantifier": "all messages, records, stores, trust policies and randomness", "why_tests_cant": "Requires every error path of a deep call tree.", "anchors": ["session/cipher.go: DecryptAndGetKey, DecryptMessageReturnKey", "session/session.go: Process"]}
{"id": "C12", "title": "A failed decrypt against an in-memory (pointer) store", "statement": "With a store that hands out the live record, a message that fails authentication leaves the session as it was. (Refuted: ratchet and skipped-key state are changed before the MAC is checked, and a single forged message makes a subsequent genuine message undecryptable.)", "quantifier": "all records and forged messages", "why_tests_cant": "Tests check that a forged message errors, not that the session still works afterwards for every state.", "anchors": ["session/cipher.go: DecryptWithState, getOrCreateChainKey"]}
{"id": "C13", "title": "Decrypting a late message of an archived session does not disturb the current one", "statement": "Successfully decrypting a message that belongs to an archived session leaves the current session's keys unchanged. (Refuted even for serializing stores: the current state is first ratcheted by the foreign message and that state is stored; it holds when the foreign ratchet key is already known to the current state and the message is rejected for an old counter or a different version.)", "quantifier": "all records with at least one archived state", "why_tests_cant": "Requires multi-session histories and a check of the current session after the late message.", "anchors": ["session/cipher.go: DecryptWithRecord"]}
{"id": "C14", "title": "Authentication covers every field of a message", "statement": "The MAC input of a version-3 message determines the sender identity, the receiver identity, the version, the ratchet key, the counter, the previous counter and the ciphertext: two messages with equal MAC input agree in all of them. A message is accepted only if its 8-byte MAC equals the truncated HMAC of that input under the derived MAC key.", "quantifier": "all pairs of messages and identities", "why_tests_cant": "Injectivity of an encoding is a statement about all pairs of inputs.", "anchors": ["protocol/signal_message.go: getMac, VerifyMac, NewSignalMessage", "serialize/proto.go"]}
{"id": "C15", "title": "What the wire encoding authenticates", "statement": "The MAC protects the decoded fields, not the raw bytes: any two byte strings that decode to the same fields are accepted or rejected alike, and there are distinct byte strings (unknown fields, reordered fields, over-long varints, low nibble of the version byte) that decode to the same message.", "quantifier": "all byte strings", "why_tests_cant": "Malleability needs pairs of encodings no test generates.", "anchors": ["serialize/proto.go: Deserialize", "protocol/signal_message.go: VerifyMac"]}
{"id": "C16", "title": "SignalMessage wire round trip", "statement": "Parsing the serialization of any version-3 SignalMessage yields a message with the same version, ratchet key, counter, previous counter, ciphertext and MAC. (A version-2 message is read back as version 3: refuted for version 2.)", "quantifier": "all field values: every 32-byte key, every uint32 counter, every ciphertext length", "why_tests_cant": "All varint widths and lengths.", "anchors": ["serialize/proto.go: ProtoBufSignalMessageSerializer", "protocol/signal_message.go"]}
{"id": "C17", "title": "PreKeySignalMessage wire round trip", "statement": "Parsing the serialization of any version-3 PreKeySignalMessage carrying a prekey id yields the same registration id, prekey id, signed prekey id, base key, identity key and inner message. (Without a prekey id it does not: the absent id comes back as a present id 0.)", "quantifier": "all field values", "why_tests_cant": "All varint widths and lengths, and the absent-id case.", "anchors": ["serialize/proto.go: ProtoBufPreKeySignalMessageSerializer", "protocol/prekey_signal_message.go"]}
{"id": "C18", "title": "SenderKeyMessage and SenderKeyDistributionMessage wire round trip", "statement": "Parsing the signed serialization of a group message, or the serialization of a distribution message, yields the same fields (key id, iteration, ciphertext and signature; id, iteration, chain key and signing key).", "quantifier": "all field values", "why_tests_cant": "All varint widths and lengths.", "anchors": ["serialize/proto.go: ProtoBufSenderKeyMessageSerializer, ProtoBufSenderKeyDistributionMessageSerializer"]}
{"id": "C19", "title": "Parsers: exact classification of every byte string", "statement": "For every byte string, parsing a message either yields a message whose version is 2 or 3 and whose required fields are present, or an error, or panics; it panics exactly when the input is empty for the two parsers that index the first byte, or when a required key field is present but empty. The error returned for each defect (bad version, missing field, undecodable key, malformed encoding) is determined exactly.", "quantifier": "all byte strings", "why_tests_cant": "Crash freedom on untrusted input is a statement about every byte string.", "anchors": ["protocol/signal_message.go: NewSignalMessageFromBytes", "protocol/prekey_signal_message.go", "protocol/sender_key_message.go", "protocol/sender_key_distribution_message.go", "serialize/proto.go"]}
{"id": "C20", "title": "Public key encoding", "statement": "A public key serializes to 33 bytes starting with 0x05 and decodes to itself; decoding accepts exactly the non-empty inputs whose first byte is 0x05, zero-extends short keys, ignores excess bytes, errors on any other first byte, and panics on empty input.", "quantifier": "all byte strings and all keys", "why_tests_cant": "Statement about all byte strings.", "anchors": ["ecc/curve.go: DecodePoint", "ecc/djb_ec_public.go: Serialize"]}
{"id": "C21", "title": "Symmetric encryption round trip", "statement": "For every 32-byte key, every IV (given, or absent so that it is generated and prepended) and every plaintext, decrypting the encryption returns the plaintext; the ciphertext is a multiple of 16 bytes, strictly longer than the plaintext by 1..16 bytes (plus 16 when the IV is generated).", "quantifier": "all keys, IVs and plaintext lengths", "why_tests_cant": "All lengths modulo the block size and all contents, including plaintexts that look like padding.", "anchors": ["cipher/cbc.go: EncryptCbc, DecryptCbc, pad, unpad"]}
{"id": "C22", "title": "DecryptCbc: exact outcome on arbitrary ciphertexts", "statement": "DecryptCbc returns an error for wrong key sizes and for ciphertexts below 16 bytes, panics exactly when the ciphertext (after removing a leading IV) is empty or not a multiple of 16 or the IV has the wrong length, errors exactly when the last decrypted byte exceeds the length, and otherwise succeeds without checking the padding contents (a final byte 0 removes nothing; up to 255 bytes can be removed).", "quantifier": "all byte strings", "why_tests_cant": "Statement about every byte string; panics live in lengths tests do not use.", "anchors": ["cipher/cbc.go: DecryptCbc, unpad"]}
{"id": "C23", "title": "PKCS7 padding", "statement": "pkcs7Unpad inverts pkcs7Pad on every non-empty input for every block size 1..255; whatever pkcs7Unpad accepts ends in n copies of the byte n and is returned without them; pkcs7Pad rejects empty input.", "quantifier": "all inputs and block sizes", "why_tests_cant": "All lengths and block sizes.", "anchors": ["cipher/cipher.go: pkcs7Pad, pkcs7Unpad, Encrypt, Decrypt"]}
{"id": "C24", "title": "Bundles are gated on trust and signature", "statement": "ProcessBundle has no effect on any store unless the bundle's identity is trusted, a signed prekey is present and its signature verifies under the bundle's identity key; when it succeeds it performs exactly StoreSession then SaveIdentity, and the stored current session carries the bundle's identity, registration id and an unacknowledged pre-key message.", "quantifier": "all bundles, records, trust policies, signature schemes and randomness", "why_tests_cant": "Every error path must be effect-free.", "anchors": ["session/session.go: ProcessBundle"]}
{"id": "C25", "title": "Pre-key messages from untrusted identities are refused", "statement": "DecryptMessage with an identity key the policy does not trust returns 'Untrusted identity' with no effects at all, whether or not a session already exists.", "quantifier": "all messages, records and policies", "why_tests_cant": "All states.", "anchors": ["session/session.go: Process"]}
{"id": "C26", "title": "Trust is not enforced on established sessions", "statement": "Encrypt and Decrypt behave identically for every trust policy and save the session's remote identity unconditionally: a user relying on IsTrustedIdentity to block sending to a changed identity is not protected (refuted expectation).", "quantifier": "all policies, records and messages", "why_tests_cant": "A non-interference statement over all policies.", "anchors": ["session/cipher.go: Encrypt, DecryptAndGetKey"]}
{"id": "C27", "title": "One-time prekeys are consumed exactly once, after the session is stored", "statement": "When DecryptMessage succeeds in setting up a session with prekey id k (not 0xFFFFFF) its effects end with StoreSession followed by RemovePreKey k, no other prekey is removed; if the session already exists no prekey is removed; crashing between the two leaves the session stored and replaying the message does not reuse the prekey.", "quantifier": "all messages, records, stores and crash points", "why_tests_cant": "Crash points between effects cannot be injected by unit tests.", "anchors": ["session/cipher.go: DecryptMessageReturnKey", "session/session.go: processV3"]}
{"id": "C28", "title": "Pre-key messages without a usable one-time prekey", "statement": "A pre-key message without a one-time prekey id, or using the reserved id 0xFFFFFF, is processed without a crash. (Refuted: the library stores the session and then panics; and over protobuf a bundle without a one-time prekey yields a message that the responder cannot process.)", "quantifier": "all such messages", "why_tests_cant": "The crash happens after successful decryption on a path tests do not take.", "anchors": ["session/session.go: processV3", "session/cipher.go: DecryptMessageReturnKey", "serialize/proto.go"]}
{"id": "C29", "title": "Session record serialization round trip", "statement": "Serializing an initialised session record and loading it yields a record that is equal in every observable field (all chains, counters, keys, pending messages, archived states), except that it is no longer fresh; an uninitialised record cannot be serialized (panic).", "quantifier": "all session records", "why_tests_cant": "All states, all numbers of chains and keys.", "anchors": ["state/record/session.go", "state/record/state_session.go", "state/record/state_chain.go", "serialize/json.go"]}
{"id": "C30", "title": "PreKey and SignedPreKey record serialization", "statement": "A reloaded PreKey/SignedPreKey record has the same id, private key, signature and timestamp; its public key is the original only for the single degenerate key with all bytes 5 \u2014 otherwise the reloaded public key is wrong (first byte is the type byte and the last byte is lost).", "quantifier": "all key pairs and ids", "why_tests_cant": "The record tests compare serialized bytes, not the reloaded key.", "anchors": ["state/record/prekey.go", "state/record/signed_prekey.go"]}
{"id": "C31", "title": "SenderKey record serialization round trip", "statement": "Serializing a group sender key record and loading it preserves key ids, chain keys, iterations, stored message keys and public signing keys of every state in order; private signing keys are preserved when present, and an absent private key becomes an all-zero private key.", "quantifier": "all records", "why_tests_cant": "All states.", "anchors": ["groups/state/record/sender_key.go", "groups/state/record/state_sender_key.go"]}
{"id": "C32", "title": "Group messages decrypt under any delivery schedule", "statement": "After a member processes the sender's distribution message, for any interleaving of the sender's encryptions and deliveries with loss, duplication and reordering, each message at most 2000 ahead of the receiver's position decrypts to its plaintext on first delivery while its key is retained, and fails afterwards.", "quantifier": "all schedules, plaintexts, starting iterations and keys", "why_tests_cant": "Infinite schedule space.", "anchors": ["groups/cipher.go", "groups/session_builder.go", "groups/ratchet"]}
{"id": "C33", "title": "Group messages are accepted at most once", "statement": "For one sender key state, over any sequence of group Decrypt calls with arbitrary messages, two deliveries with the same iteration never both succeed (iterations below 2^32-1).", "quantifier": "all histories, adversarial messages included", "why_tests_cant": "Unbounded histories.", "anchors": ["groups/cipher.go: getSenderKey"]}
{"id": "C34", "title": "Group messages are authenticated before any state change", "statement": "Group Decrypt succeeds, derives keys or changes the record only if the message signature verifies under the signing key of the first stored state with that key id; on any error nothing is stored, and an unverified message does not even change an in-memory record.", "quantifier": "all messages, records and signature schemes", "why_tests_cant": "All error paths.", "anchors": ["groups/cipher.go: Decrypt, verifySignature"]}
{"id": "C35", "title": "Group state is bounded; retention is exact", "statement": "Over any history a sender key state stores at most 2000 message keys and a record at most 2000 states; a message more than 2000 ahead is rejected and exactly 2000 ahead accepted; when keys are evicted the oldest stored one goes first.", "quantifier": "all histories", "why_tests_cant": "Boundary only after thousands of messages.", "anchors": ["groups/cipher.go: getSenderKey", "groups/state/record/state_sender_key.go: AddSenderMessageKey", "groups/state/record/sender_key.go: AddSenderKeyState"]}
{"id": "C36", "title": "Group decrypt overwrites its argument", "statement": "Decrypting a group message object does not change it. (Refuted: the ciphertext inside the message object is decrypted in place, so its signature no longer verifies afterwards.)", "quantifier": "all group messages", "why_tests_cant": "Aliasing through a returned slice; tests decrypt each object once.", "anchors": ["groups/cipher.go: Decrypt", "cipher/cbc.go: DecryptCbc"]}
{"id": "C37", "title": "Group session creation is idempotent", "statement": "Creating a group session when a sender key already exists neither stores nor changes anything and returns a distribution message describing the current state; creating it the first time stores a record whose distribution message matches it at iteration 0.", "quantifier": "all records and randomness", "why_tests_cant": "All records.", "anchors": ["groups/session_builder.go: Create"]}
{"id": "C38", "title": "Fingerprints are symmetric and well formed", "statement": "For any two fingerprints of at least 30 bytes the displayed text is 60 decimal digits: the thirty digits of one fingerprint (six numbers of five digits, each five bytes big endian modulo 100000) and then the thirty of the other, the smaller number first. So it is the same whichever side computes it and depends only on the first 30 bytes of each; shorter fingerprints panic.", "quantifier": "all byte strings", "why_tests_cant": "Symmetry and digit count over all inputs (leading zeros).", "anchors": ["fingerprint/display.go", "util/bytehelper/byte.go: Bytes5ToInt64"]}
{"id": "C39", "title": "Address strings identify addresses", "statement": "The string of a Signal address is its name, a colon and the device id in decimal without leading zeros. Two addresses have the same string only if name and device id are equal, whatever characters names contain, and the string can be taken apart in one way only.", "quantifier": "all names and device ids", "why_tests_cant": "Injectivity over all pairs.", "anchors": ["protocol/signal_protocol_address.go: String"]}
{"id": "C40", "title": "Prekey generation ids", "statement": "GeneratePreKeys(start, count) returns keys with ids start, start+1, ..., count (count-start+1 of them, none if start > count), each id reduced modulo 2^32, each with a public key matching its clamped private key; an RNG failure returns an error and no keys.", "quantifier": "all start/count values and randomness", "why_tests_cant": "Inclusive upper bound and truncation over all ints.", "anchors": ["util/keyhelper/key.go: GeneratePreKeys", "ecc/curve.go: GenerateKeyPair"]}
{"id": "C41", "title": "Provisioning messages", "statement": "Decrypting a well-formed provisioning envelope made for our key returns the plaintext; a message whose MAC does not verify is never decrypted; bodies shorter than 49 bytes or with a wrong version byte panic.", "quantifier": "all envelopes, keys and plaintexts", "why_tests_cant": "All byte strings.", "anchors": ["provision/cipher.go: Decrypt"]}
{"id": "C42", "title": "Sequential encryption never reuses a message key position", "statement": "In any sequential history no two successful Encrypts of one session use the same (ratchet key, counter) pair as long as fewer than 2^32 messages are sent per chain and generated ratchet keys are distinct; two unsynchronised concurrent Encrypts that both load before either stores produce the same pair and the same message key (refuted for concurrent use).", "quantifier": "all sequential histories; the interleavings of two Encrypt calls", "why_tests_cant": "All histories and schedules.", "anchors": ["session/cipher.go: Encrypt"]}
{"id": "C43", "title": "Previous counter", "statement": "Every message announces in its previous-counter field the number of the last message of the sender's previous chain. (It does when the previous chain sent at least one message; if it sent none the field is 0xFFFFFFFF.) A session that has just been set up, by a bundle or by a received first message, with a record that was loaded from storage or never used, announces 0 until its first ratchet step.", "quantifier": "all states", "why_tests_cant": "uint32 underflow in a max(\u2026-1, 0) expression.", "anchors": ["session/cipher.go: getOrCreateChainKey, max"]}
{"id": "C44", "title": "Re-establishing a session archives the old one", "statement": "Processing a new bundle or pre-key message for a loaded (non-fresh) record moves the current state to the head of the archived list unchanged; for a record still flagged fresh (never serialized) the previous session is overwritten instead and its late messages are lost.", "quantifier": "all records", "why_tests_cant": "Depends on the record's origin; tests use one store kind.", "anchors": ["session/session.go: ProcessBundle, processV3", "state/record/session.go: ArchiveCurrentState"]}
{"id": "C45", "title": "Sessions of different addresses are isolated", "statement": "An operation for one remote address leaves the stored session and identity of every other address unchanged, for any store whose keys are compared by address.", "quantifier": "all histories of operations over any number of addresses", "why_tests_cant": "All histories and address pairs.", "anchors": ["session/cipher.go", "session/session.go"]}
{"id": "C46", "title": "Pre-key messages are sent exactly until the first reply", "statement": "After ProcessBundle every Encrypt yields a pre-key message until a message has been decrypted in that session state, and afterwards every Encrypt yields a plain message; each such pre-key message carries the base key, ids and identity of that session.", "quantifier": "all histories", "why_tests_cant": "All histories between establishment and acknowledgement.", "anchors": ["session/cipher.go: Encrypt, DecryptWithState"]}
{"id": "C47", "title": "Key sizes", "statement": "Every derived root key, chain key, cipher key and MAC key is 32 bytes and every IV 16 bytes, so the AES/HMAC/CBC calls of Encrypt never fail: Encrypt on an initialised session always succeeds.", "quantifier": "all reachable session states", "why_tests_cant": "All derivations.", "anchors": ["keys/chain/key.go", "keys/root/key.go", "groups/ratchet/sender_message_key.go", "kdf/hkdf.go"]}
{"id": "C48", "title": "Returned message keys decrypt the message later", "statement": "The keys returned by DecryptAndGetKey, used with DecryptWithKey on the same message at any later time, yield the same plaintext that was returned.", "quantifier": "all messages and states", "why_tests_cant": "All messages.", "anchors": ["session/cipher.go: DecryptAndGetKey, DecryptWithKey"]}
{"id": "C49", "title": "Crash points", "statement": "For every crash point between the store writes of any session or group operation the stores hold either the old or the new session record of the address, the prekey is removed only after the session is stored, and the message is still processable or already processed after restart.", "quantifier": "all crash points of all operations", "why_tests_cant": "Crash points cannot be enumerated by unit tests.", "anchors": ["session/cipher.go", "session/session.go", "groups/cipher.go"]}
{"id": "C50", "title": "Counter wrap-around", "statement": "A chain index of 2^32-1 wraps to 0: below that bound the index strictly increases with each message; at the bound the chain restarts at index 0 with a new key and old counters become acceptable again.", "quantifier": "all chain keys", "why_tests_cant": "2^32 messages cannot be sent in a test.", "anchors": ["keys/chain/key.go: NextKey", "session/cipher.go: getOrCreateMessageKeys"]}
{"id": "C51", "title": "Forward secrecy of used message keys (symbolic)", "statement": "In the symbolic (Dolev-Yao) reading of the key derivations, take a session just set up by ProcessBundle or an incoming pre-key message and any later sequence of decrypt attempts (accepted or not), encryptions, saves and loads. The keys the session state then holds, together with every Diffie-Hellman value and every other message key used, do not allow deriving a message key with which a message was decrypted or encrypted, and no derivation is used twice. A record with archived sessions does not have this: a stale archived copy can keep a used key.", "quantifier": "all sequences of operations on a session state, all messages and randomness, all derivations by the attacker", "why_tests_cant": "Statement about all derivations an attacker can perform.", "anchors": ["keys/chain/key.go", "keys/root/key.go", "session/cipher.go"]}
{"id": "C52", "title": "Edwards field arithmetic", "statement": "The limb arithmetic used in signing and signature verification computes addition, subtraction, multiplication, squaring, inversion, powers, selection and byte encoding modulo the prime 2^255-19 without 32- or 64-bit overflow for inputs within the documented limb bounds; and the Edwards key that verification derives from a Curve25519 key u has y = (u-1)/(u+1) in canonical form with the sign bit taken from the signature.", "quantifier": "all limb values within bounds", "why_tests_cant": "Carries and overflow occur only for rare limb patterns.", "anchors": ["ecc/edwards25519/edwards25519.go: FeAdd, FeSub, FeNeg, FeMul, FeSquare, FeSquare2, FeCombine, FeInvert, fePow22523, FeCMove, FeToBytes, FeFromBytes, FeIsNegative, FeIsNonZero", "ecc/sign_curve25519.go: verify"]}
{"id": "C53", "title": "Bundle assembled by the peer is accepted", "statement": "A bundle built from keys produced by the key helper (signed prekey signed by the identity key) passes ProcessBundle's signature check at any peer that trusts the identity.", "quantifier": "all randomness", "why_tests_cant": "All keys.", "anchors": ["util/keyhelper/key.go: GenerateSignedPreKey", "session/session.go: ProcessBundle", "ecc/sign_curve25519.go"]}
{"id": "C54", "title": "Healing after a leak (symbolic)", "statement": "If an attacker learns all keys a session holds at some moment, and every message key used before, then once a message with a new ratchet key has made the session generate a new key pair whose Diffie-Hellman value the attacker does not learn, the root key and sending chain key are out of the attacker's reach from then on, and so are all later message keys except those of receiving chains that exist at that moment.", "quantifier": "all histories before and after the leak, all derivations by the attacker", "why_tests_cant": "Statement about all derivations an attacker can perform, over all histories.", "anchors": ["session/cipher.go: getOrCreateChainKey", "keys/root/key.go: CreateChain", "keys/chain/key.go"]}
{"id": "C55", "title": "Scalar arithmetic of signing", "statement": "Reducing any 64-byte hash and computing a*b+c for any 32-byte scalars give the canonical little-endian representative modulo the order of the base point, without integer overflow; the top three bits of the result are clear, so the sign bit that CalculateSignature stores in the last byte never collides with the scalar.", "quantifier": "all 64-byte strings, all triples of 32-byte strings", "why_tests_cant": "2^512 and 2^768 inputs; carry chains go wrong on rare limb patterns.", "anchors": ["ecc/edwards25519/edwards25519.go: ScReduce, ScMulAdd", "ecc/sign_curve25519.go: sign"]}
{"id": "C56", "title": "Edwards group operations and fixed-base multiplication", "statement": "For every 32-byte scalar below 2^255, multiplying the base point and encoding the result gives the canonical 32-byte encoding of that multiple of the Ed25519 base point; doubling and adding follow the curve's addition law for all pairs of points, including equal, opposite and neutral ones; every one of the 256 precomputed table entries is the multiple it should be; the base point has prime order, so two scalars give the same public key exactly when they agree modulo that order, and no clamped private key gives the neutral element. (Scalars of 2^255 and more give wrong results: shown by a counterexample.)", "quantifier": "all 32-byte scalars, all pairs of curve points in all limb representations within the stated bounds", "why_tests_cant": "2^255 scalars; an exceptional case of the addition formulas, a wrong table entry or a limb overflow shows only for particular points.", "anchors": ["ecc/edwards25519/edwards25519.go: GeScalarMultBase, geMixedAdd, Double, ToBytes, selectPoint", "ecc/edwards25519/const.go: base"]}
{"id": "C57", "title": "Signatures: everything signed verifies, and verification accepts exactly the valid signatures", "statement": "For every private key made by key generation, every message and every random string, VerifySignature accepts what CalculateSignature returns; VerifySignature accepts exactly the signatures satisfying the XEdDSA equation for the Edwards key with the sign bit carried in the signature; the signature consists of the canonical encoding of the nonce point, the canonical scalar and the sign bit. Assumes of the external functions only what their RFCs say (X25519: multiplication on the curve; Ed25519 verification: its equation), nothing of SHA-512.", "quantifier": "all private keys, messages, random strings, signatures, hash functions", "why_tests_cant": "A sign-bit or reduction error shows for half, or for very few, of the 2^256 keys.", "anchors": ["ecc/sign_curve25519.go: sign, verify", "ecc/curve.go: CalculateSignature, VerifySignature", "ecc/edwards25519/edwards25519.go"]}
{"id": "C58", "title": "Key schedule and wire bytes are those of the Signal protocol", "statement": "For every input, DeriveSecrets is HKDF (RFC 5869); the message keys, chain keys, root steps, X3DH secrets and group message keys are the ones the published protocol defines (labels WhisperMessageKeys, WhisperRatchet, WhisperText, WhisperGroup, seeds 1 and 2, 32 bytes 0xff first); private keys are clamped as RFC 7748 says; and Encrypt sends exactly version byte, protocol buffer with the four fields, and the first 8 bytes of the HMAC over sender identity, receiver identity, version byte and protocol buffer, wrapped in a prekey message until the first reply. So any other conforming implementation reads the same bytes.", "quantifier": "all key material, chain positions, session states a live record can reach, plaintexts", "why_tests_cant": "Test vectors fix a few keys and positions; a wrong slice boundary, label or order shows only against an independent description for every chain position, counter size and state.", "anchors": ["kdf/hkdf.go:DeriveSecrets", "keys/chain/key.go:MessageKeys, NextKey", "keys/root/key.go:CreateChain", "ratchet/ratchet.go:CalculateSenderSession, CalculateReceiverSession", "groups/ratchet/sender_chain_key.go", "session/cipher.go:Encrypt", "protocol/signal_message.go:NewSignalMessage", "serialize/proto.go", "ecc/curve.go:CreateKeyPair"]}
{"id": "C59", "title": "Point decompression", "statement": "Decoding a 32-byte string into a curve point succeeds exactly when the string denotes a point (some x with the given sign bit and y satisfies the curve equation), and gives that point; a string denotes at most one point; encoding and decoding again gives the same point. Non-canonical strings are accepted too (shown by example), so two different strings can denote the same point.", "quantifier": "all 32-byte strings, all points", "why_tests_cant": "The square root has three cases and half the strings have none; 2^256 inputs.", "anchors": ["ecc/edwards25519/edwards25519.go: ExtendedGroupElement.FromBytes, fePow22523, FeIsNegative"]}
{"id": "C60", "title": "Records stored as JSON survive, and damaged files are refused", "statement": "For every session record whose states are all initialised, the bytes written by Session.Serialize are a JSON text with the documented members, and NewSessionFromBytes of them returns the same record; different records give different bytes. Whatever bytes NewSessionFromBytes accepts, saving and loading the result again gives the same record. Every proper prefix of the stored bytes, the stored bytes followed by anything but white space, and every byte string that is not JSON are refused with an error. The same for session states, sender key records and states, prekeys and signed prekeys (whose known defects C30/C31 are kept). Some JSON texts ({} and null) make the loader panic. Which JSON values are accepted for each Go type of a member, with what result and which error otherwise, is determined exactly.", "quantifier": "all records, all byte strings, all truncation points", "why_tests_cant": "Truncation points and file contents are unbounded, and the scanner has many states.", "anchors": ["serialize/json.go: all serializers", "state/record/session.go: Serialize, NewSessionFromBytes", "state/record/state_session.go: NewStateFromStructure", "groups/state/record/sender_key.go", "state/record/prekey.go", "state/record/signed_prekey.go"]}
{"id": "C61", "title": "Messages with the JSON serializer", "statement": "With NewJSONSerializer every signal, prekey, sender-key and distribution message that its constructor accepted is read back as it was (including version 2 messages and empty prekey ids), its MAC or signature verifies over the same bytes at the receiver, and those bytes determine every authenticated field; a truncated message is refused. For every text at all, the outcome of each of the four parsers (the message, which error, or a crash) is the one that follows from the members found in it. The text itself is malleable, and an empty ratchet key makes the reader panic.", "quantifier": "all messages, keys and byte strings", "why_tests_cant": "All field values; injectivity of the authenticated bytes.", "anchors": ["serialize/json.go: JSONSignalMessageSerializer, JSONPreKeySignalMessageSerializer, JSONSenderKeyMessageSerializer, JSONSenderKeyDistributionMessageSerializer", "protocol/signal_message.go: NewSignalMessage, VerifyMac", "protocol/sender_key_message.go"]}
{"id": "C62", "title": "Starting a new session with an old contact", "statement": "When a party processes a bundle of a contact with whom both already share any sessions (records left by any history of operations), the first message of the new session is decrypted, both stores then hold matching current sessions with the former ones behind them (at most 40), and every schedule of sends, deliveries, losses, duplicates and reorderings in the new session has the results of a fresh conversation. Packets injected by the network that are refused disturb nothing.", "quantifier": "all stored records on both sides, all plaintexts, randomness, schedules and injected packets", "why_tests_cant": "Ranges over all earlier histories and all interleavings, including arbitrary attacker packets.", "anchors": ["session/session.go: Builder.ProcessBundle, Builder.processV3, Builder.Process", "session/cipher.go: Cipher.DecryptWithRecord, Cipher.DecryptWithState", "state/record/session.go: ArchiveCurrentState, PromoteState"]}
{"id": "C63", "title": "Sessions started by both parties at once", "statement": "When both parties process each other's bundle before receiving anything, the two first messages that cross are both read. It is not true that the conversation then always goes on: after one more crossed round every later message of both parties is refused with 'no valid sessions', because the failed attempt on the current state of a record is kept when an archived state accepts the message.", "quantifier": "all parties with any earlier sessions, all plaintexts and randomness (positive part); one history (refutation)", "why_tests_cant": "All earlier histories and keys; the failure needs a particular crossing of four messages.", "anchors": ["session/cipher.go: Cipher.DecryptWithRecord, Cipher.DecryptWithState, getOrCreateChainKey", "state/record/session.go: PromoteState", "session/session.go: Builder.processV3"]}
{"id": "C64", "title": "When a session operation panics", "statement": "After any history of a party's stores, receiving a packet panics only if: its parser panics (empty key field, empty input); it is a SignalMessage with a correct MAC for a session of the sender whose body is at least 16 bytes and not a multiple of 16; it is a PreKeySignalMessage from a trusted identity, not of an existing session, naming an unknown signed prekey; or its one-time prekey has id 16777215 and it was decrypted. With a working random source each of these panics. After a panic sessions and prekeys are unchanged except in the last case. Encrypt panics iff there is no session; ProcessBundle never panics; serializing an encrypted message panics iff the session was started from a bundle with a nil prekey id and awaits its first reply. Anyone can build a packet that crashes a receiver trusting the claimed identity, without any secret.", "quantifier": "all store histories (any operations, crashes, deletions), all packets, addresses, plaintexts, bundles and random sources", "why_tests_cant": "Absence of other panics must hold for every byte string and every history of the stores.", "anchors": ["session/cipher.go: Cipher.Encrypt, Cipher.DecryptAndGetKey, Cipher.DecryptMessageReturnKey, DecryptWithRecord, DecryptWithState", "session/session.go: Builder.Process, processV3, ProcessBundle", "cipher/cbc.go: DecryptCbc", "protocol/prekey_signal_message.go: NewPreKeySignalMessageFromBytes"]}
{"id": "C65", "title": "Calls running at the same time", "statement": "Goroutines running Encrypt, Decrypt/DecryptMessage and ProcessBundle at the same time on the same stores, each for its own remote address and with no one-time prekey named by messages in two of them, do not interfere: under every interleaving of their store accesses each gets, call by call, the answers it gets running alone, and leaves for its address and its prekeys what it leaves running alone. Outside those conditions the library gives no protection (it has no locks): two first messages naming one one-time prekey are both accepted when they race although one after the other the second is refused; two concurrent Encrypts for one address return messages with the same ratchet key and counter for different plaintexts; two concurrent receives for one address lose a record, and a message already read is accepted again.", "quantifier": "all store contents with a per-address trust policy, all numbers of threads, all programs of calls, all schedules of the reads and writes", "why_tests_cant": "The number of interleavings is unbounded; a test runs a few.", "anchors": ["session/cipher.go: Cipher.Encrypt, Cipher.DecryptAndGetKey, Cipher.DecryptMessageReturnKey", "session/session.go: Builder.Process, ProcessBundle", "state/store: SignalProtocol"]}
{"id": "C66", "title": "A whole group conversation", "statement": "Any number of members talk in any number of groups, each with its own (serializing) sender key store, all empty at first. Whatever the schedule of Create, processing of distribution messages, Encrypt, and deliveries with loss, duplication, delay and reordering per recipient, and whatever bytes are handed to Decrypt in between, every call has exactly the outcome of a small reference: a delivered message is read with the sender's plaintext iff the member had joined the channel at or before that message, has not read it before and is within the window of 2000; it is refused otherwise; Encrypt/Decrypt without any record panics; the sender cannot read its own messages. Traffic of one channel never affects another. Injected bytes that are refused disturb nothing. A member never reads a message sent before the distribution message it joined with, whatever happens later.", "quantifier": "all numbers of members and groups, all schedules of fewer than 2^32 sends and 2000 joins, all plaintexts and randomness", "why_tests_cant": "Unboundedly many schedules over unboundedly many members.", "anchors": ["groups/cipher.go: GroupCipher.Encrypt, Decrypt", "groups/session_builder.go: SessionBuilder.Process, Create", "groups/state/record/sender_key.go", "protocol/sender_key_name.go"]}
{"id": "C67", "title": "Repeated, excess and foreign distribution messages; panics of the group calls", "statement": "Processing a distribution message whose sender key id the member already knows changes no later answer of any group call, while fewer than 2000 distribution messages are processed. A member keeps exactly the 2000 latest sender keys per name: after processing the same distribution message 2000 times it has forgotten everything it had read with it and reads old messages again; after 2000 with other ids it refuses the sender ('No sender key for id'). Encrypt with a received (foreign) sender key is not refused: it returns a message signed with the all-zero key and burns the iteration, so the real sender's message of that iteration is refused. Encrypt panics exactly when nothing is stored under the name; Decrypt panics exactly then or for a message with a valid signature of the known key and a readable iteration whose ciphertext is at least 16 bytes long and not a multiple of 16; Create never panics.", "quantifier": "all programs of group calls on one sender key name, all distribution messages and messages, all randomness", "why_tests_cant": "All histories of calls; limits of 2000; equivalence of two whole programs.", "anchors": ["groups/session_builder.go: SessionBuilder.Process, Create", "groups/cipher.go: GroupCipher.Encrypt, Decrypt, getSenderKey", "groups/state/record/sender_key.go: AddSenderKeyState, GetSenderKeyStateByID", "groups/state/record/state_sender_key.go: NewSenderKeyStateFromStructure"]}
{"id": "C68", "title": "What a stolen sender key record reveals; forward secrecy of group messages", "statement": "After any sequence of group calls (Encrypt, Decrypt, Process, restarts), whoever steals a member's stored record can derive, from a sender key in it, the keys of exactly those messages the member could itself still decrypt: those at or after the stored iteration and the skipped ones whose keys are kept. In particular the key of a message that was successfully decrypted (or sent with Encrypt) can never be derived from any later record, even together with the keys of all other messages of that sender; and all messages sent after the theft are readable for ever (there is no healing in groups).", "quantifier": "all histories of group calls with iterations below 2^32-1, all messages, all sender keys held without kept message keys at the start, all later histories", "why_tests_cant": "Secrecy over all histories and all attacker computations.", "anchors": ["groups/cipher.go: GroupCipher.Encrypt, Decrypt, getSenderKey", "groups/ratchet/sender_chain_key.go: Next, SenderMessageKey", "groups/ratchet/sender_message_key.go: NewSenderMessageKey", "groups/state/record/state_sender_key.go: RemoveSenderMessageKey, AddSenderMessageKey"]}
{"id": "C69", "title": "Who can read which messages of a conversation: exact compromise sets, theft, healing", "statement": "After ProcessBundle, whatever the two parties encrypt and whatever is delivered, lost, repeated or reordered, every message on the wire is protected with the keys derived for its epoch and number from the X3DH agreement, the ratchet keys up to that epoch and the chain key steps, and each stored session holds exactly: the root key and current chain key of its sending epoch with that epoch's private ratchet key, and for every remembered receiving chain its current chain key and the keys kept for skipped messages; Bob's one-time prekey is gone once he has a session. Consequently the set of keys an attacker can derive from any set of private keys and symmetric keys is known exactly: first messages need (ephemeral, signed prekey), or (Bob's identity, signed prekey, one-time prekey), or (Alice's identity, ephemeral, first ratchet key). A thief of all one party has stored at any time learns exactly the messages that party could still send in its epoch or receive, hence none it has already sent or read, and nothing two epochs later; stealing both stores reveals only the union; a second theft two epochs later does open that epoch from its beginning.", "quantifier": "all conversations (all schedules of sends and deliveries, with loss, repetition and reordering), all times of theft, all sets of stolen private and symmetric keys, all message numbers and epochs, all behaviours of the cryptographic primitives satisfying the laws", "why_tests_cant": "It is about which keys are NOT derivable from stores after every possible history; a test observes one history and can not show absence of a derivation.", "anchors": ["session/cipher.go: Cipher.Encrypt, Cipher.DecryptWithState, getOrCreateChainKey, getOrCreateMessageKeys", "session/session.go: Builder.processV3, Builder.ProcessBundle", "ratchet/ratchet.go: CalculateSenderSession, CalculateReceiverSession", "keys/root/key.go: Key.CreateChain", "keys/chain/key.go: Key.NextKey, Key.MessageKeys", "state/record/state_session.go: State"]}
{"id": "C70", "title": "Group messages byte by byte; messages made by other implementations are read", "statement": "A group message is: version byte 0x33, the protocol-buffer fields (sender key id, iteration, AES-CBC ciphertext under the iv and cipher key derived from the chain key at that iteration), then the 64-byte signature of all that under the sender's signing key; a distribution message is version byte and the fields id, iteration, chain key, 0x05-prefixed signing key. There is exactly one encoding for each content, so a session message or distribution message by any implementation that follows the description is the one this library would have produced. Conversely, a member that processes a conforming distribution message of an id it does not know reads the conforming messages of that sender in any delivery order, each exactly once, up to 2000 ahead, whoever made them (only the signature must be valid).", "quantifier": "all sender keys, ids and iterations below 2^32, all plaintexts, all random streams, all conforming byte strings, all delivery orders with repetitions and losses", "why_tests_cant": "Interoperability with every conforming sender and every delivery order.", "anchors": ["protocol/sender_key_message.go: NewSenderKeyMessage, SignedSerialize, Serialize", "protocol/sender_key_distribution_message.go: NewSenderKeyDistributionMessage, Serialize", "serialize/proto.go: ProtoBufSenderKeyMessageSerializer, ProtoBufSenderKeyDistributionMessageSerializer", "groups/cipher.go: GroupCipher.Encrypt, Decrypt", "groups/session_builder.go: SessionBuilder.Create, Process", "session/cipher.go: Cipher.Encrypt"]}
{"id": "C71", "title": "The laws assumed of cryptography hold for the standard primitives", "statement": "Where another property speaks of any cryptography satisfying some laws, the algorithms the library calls satisfy them: with HMAC-SHA-256 (FIPS 180-4, 198-1), X25519 as computed by the ladder of RFC 7748, AES-256 (FIPS 197) and the library's signatures over SHA-512 with Ed25519 verification, key agreement commutes, block decryption undoes encryption, lengths are as expected, and signatures by generated keys verify. X25519 by the ladder is multiplication of curve points for every scalar and every u-coordinate of a point, including unreduced encodings and points of small order. So two strangers can talk in any schedule, and groups can, with nothing assumed.", "quantifier": "all keys, blocks, scalars, u-coordinates of points of the curve, messages, random data, schedules", "why_tests_cant": "Vectors fix finitely many inputs; commutativity of the ladder holds for all keys only because it is multiplication on the curve.", "anchors": ["ecc/curve.go: GenerateKeyPair, CreateKeyPair", "kdf/hkdf.go: DeriveSecrets, CalculateSharedSecret", "cipher/cbc.go: Encrypt, Decrypt", "keys/chain/key.go: Key.MessageKeys, baseMaterial", "ecc/sign_curve25519.go: sign, verify"]}
{"id": "C72", "title": "Which private keys share a public key; public keys of small order", "statement": "Two private keys give the same public key exactly when the integers they stand for after masking are equal or add up to 8 times the group order. The secret shared by two generated key pairs is never zero. A public key of order 1, 2, 4 or 8 is nowhere refused: the shared secret is 32 zero bytes whatever the private key, X3DH with such keys gives session keys independent of all private keys, and there is a bundle with a valid signature that ProcessBundle accepts from every user who trusts its identity key, after which the root key and sending chain key of every such user are the same known constants.", "quantifier": "all private keys, all random streams, all public keys of small order, all users and stores", "why_tests_cant": "Ranges over all pairs of private keys; the exceptional set is tiny.", "anchors": ["ecc/curve.go: GenerateKeyPair", "kdf/hkdf.go: CalculateSharedSecret", "ratchet/ratchet.go: CalculateSenderSession", "session/session.go: Builder.ProcessBundle"]}
{"id": "C73", "title": "Every session stays bound to the identity keys trusted at its set-up", "statement": "Whatever sequence of Encrypt, Decrypt, DecryptMessage and ProcessBundle calls (successful or not), saves and loads a session record goes through, every session in it, current or archived, is either blank or was set up by one of the ProcessBundle / DecryptMessage calls made with it, at a moment when the peer's identity key was trusted (for a bundle: when that key had also signed the signed prekey), and still carries the peer's and our own identity keys and registration ids of that set-up. Prekey ids announced by a session are those of a bundle processed with the record. A message is only accepted if its MAC verifies with the two identity keys of one of those set-ups, and a message sent is made for the keys of one of them.", "quantifier": "all records reachable by any sequence of calls with any arguments, results and store contents; all messages", "why_tests_cant": "The set of histories is infinite and includes failing calls, archiving and promotion of sessions.", "anchors": ["session/session.go: Builder.ProcessBundle, Builder.Process, Builder.processV3", "session/cipher.go: Cipher.Encrypt, DecryptAndGetKey, DecryptMessageReturnKey, DecryptWithRecord", "state/record/state_session.go: SetRemoteIdentityKey, SetLocalIdentityKey, SetSenderBaseKey", "state/record/session.go: ArchiveCurrentState, PromoteState"]}
{"id": "C74", "title": "A first message that cannot be decrypted still pins the identity key it claims", "statement": "If a prekey message names prekeys we hold and cannot be decrypted, DecryptMessage returns an error, no session or prekey changes, but the claimed identity key is saved for the address. With the trust-on-first-use policy of the library's own test stores, from then on every prekey message and every bundle with another identity key for that address is refused with the untrusted error and changes nothing. So a forger who knows only the published prekey ids makes the genuine first message of a contact unreadable (the expectation that a failed message is harmless is refuted).", "quantifier": "all stores, addresses, messages, random streams", "why_tests_cant": "Over every forged message and every later message or bundle.", "anchors": ["session/session.go: Builder.Process", "session/cipher.go: Cipher.DecryptMessageReturnKey", "state/store/identity.go: IdentityKey", "tests/stores.go: InMemoryIdentityKey.IsTrustedIdentity"]}
{"id": "C75", "title": "What becomes of every stored file", "statement": "For every byte string given to NewSessionFromBytes and NewSenderKeyFromBytes exactly one of four things happens, determined by the JSON members: the record they describe is returned; an error because a public key has an unknown type byte; an error because it is not JSON or a member has the wrong kind or range; or the program panics, namely exactly when a public key member is missing or empty, or a structure the code follows (session state, chain, chain key, a stored message key) is null or missing and nothing before it was refused. NewPreKeyFromBytes and NewSignedPreKeyFromBytes never panic: they accept every object whose members have the right kinds, cutting or zero-filling the keys to 32 (signature: 64) bytes.", "quantifier": "all byte strings", "why_tests_cant": "Corrupted or foreign files are unbounded; the order in which parts are examined decides between error and crash.", "anchors": ["state/record/session.go: NewSessionFromBytes, NewSessionFromStructure", "state/record/state_session.go: NewStateFromStructure", "state/record/state_chain.go: NewChainFromStructure", "groups/state/record/sender_key.go: NewSenderKeyFromBytes, NewSenderKeyFromStruct", "state/record/prekey.go: NewPreKeyFromBytes", "state/record/signed_prekey.go: NewSignedPreKeyFromBytes", "serialize/json.go"]}
{"id": "C76", "title": "A cipher whose builder is for another address, or which has none", "statement": "A cipher made by NewCipher with a builder for its own address behaves as the other properties say. With a builder for another address, DecryptMessage accepts a first message exactly from keys trusted for the builder's address, saves the key there, and changes sessions only of the cipher's address; so the expectation that a cipher only accepts keys trusted for its own address is refuted. A cipher made by NewCipherFromSession has no builder: DecryptMessage panics on every message and changes nothing, while Encrypt and Decrypt work as usual.", "quantifier": "all pairs of addresses, stores, messages, random streams", "why_tests_cant": "Tests always use one address object for both.", "anchors": ["session/cipher.go: NewCipher, NewCipherFromSession, DecryptMessageReturnKey", "session/session.go: Builder.Process, NewBuilder"]}
{"id": "C77", "title": "Group calls running at the same time", "statement": "Group calls (Encrypt, Decrypt, Process, Create) made by different threads for different sender key names do not interfere under any interleaving of their store accesses: every thread gets the answers and leaves the record it would alone, and other names keep their records. For the same name they do: two Encrypts that both loaded before either stored return messages with the same key id and iteration, encrypted with the same key and iv, of which no member can read more than one; two Creates can leave the members that were given one distribution message unable to read; a Process that overlaps a Decrypt can be lost.", "quantifier": "all programs of calls, all schedules, all stores", "why_tests_cant": "Interleavings are unbounded and rare in tests.", "anchors": ["groups/cipher.go: GroupCipher.Encrypt, Decrypt", "groups/session_builder.go: SessionBuilder.Process, Create", "groups/state/store/sender_key.go: SenderKey"]}
{"id": "C78", "title": "Every byte string given to the four message parsers", "statement": "NewSignalMessageFromBytes, NewPreKeySignalMessageFromBytes, NewSenderKeyMessageFromBytes and NewSenderKeyDistributionMessageFromBytes, with the protobuf serializer, do with every byte string exactly what a grammar of the wire format says: one version byte, protobuf fields in any order (unknown fields, groups and fields of another wire type skipped, the last of repeated fields counting, numbers cut to 32 bits), and 8 or 64 trailing bytes of MAC or signature. Every input has one outcome: a message with exactly the field values written in it, one named error, or the crash on an empty input or an empty key.", "quantifier": "all byte strings", "why_tests_cant": "The inputs are all byte strings, and protobuf gives infinitely many encodings of the same message.", "anchors": ["protocol/signal_message.go: NewSignalMessageFromBytes", "protocol/prekey_signal_message.go: NewPreKeySignalMessageFromBytes", "protocol/sender_key_message.go: NewSenderKeyMessageFromBytes", "protocol/sender_key_distribution_message.go: NewSenderKeyDistributionMessageFromBytes", "serialize/proto.go: Deserialize", "serialize/protocol_whisper_text.pb.go"]}
{"id": "C79", "title": "The outcome of every group call", "statement": "For one sender key name, starting from nothing or an empty record, every program of Encrypt, Decrypt, Process and Create calls gives exactly the answers, and leaves exactly the stored record, of a case-by-case description of sender keys: which error is returned when (no record, empty record, unknown id, bad signature, iteration already used or dropped, more than 2000 ahead, short ciphertext, overlong padding), which inputs crash, which key decrypts, which keys are kept, what Encrypt signs, what Create announces. After every error or crash the stored record is unchanged.", "quantifier": "all programs of group calls, messages, distribution messages and randomness", "why_tests_cant": "Histories and adversarial messages are unbounded, and the error of each depends on the whole history.", "anchors": ["groups/cipher.go: GroupCipher.Encrypt, Decrypt, getSenderKey", "groups/session_builder.go: SessionBuilder.Process, Create", "groups/state/record/sender_key.go", "groups/state/record/state_sender_key.go", "cipher/cbc.go: DecryptCbc"]}
{"id": "C80", "title": "The outcome of every session call", "statement": "After any history of a party's stores (any calls, crashes between writes, deletions), every Encrypt, Decrypt, DecryptMessage and ProcessBundle call, for every address, message, bundle, plaintext and random source, and every byte string handed to the two message parsers, gives exactly the answer, and leaves exactly the session record, saved identity and prekeys, of a case-by-case description of the double ratchet and X3DH: which session states are tried in which order and how each refusal moves them, when a new receiving chain is derived, which message keys are used, kept and dropped, which error or crash each case gives, what is stored and what is removed. The same holds of every program of calls. A call that does not succeed leaves session and prekeys alone, except the crash after reading a first message whose prekey id is absent or 0xFFFFFF. (Refuted on the way: the identity key saved by DecryptMessage need not be the one of the session in which the message was read: on an existing session the outer identity key of a prekey message is saved unauthenticated.)", "quantifier": "all store histories, addresses, messages, packets, bundles, plaintexts, random sources and programs of calls", "why_tests_cant": "Histories, message contents and archived states are unbounded, and the answer depends on all of them.", "anchors": ["session/cipher.go: Cipher.Encrypt, Decrypt, DecryptAndGetKey, DecryptMessage, DecryptMessageReturnKey, DecryptWithRecord, DecryptWithState", "session/session.go: Builder.Process, processV3, ProcessBundle", "state/record/session.go", "state/record/state_session.go", "ratchet/ratchet.go", "protocol/signal_message.go", "protocol/prekey_signal_message.go"]}
{"id": "C81", "title": "A conversation in which the process dies mid-call", "statement": "Two parties who start a session from a bundle and talk through any schedule of sends and deliveries (loss, duplication, reordering), where any Encrypt, Decrypt, DecryptMessage (and the initial ProcessBundle) may die after any number of its store writes and the party goes on with the stores as left: every completed delivery gives the plaintext sent or an error exactly as a reference predicts in which a call that died before the session was stored might as well not have been made, and one that died after it has used up its message number. No message is used up twice; early deaths change no later result; deliveries in order never fail, whatever died in between (up to 5000 messages encrypted but never sent).", "quantifier": "all crypto satisfying the laws, all parties, all schedules, all crash points of all calls", "why_tests_cant": "Schedules and crash points are unbounded and combine.", "anchors": ["session/cipher.go: Cipher.Encrypt, DecryptAndGetKey, DecryptMessageReturnKey", "session/session.go: Builder.ProcessBundle, processV3"]}
{"id": "C82", "title": "A group conversation in which processes die mid-call", "statement": "Members of any number of groups exchange sender keys and messages under any schedule (loss, duplication, reordering, injection of any bytes), and any Create, Process, Encrypt or Decrypt may die after any number of its store writes, the member going on with its store as left. Every call that returns has the outcome a reference prescribes in which a call that died before storing the record was not made and one that died after it only lost its message, distribution message or plaintext; no member uses up a message twice; calls that died before writing change no answer at all.", "quantifier": "all crypto satisfying the laws, all numbers of members and groups, all schedules, all crash points of all calls", "why_tests_cant": "Schedules, members and crash points are unbounded and combine.", "anchors": ["groups/cipher.go: GroupCipher.Encrypt, Decrypt", "groups/session_builder.go: SessionBuilder.Create, Process"]}
{"id": "C83", "title": "An active network cannot disturb a conversation with packets that are not accepted", "statement": "Two parties converse under any schedule (loss, duplication, reordering, calls that die after any number of writes) while an attacker hands either of them any number of packets of his choice, at any moments: changed copies, packets of other conversations, garbage. As long as no injected packet makes a party store a session, every genuine delivery gives exactly the plaintext or failure it gives without the injections, and no injected packet gives a plaintext. After any history of the stores, a packet that gives a plaintext or changes the session carries a message whose MAC is valid. (Some injected packets crash the receiver, e.g. an unknown signed prekey id; restarted, it goes on as if nothing had happened.)", "quantifier": "all crypto satisfying the laws, all schedules, all injected byte strings and random sources, all crash points", "why_tests_cant": "Schedules, injected byte strings and their positions are unbounded.", "anchors": ["session/cipher.go: Cipher.Decrypt, DecryptMessage, DecryptWithRecord", "session/session.go: Builder.Process", "protocol/signal_message.go: NewSignalMessageFromBytes, VerifyMac", "protocol/prekey_signal_message.go: NewPreKeySignalMessageFromBytes"]}
{"id": "C84", "title": "Many parties, many conversations at once", "statement": "Any number of parties, each with one set of stores, hold any number of pairwise conversations (one per pair; a party may start some and be started with in others, and hand out several bundles with different one-time prekeys but one signed prekey), interleaved in any way and each with loss, duplication and reordering. Every ProcessBundle succeeds and every delivery gives what it must give in its own conversation; its result is the same as if nothing of the other conversations had happened. No message is read twice, and in-order delivery in each conversation reads everything whatever the interleaving.", "quantifier": "all crypto satisfying the laws, all numbers of parties and conversations, all casts, all interleavings and schedules", "why_tests_cant": "The parties, conversations and their interleavings are unbounded.", "anchors": ["session/cipher.go: Cipher.Encrypt, Decrypt, DecryptMessage", "session/session.go: Builder.ProcessBundle, Process", "state/store/store.go: SignalProtocol", "protocol/signal_protocol_address.go: SignalAddress"]}
{"id": "C85", "title": "Conversations under trust on first use", "statement": "With an identity store that trusts a key for an address when none, or the same one, is saved for it (as the store of tests/stores.go does), and with nothing or the right key saved beforehand: ProcessBundle succeeds, the whole conversation goes as with a store that trusts everybody, under any loss, duplication, reordering and deaths of the processes, and so do any number of interleaved conversations. Packets injected to the initiator are harmless as in C83; packets injected to the responder are harmless if the initiator's key was saved before and the store trusts no other. Without that a packet that fails can make the genuine conversation fail.", "quantifier": "all crypto satisfying the laws, all policies of that kind, all stores, schedules, crash points, injected packets, casts", "why_tests_cant": "Policies, schedules, crash points and injected packets are unbounded; the saved keys change during the run, and each later call depends on them.", "anchors": ["session/session.go: Builder.Process, Builder.ProcessBundle", "session/cipher.go: Cipher.Encrypt, DecryptAndGetKey, DecryptMessageReturnKey", "state/store/identity.go: IdentityKey", "tests/stores.go: InMemoryIdentityKey.IsTrustedIdentity, SaveIdentity"]}
{"id": "C86", "title": "Groups set up over pairwise sessions", "statement": "An application sends SenderKey distribution messages as plaintexts of its pairwise sessions, next to ordinary texts, and hands what it reads to the group builder. For any number of parties, conversations and groups, and any interleaving with loss, duplication and reordering of everything: each pairwise delivery gives the text sent or makes the receiver a member of the sender's group, or is refused as the pairwise conversation alone would have it; each group delivery gives what the group conversation alone prescribes for members that joined when they read their invitations (a message before that is a nil dereference). No text or invitation is read twice. Sessions and groups do not disturb each other.", "quantifier": "all crypto satisfying the laws, all framings of contents, all casts, trust-on-first-use policies, schedules, injected group messages", "why_tests_cant": "The parties, groups, schedules and framings are unbounded, and the invitations' bytes depend on the run.", "anchors": ["groups/session_builder.go: SessionBuilder.Create, Process", "groups/cipher.go: GroupCipher.Encrypt, Decrypt", "session/cipher.go: Cipher.Encrypt, Decrypt, DecryptMessage", "session/session.go: Builder.ProcessBundle, Process", "protocol/sender_key_distribution_message.go: NewSenderKeyDistributionMessageFromBytes, Serialize"]}
{"id": "C87", "title": "What the calls do to the caller's byte slices", "statement": "Go slices are windows into shared arrays. Encrypting a slice (EncryptCbc, a session's Encrypt, a group's Encrypt) sends exactly what the slice held at the call, returns new memory, and changes nothing of the existing memory except the 1 to 16 bytes after the slice, which become padding when the slice's capacity has room for them. So a slice without spare capacity is safe; a series of slices each clear of the bytes after the earlier ones is sent as it was; but encrypting one of two neighbouring pieces of a buffer destroys the start of the other, and the receiver reads the wrong text ('two plaintexts that share no byte are both sent' is false). A session's decryption changes nothing that existed and returns new memory; DecryptCbc, cipher.Decrypt and a group's Decrypt work in place, and the plaintext a group returns stays part of the message object: whatever is written to one later shows in the other. cipher.Encrypt changes nothing.", "quantifier": "all memories, slices (array, offset, length, capacity), contents, keys, IVs, records, sequences of calls", "why_tests_cant": "Buffers, capacities, offsets and sequences are unbounded, and tests pass freshly made slices without room behind them.", "anchors": ["cipher/cbc.go: EncryptCbc, DecryptCbc, pad, unpad", "cipher/cipher.go: Encrypt, Decrypt", "session/cipher.go: Cipher.Encrypt, encrypt, decrypt", "groups/cipher.go: GroupCipher.Encrypt, GroupCipher.Decrypt", "util/bytehelper/byte.go: CopySlice"]}
{"id": "C88", "title": "What every key helper call gives, and what becomes of the last resort key", "statement": "GenerateIdentityKeyPair, GenerateKeyPair and GenerateLastResortKey (id 0) give one key made of the next 32 random bytes (lowest three bits and top bit cleared, next bit set) with the matching public key, or the error of the random source; GeneratePreKeys gives one record for each number from start to count (ids reduced modulo 2^32; the stored public key has the type byte 5 before its 32 bytes) or, at the first failed read, that error and no keys; GenerateSignedPreKey signs the 33 serialized bytes of a new key with the identity's private key and keeps id and time, and a failed read of the signature's randomness goes unnoticed (zeros are used); GenerateRegistrationID and GenerateSenderKey cannot fail: a failed read gives 0 and 32 zero bytes. NewPreKey and NewSignedPreKey crash exactly for a key pair without a private key. The prekey of a first message that was read, the last resort key included, is gone, and no first message naming its id is read while the id is missing: 'the last resort key serves every stranger' is false.", "quantifier": "all random sources (including failing ones), ids, ranges, times, key pairs; all worlds, messages and later worlds", "why_tests_cant": "Tests cannot make crypto/rand fail, and ranges, sources, messages and histories are unbounded.", "anchors": ["util/keyhelper/key.go: GenerateIdentityKeyPair, GeneratePreKeys, GenerateLastResortKey, GenerateSignedPreKey, GenerateRegistrationID, GenerateSenderKey", "ecc/curve.go: GenerateKeyPair, CalculateSignature", "state/record/prekey.go: NewPreKey", "state/record/signed_prekey.go: NewSignedPreKey", "session/session.go: Builder.Process", "session/cipher.go: DecryptMessageReturnKey"]}
{"id": "C89", "title": "The stores, and the lengths of packets, tell nothing of the texts but their numbers of blocks", "statement": "Two runs of session calls (or of group calls) that differ only in the texts encrypted, and in the contents of the messages received (body, previous counter, MAC), and whose differing calls succeed, leave exactly the same stores: the sessions, saved identities and prekeys that a program keeps on disk hold nothing of what was said, and differ in nothing by it. Two packets that Encrypt makes of two texts from the same stores are of one kind, differ only in the encrypted body and the MAC, and are equally long if and only if the two texts take the same number of 16-byte blocks (their lengths divided by 16 are the same whole number), and so with two group messages (which differ only in body and signature).", "quantifier": "all texts, messages, contacts, worlds (any store contents and policies), random sources and programs of calls; for decryption the two messages are read by the same sessions of the record, or the record has one session", "why_tests_cant": "It compares every pair of runs over unboundedly many texts, messages and store contents; a test compares a few.", "anchors": ["session/cipher.go: Encrypt, Decrypt, DecryptMessage, DecryptMessageReturnKey", "groups/cipher.go: Encrypt, Decrypt", "protocol/signal_message.go: NewSignalMessage", "protocol/sender_key_message.go: NewSenderKeyMessage", "serialize/proto.go: Serialize", "cipher/cbc.go: Encrypt"]}
{"id": "C90", "title": "What the package logger puts out", "statement": "After any history of Setup, Configure and logging calls: if the last Setup handed over a logger, each call and each setting goes to that logger, unchanged, and nothing is printed; otherwise Debug and Info print nothing ever, and Warning and Error print one line with their level, caller and message exactly if nothing was configured since the last Setup, or one of the comma-separated parts of the last settings is \"all\" or stands anywhere in the caller's name. A caller's name is its file's name without directories, a colon and the line number. 'Configure with an empty text silences the log' and 'naming session.go lets only session.go through' are false: an empty part lets every caller through, and so does any name it stands in.", "quantifier": "all histories of calls, settings, paths, lines and messages", "why_tests_cant": "Histories, settings and names are unbounded; a test tries a few.", "anchors": ["logger/default.go: shouldLog, ensureNamespaces, log, Debug, Info, Warning, Error, Configure", "logger/logger.go: Logger, Setup, ensureLogger, getCaller, Debug, Info, Warning, Error, Configure"]}
{"id": "C91", "title": "The Async functions tell their completion once, and rightly", "statement": "GenerateIdentityKeyPairAsync calls its completion once: OnSuccess with the key pair that GenerateIdentityKeyPair gives, or OnFailure with the error of the random source. VerifySignatureAsync calls OnSuccess, always with true, exactly if VerifySignature accepts, and OnFailure(\"Signature invalid\") exactly if it does not. CalculateSignatureAsync, which takes a signature of 64 zero bytes for a failure, tells OnSuccess with the signature that CalculateSignature gives for every private key (any 32 bytes), every message and every random source, a failing one too: no signature is all zeros. What CalculateSignatureAsync tells of a generated key, VerifySignatureAsync accepts.", "quantifier": "all private keys (for the acceptance: those made by key generation), all messages, signatures and random sources (failing ones included), any SHA-512", "why_tests_cant": "That no signature of any key and message is 64 zero bytes is a fact about the curve's group; a test sees a few signatures.", "anchors": ["util/keyhelper/key.go: GenerateIdentityKeyPairAsync", "ecc/curve.go: VerifySignatureAsync, CalculateSignatureAsync, VerifySignature, CalculateSignature", "ecc/sign_curve25519.go: sign"]}
{"id": "C92", "title": "Which other signatures and keys verify once one does", "statement": "VerifySignature accepts, for one public key and one message, at most one second half for each first half (32 bytes) of a signature and value of the top bit of its last byte: of two accepted signatures that agree in these, both are the same bytes, so nobody makes another valid signature out of one by adding multiples of the group order or setting spare bits; no first half has three accepted signatures. Public keys of the same curve coordinate accept exactly the same signatures of every message; so that a signature is accepted under one 32-byte public key only is false: every public key has another that accepts exactly the same signatures (its top bit turned over).", "quantifier": "all 32-byte public keys, all messages, all pairs (triples) of 64-byte signatures; any SHA-512", "why_tests_cant": "It is about every other byte string; a test changes a few bits of a few signatures.", "anchors": ["ecc/curve.go: VerifySignature", "ecc/sign_curve25519.go: verify"]}
{"id": "C93", "title": "The byte and error helpers for every argument", "statement": "SplitThree returns parts exactly if its input is not nil, the three lengths are not negative and the input has that many bytes: the first n1, the next n2 and the next n3 bytes; otherwise it returns an error, except that it can panic when the sum of the lengths does not fit an int (that it never panics is refuted). Split returns the first n1 bytes and exactly n2 bytes after them, zeros where the input ends, and panics exactly if a length is negative, n1 exceeds the input or n2 the memory. Trim returns the first n bytes of the input if it has them, but for a length beyond the slice, up to its capacity, it returns the bytes of the memory behind it instead of panicking (that it reads only its argument's bytes is refuted). Bytes5ToInt64 is the number of the five bytes, most significant first, or a panic if they are not there. CopySlice has the same bytes. Split, Trim and CopySlice return slices of their own, with nothing behind them. SliceToArray maps two slices to one array exactly if their first 32 (64) bytes agree, missing bytes counting as zeros. A MultiError has errors exactly if some error added was not nil, and its text is that of the first such. For the lengths the library passes, these are the functions used in the rest of the model.", "quantifier": "all slices (elements, capacity, memory behind them, nil), all 64-bit lengths and offsets, all sequences of added errors", "why_tests_cant": "The failing cases need lengths near 2^63 or slices with spare capacity; a test uses literals of a few bytes.", "anchors": ["util/bytehelper/byte.go: Split, SplitThree, Trim, Bytes5ToInt64, CopySlice, SliceToArray, SliceToArray64", "util/errorhelper/error.go: NewMultiError, Add, HasErrors, Error"]}
