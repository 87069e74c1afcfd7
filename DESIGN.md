# Formal model of prospik/libsignal-protocol-go

The model is in `rocq/theories/`, written in Gallina for Coq 8.16.1, standard library only.
Each definition cites the Go file and lines it models.

## Modelling decisions

* **Values.** Go `[]byte` = `list byte`; `[n]byte` = `arr n` (lists of proven length); a slice whose
  nil-ness matters = `option bytes`; `uint32` = `N` with explicit reduction modulo 2^32; `int` = `Z`.
* **Outcomes.** `res A = Ok a | Err e | Panic`. Nil dereferences, out-of-range indexing and library
  panics are explicit `Panic` results, one error constructor per error value.
* **Mutation.** A method that mutates its receiver returns the new receiver, *also on error and panic*,
  so that "pointer" stores (live record handed out) and "serializing" stores (copies) can both be modelled.
* **Randomness.** A list of 32-byte strings or read failures consumed left to right.
* **Stores.** An operation reads a view of the stores and produces an ordered trace of writes. A
  crash point is a prefix of the trace.
* **Cryptographic primitives.** A record `crypto` of functions (HMAC-SHA256, X25519 base and scalar
  multiplication, AES block functions, XEdDSA sign/verify). HKDF (RFC 5869), CBC mode, padding, MAC inputs, X3DH and the
  ratchets are modelled concretely on top. Theorems that need algebra take `crypto_laws C` as an
  explicit hypothesis (HMAC outputs 32 bytes, DH commutes on generated keys, block decryption inverts
  encryption, signatures made with a generated key verify). No secrecy or unforgeability is assumed. A concrete `toy`
  instance satisfying the laws shows they are consistent and is used for non-vacuity and refutations.
* **Protobuf** (golang/protobuf 1.3.1, proto2 optional fields) is modelled concretely at byte level,
  including unknown-field skipping.
* **JSON.** `encoding/json` (compact printing, base64 of byte slices, HTML escaping, the scanner, case-folded
  member names, duplicates, null handling, integer ranges) is modelled at the level of bytes for the schemas the
  library stores (Json.v), and compared with an independent RFC 8259 grammar (JsonSpec.v).
* **Curve arithmetic.** The vendored Edwards code (field, scalar and group operations, the 32 x 8 table of const.go,
  point (de)compression) is modelled limb by limb with wrapping 32/64-bit arithmetic. X25519 itself
  (golang.org/x/crypto/curve25519), ed25519.Verify and SHA-512 are outside the repository and appear as functions with a
  stated specification (`external_spec` in XedSpec.v); XedRef.v builds reference functions satisfying it.

## Plan per property

| id | property | model and proof |
|---|---|---|
| C01 | X3DH: both sides derive the same root and chain key | X3dh.v models both computations byte for byte over an abstract X25519 with the commutation law; algebraic equality. |
| C02 | X3DH binds every input secret | Master secret as a function of the DH outputs; injectivity by fixed-width splitting. |
| C03 | Symmetric (both online) session agreement | Case split on the 4-byte big-endian comparison; disagreement by a vm_compute witness in the toy crypto. |
| C04 | Diffie-Hellman ratchet step agreement | root_create_chain; equality from DH commutation; lengths from HKDF. |
| C05 | First contact end to end through the wire | Composition of ProcessBundle, Encrypt, wire codecs, DecryptMessage models; symbolic evaluation with round-trip lemmas. |
| C06 | Two-party conversation decrypts correctly under any schedule | Simulation: abstract epoch/chain machine (Spec) against two concrete session worlds, induction over the schedule. |
| C07 | At most one successful decryption per (ratchet key, counter) | Inductive invariant on one state: indices consumed, stored counters are NoDup, below the chain index, disjoint from consumed. |
| C08 | Replay after archived-session promotion | Positive theorem on list shape of promotion; refutation by toy witness. |
| C09 | Session records stay bounded | Invariant by induction over an operation language including adversarial messages. |
| C10 | Work per received message is bounded and the jump limit is exact | Loop model counts derived keys; bound by induction; exact boundary as iff; for a chain that exists (PropertiesSession.v) and for one the attempt creates (PropertiesMore.v). |
| C11 | A failed decrypt writes nothing (serializing store) | Effect traces of the operations; case analysis over all paths. |
| C12 | A failed decrypt against an in-memory (pointer) store | Pointer-store semantics = write back the mutated record; refutation by toy witness; positive statement for the part that holds. |
| C13 | Decrypting a late message of an archived session does not disturb the current one | Refutation by toy witness; positive restricted theorem. |
| C14 | Authentication covers every field of a message | Injectivity of version ++ protobuf encoding and of identity prefix; acceptance implies MAC equality. |
| C15 | What the wire encoding authenticates | Acceptance factors through decode; witnesses of malleability by vm_compute. |
| C16 | SignalMessage wire round trip | Concrete protobuf codec (varints, tags, unknown-field skipping); decode(encode)=id. |
| C17 | PreKeySignalMessage wire round trip | As C16; refutation for the absent id. |
| C18 | SenderKeyMessage and SenderKeyDistributionMessage wire round trip | As C16. |
| C19 | Parsers: exact classification of every byte string | Total decoder model with explicit Panic; iff characterisation. |
| C20 | Public key encoding | decode_point model; iff characterisation. |
| C21 | Symmetric encryption round trip | CBC over an abstract block cipher with dec(enc)=id; induction over blocks. `CipherSpec.v` says what every call returns (any key, iv and text length, with or without an iv, any randomness); C21_encrypt_fate proves it both ways. |
| C22 | DecryptCbc: exact outcome on arbitrary ciphertexts | Exact outcome theorem by cases; C22_decrypt_fate against `CipherSpec.v` covers also keys and ivs of any length and the iv taken from the ciphertext. |
| C23 | PKCS7 padding | Direct proofs on lists; C23_pad_fate, C23_unpad_fate, C23_encrypt_fate, C23_decrypt_fate give the outcome of every call against `CipherSpec.v`. |
| C24 | Bundles are gated on trust and signature | Effect trace of process_bundle. |
| C25 | Pre-key messages from untrusted identities are refused | Effect trace of decrypt_message. |
| C26 | Trust is not enforced on established sessions | Non-interference equality of two runs under two policies. |
| C27 | One-time prekeys are consumed exactly once, after the session is stored | Effect trace shape; crash = prefix of the trace; replay after crash. |
| C28 | Pre-key messages without a usable one-time prekey | Panic theorem, no plaintext is ever returned, an empty id arrives as prekey 0 and is refused by every responder without prekey 0 (PropertiesMore.v), plus wire witness. |
| C29 | Session record serialization round trip | structure/from_structure models; equality under initialisation predicate (through JSON text: C60). |
| C30 | PreKey and SignedPreKey record serialization | As C29; exact characterisation of the public key damage. |
| C31 | SenderKey record serialization round trip | As C29. |
| C32 | Group messages decrypt under any delivery schedule | Simulation of one sender and one receiver against an abstract chain machine. |
| C33 | Group messages are accepted at most once | As C07 for group states. |
| C34 | Group messages are authenticated before any state change | Case analysis. |
| C35 | Group state is bounded; retention is exact | As C09/C10. |
| C36 | Group decrypt overwrites its argument | In-place decryption is modelled by returning the overwritten message; witness. |
| C37 | Group session creation is idempotent | Case analysis. |
| C38 | Fingerprints are symmetric and well formed | Decimal printing model; total order on byte strings. |
| C39 | Address strings identify addresses | Injectivity of decimal plus last separator. |
| C40 | Prekey generation ids | Loop model; closed form of ids. |
| C41 | Provisioning messages | Model of the envelope after base64/JSON decoding. |
| C42 | Sequential encryption never reuses a message key position | Invariant over histories; interleaving model of two Encrypts. |
| C43 | Previous counter | uint32 arithmetic model. |
| C44 | Re-establishing a session archives the old one | Record model with the fresh flag. |
| C45 | Sessions of different addresses are isolated | World model with per-address stores, induction over histories of calls (C45_histories, PropertiesMore.v). |
| C46 | Pre-key messages are sent exactly until the first reply | Invariant over histories. |
| C47 | Key sizes | HKDF length lemma; well-formedness invariant of states. |
| C48 | Returned message keys decrypt the message later | Direct. |
| C49 | Crash points | All prefixes of effect traces of the session calls, and of the group calls (PropertiesMore.v). |
| C50 | Counter wrap-around | uint32 model of NextKey. |
| C51 | Forward secrecy of deleted keys (symbolic) | Symbolic term algebra with derivability. |
| C52 | Edwards field arithmetic | Limb model over Z with 2^64 range checks. |
| C53 | Bundle assembled by the peer is accepted | Signature law of the crypto interface applied through keyhelper and builder models. |
| C54 | Healing after a leak (symbolic) | Terms and derivability of C51, a ratchet step with a fresh key; induction over derivations. |
| C55 | Scalar arithmetic of signing | ScMulAdd/ScReduce transcribed with wrapping int64; every carry shown in range, the value tracked as a polynomial in 2^21. |
| C56 | Edwards group operations and fixed-base multiplication | Group law on the curve from scratch (CurveProofs/CurveGroup); representation predicates for the four coordinate systems; the table checked entry by entry by a verified checker; recoding of the scalar by induction. |
| C57 | Signatures | Sign model against the XEdDSA equations; verification through the key conversion of C52. |
| C58 | Key schedule and wire bytes | WireFormatSpec.v (written from the RFCs and the Signal documents) against the models. |
| C59 | Point decompression | FromBytes against `decodes`; the square-root identity by Fermat. |
| C60 | JSON storage | Round trip, exact text, refusal of truncated or extended files; induction over values of a schema. |
| C61 | JSON messages | As C60 for the four message types; JsonFateSpec.v gives the outcome of the four parsers for every text as relations over the members found (names and kinds in MembersSpec.v), proved equivalent to the parsers (PropertiesJsonWire.v). |
| C62 | New session with an old contact | `rrun` runs the world operations on schedules with injected packets, from stores holding any `stored` record; simulation against the reference `cspec` of C06 (ReopenProofs*.v), where the record's older states are tried after the current one and failed deliveries write nothing. |
| C63 | Crossed initiations | C62's first contact applied twice, after showing that starting and sending keeps a party `acquainted`; refutation of the continuation by a computed history of four rounds. |
| C64 | When operations panic | `lived` worlds (any history of operations with crashes, changes of the other stores, deletions) hold only initialised states; an attempt on such a state panics iff the body is ragged and the MAC right; lifted over archived states, Process and the writes to an iff with the list `crashes`. |
| C65 | ThreadSpec.v: threads of public calls, schedules of single store reads and writes over World.v. | simulation: each thread's view equals that of its solo run, invariant over schedules (ThreadProofs.v); concrete racing schedules for the three refuted claims |
| C66 | GroupConvSpec.v: a network of members with a store each, mevents Create/Join/Send/Deliver/Inject through Group.v and Messages.v bytes; reference rspec. | simulation invariant per channel and member over all schedules (GroupConvProofs.v) |
| C67 | GroupStoreSpec.v: programs of group calls (gplay) over GroupSpec.v's serializing store. | simulation between a record and the record without a shadowed state; exact eviction by last_n; size invariant of kept keys for the panic conditions (GroupStoreProofs.v) |
| C68 | GroupFsSpec.v: terms for chain and message keys, what a thief derives, their bytes; Group.v. | invariant: every kept key and the chain key of the state under an id are positions of one chain (trace, GroupFsProofs.v); derivability decided exactly; `spent` iterations stay spent (GroupProofs.v) |
| C69 | ConvProofs2/3 (conversation invariant) extended by a key ladder: SecrecySpec.v gives secrets, keys, their values, what a packet and a stored session hold, and the derivations of an attacker | C69_conversation_keys by the conversation invariant (induction over the history); C69_exact by induction over derivations, both ways; C69_theft, C69_theft_of_both, C69_past_is_safe, C69_healing, C69_second_theft, C69_first_messages from it with an invariant of the reference run. Symbolic model of derivation: HMAC, HKDF one-way, no algebraic attacks |
| C70 | GroupWireSpec.v: the bytes of group and distribution messages, independent of the marshaller; Group.v, Messages.v, Wire.v. | the marshaller produces exactly the described bytes; the description is deterministic (GroupWireProofs.v); foreign messages satisfy the `wire_ok` relation used by C66's conversation invariant |
| C71 | Sha2.v, Aes.v, X25519.v: the standards written out; `standard` collects them with XEdDSA.v. | the ladder by an invariant with algebra over a generic field (LadderAlgebra.v, LadderProofs.v) on top of the group law of C56; AES by inverting each layer (AesProofs.v); then C06 and C66 instantiated. Published test vectors are evaluated in PropertiesStandard.v |
| C72 | the standard primitives of C71 with Ecc.v, X3dh.v, SessionBuilder.v. | prime order of the base point (C56) and Bezout for equality; small-order points killed by the cofactor in every masked scalar (KeyPairProofs.v) |
| C73 | BindingSpec.v: `history` = the record object together with the set-up calls made with it, everything else about the stores arbitrary at each call; `bound_to`. | induction over the history: every operation either keeps the identity fields of each state or replaces the current state by one of a set-up (BindingProofs.v) |
| C74 | World.v with the policy of tests/stores.go (`first_use`, BindingSpec.v). | case analysis of DecryptMessage after a successful Process; concrete refutation with the toy primitives |
| C75 | LoadSpec.v: the fate of a file as an inductive relation on the members read (JsonValueSpec.v), independent of the loaders of JsonRecords.v. | soundness and totality of the relation, part by part (LoadProofs.v); with injectivity of the result this gives an equivalence |
| C76 | CipherObject.v: the cipher's address and its optional builder's address separately; World.v is the case of equal addresses. | equality with World.v for equal addresses; invariants of the writes; concrete refutation |
| C77 | GroupThreadSpec.v: threads of group calls on one store, one load and at most one store per call, any schedule. | per-thread invariant: done calls played alone give the outputs and, with the outstanding write, the record (GroupThreadProofs.v); the races concretely, two Encrypts for all inputs |
| C78 | WireGrammarSpec.v: the wire format as inductive relations (varints, skipped fields, groups, messages for a schema) and the outcome of each parser in terms of them, without the decoder. | soundness and completeness of the decoder for the grammar (WireGrammarProofs.v), case analysis of the parsers (WireFateProofs.v) |
| C79 | GroupCallSpec.v, BodySpec.v: relations giving the outcome of each call from the stored record, without the cipher's functions. | both directions per call (GroupCallProofs.v, BodyProofs.v), induction over programs with the store invariant of C67 |
| C80 | SessionCallSpec.v: relations giving the outcome of each call from the stores, without the cipher's and builder's functions; bytes by the grammar of C78, bodies by BodySpec.v, keys by WireFormatSpec.v. | soundness and existence of each relation (SessionCallProofs.v, 2, 3), store invariant from `lived`, induction over programs |
| C81 | CutSpec.v: `xrun` runs the model's calls, a cut call committing only its first n writes; `xspec` the reference. | the invariant of C06 (ConvProofs2/3) kept by each crash point; at-most-once and in-order-with-gaps invariants on the reference (CutProofs.v) |
| C82 | GroupCutSpec.v: `gxrun` runs the model's calls, a cut call committing only its first n writes; `gxspec` the reference, in terms of the one of C66. | simulation by a network in which every message reaches the wire (invariant of C66); spent message numbers stay spent (GroupCutProofs.v) |
| C83 | AttackSpec.v: `arun` runs the model's calls on the schedules of C81 with injected packets of any bytes; `genuine` keeps the results of the genuine deliveries, to be compared with C81's reference on the schedule without the injections. | a call that stores no session leaves sessions and prekeys alone, whatever it returns (`not_taken`); invariant of C06; acceptance by cases of C80's description (AttackProofs.v) |
| C84 | ManySpec.v: `nrun` runs the model's calls for any number of parties, one world each, on any interleaving of pairwise conversations; `nspec` is C06's reference for each conversation on its own. | what each call leaves alone (`frame`, from its effects); C06's invariant for every conversation at once, kept by the others' events because addresses, pairs and one-time prekeys differ (ManyProofs.v) |
| C85 | TrustSpec.v: policies (`first_use`, `no_change`, `test_store_policy` for tests/stores.go:40-43) instead of C06's trust in all keys; runs and references are those of CutSpec.v, AttackSpec.v and ManySpec.v. | the calls under the policy are those under `credulous` as long as the policy answers yes; invariant: nothing, or the right key, is saved for the peer; lifted over C83's and C84's simulations (TrustProofs.v) |
| C86 | JointSpec.v: `jrun` runs the pairwise calls (World) and the group calls (Group) of any number of parties on one schedule, with distribution messages as pairwise plaintexts under any `framing`; `jspec` is C84's reference with C66's. | C84/C85's invariant, one event at a time, next to C66's; the wire contents related to notes in the reference, which refer to distribution messages by number (JointProofs.v) |
| C87 | GoMem.v: a heap of byte arrays, slices with offset, length and capacity, Go's `append` in place where capacity allows, and EncryptCbc, DecryptCbc, cipher.Encrypt/Decrypt, session Encrypt and group Encrypt/Decrypt over it. | each memory-level call refines the value-level one on the bytes the slice holds, with a frame condition on every byte that existed; induction over a series of calls (GoMemProofs.v) |
| C88 | KeyHelper.v, PreKeyRecords.v, Group.v (registration ids, sender keys) against KeyHelperSpec.v: random source with failures, key clamping by division and remainder, an inductive fate of GeneratePreKeys. Last resort key: World.v. | both directions of each call's fate; induction on the number of keys; consumption from C27/C28 plus the store write; a two-stranger counterexample |
| C89 | World.v, Group.v, Messages.v, Wire.v, Cbc.v against QuietSpec.v: inductive pairs of programs that differ in texts only | two-run (relational) proofs call by call, induction on programs; strict monotonicity of the length of protobuf fields, padding arithmetic |
| C90 | Logger.v (logger/logger.go, logger/default.go) against LoggerSpec.v: parts of a text, names in names, the last Setup and Configure of a history | induction on texts (split, contains) and on histories |
| C91 | Async.v (util/keyhelper/key.go, ecc/curve.go) on XEdDSA.v, Edwards.v | a point with y = 0 has order four, so no multiple of the base point (of prime order) has it, so no R of a signature is zero bytes; C57 and C88 for the rest |
| C92 | XEdDSA.v (ecc/sign_curve25519.go) | MalleableProofs.v: C57's exact verification equation; the second half is determined below the group order by the base point's order (its multiples below the order differ); the coordinate of a key does not see its top bit |
| C93 | ByteMem.v (util/bytehelper/byte.go, util/errorhelper/error.go): slices with capacity and memory behind them, wrapping ints | cases on the checks in the order of the code; the last theorem links to Bytehelper.v |

## Files

| layer | files |
|---|---|
| model | Base, Labels, Crypto (primitives, HKDF), Bytehelper, Ecc, Cbc, Wire (protobuf), Itoa, Keys, X3dh, Messages, SessionState, SessionRecord, SessionBuilder, SessionCipher, Group, Address, Fingerprint, PreKeyRecords, KeyHelper, Provision, World (stores, operations), Field25519, Scalar25519, EdBase (const.go), Edwards, XEdDSA, Json, JsonRecords, JsonMessages |
| concrete crypto for examples | Toy (satisfies `crypto_laws`), ToySession, ToyArchive (whole conversations run by computation) |
| specifications, independent of the model | SessionSpec, GroupSpec, ConvSpec, FsSpec, FieldSpec, ScalarSpec, CurveSpec, XedSpec, WireFormatSpec, JsonSpec, JsonStorageSpec |
| mathematics | FermatNat, Fermat, FastZ, FieldPrime, OrderPrime (primality by Pocklington certificates), Fp (the field), CurveProofs, CurveGroup |
| proofs | *Proofs*.v, FsRefine, EdwardsTable, EdwardsMult, EdwardsOrder, EdwardsDecode, XedRef |
| theorems | Properties*.v: the theorems named Cnn_..., an Example beside each, and Print Assumptions |

A theorem called `..._refuted` proves that an expectation a user might have is false of the code, with a witness. The
witness runs in the toy crypto, so it refutes the claim "for every crypto satisfying the laws".
Some numeric examples (running the curve code) are `Check (eq_refl v <: term = v)`: they are run by the VM when the file is
compiled and leave nothing in the compiled file; no theorem depends on them.

## Trusted base

* Coq 8.16.1's kernel. `Print Assumptions` stands under each theorem in the `Properties*.v` files, and says "Closed under the
  global context" for every one: no axiom is used, not even one of the standard library. (Tools that list the axioms of the
  loaded library files also show `Coq.ssr.ssrunder.Under_rel.*`, which belong to a module type of the standard library
  loaded with the ssreflect plugin; no theorem here depends on them.)
* The reading of the Go code into Gallina: each definition cites file and lines.
* The behaviour of Go's standard library and of golang/protobuf as stated in comments: slices, maps, `copy`, integer
  conversion, `encoding/binary`, `encoding/json`, `encoding/base64`, `crypto/hmac`, `crypto/aes`, `crypto/cipher`.
* `crypto_laws C` and `external_spec` where a theorem has them as hypotheses. Both have instances in the development
  (Toy.v, XedRef.v), so they are consistent. For the standard algorithms themselves (FIPS 180-4, 197, 198-1, RFC 7748, RFC 8032,
  written out in Sha2.v, Aes.v, X25519.v, XedSpec.v) they are theorems (C71), so what remains trusted is that the Go packages
  implement these standards. Nothing assumes unforgeability or secrecy; C51, C54, C68 and C69 are about symbolic terms.

## Modelled code and code left out

Modelled: logger, cipher, ecc (with vendored edwards25519), fingerprint, groups and groups/ratchet and groups/state/record,
kdf, keys/*, protocol (messages, addresses), ratchet, serialize (protobuf and JSON), session, signalerror values,
state/record, util/bytehelper, util/keyhelper, util/optional, provision (`root`). Simplifications, each noted at the definition:

* Pointers are values, except where sharing is observable: live records of in-memory stores (C12), in-place decryption (C36),
  shared chain objects (noted in SessionState.v).
* The store interfaces are the caller's; they are modelled as maps that may be pointer or serializing stores. A store that
  returns errors or blocks is not modelled.
* `int` is 64-bit; counters are `uint32` with wrap-around (C50).

Not modelled: the logging calls inside the library (the package logger itself is: C90), when a goroutine of an `Async` function runs (what it tells is: C91), data races below whole store accesses (interleavings of whole accesses
are: C42), getters that only return a field, side channels and timing, memory limits, tests, and code outside
the repository other than the parts of the Go library named above.

## Mutation log

`seeded/LOG.jsonl`: one line per wrong program tried. `theorems_failed` lists the theorems that no longer compile, either
directly or because a lemma about the edited definition they rest on no longer holds. An empty list with a note means the edit
is equivalent (the note says why) or that a theorem was added or tightened afterwards (`tightened`).
