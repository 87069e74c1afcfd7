{
 "claims": [
  {
   "property": "C01",
   "status": "proved",
   "theorems": [
    "C01_x3dh_agreement"
   ],
   "note": ""
  },
  {
   "property": "C02",
   "status": "proved",
   "theorems": [
    "C02_session_keys_are_kdf_of_secret",
    "C02_secret_determines_every_dh",
    "C02_one_time_key_use_is_bound"
   ],
   "note": ""
  },
  {
   "property": "C03",
   "status": "proved",
   "theorems": [
    "C03_symmetric_agreement",
    "C03_symmetric_tie_swaps_the_secret",
    "C03_symmetric_tie_inputs_differ",
    "C03_symmetric_tie_refuted"
   ],
   "note": "The statement gives the exact boundary; disagreement on a tie is exhibited by the _refuted theorem."
  },
  {
   "property": "C04",
   "status": "proved",
   "theorems": [
    "C04_ratchet_step_agreement"
   ],
   "note": ""
  },
  {
   "property": "C05",
   "status": "proved",
   "theorems": [
    "C05_first_contact"
   ],
   "note": "Any crypto satisfying the laws, any worlds satisfying `strangers` (no session yet, prekeys stored, Bob's policy trusts Alice; ids below 2^32, prekey id not 0xFFFFFF), through serialized bytes and parsers. Both final session records are given and proved matching."
  },
  {
   "property": "C06",
   "status": "proved",
   "theorems": [
    "C06_any_schedule",
    "C06_at_most_once",
    "C06_in_order"
   ],
   "note": "Refinement of the whole two-party system (both stores, wire bytes, parsers) to a small reference (cspec in ConvSpec.v) for every finite schedule; corollaries: no message accepted twice, in-order delivery always decrypts. A message of a chain older than the last five is derived with unrelated keys by the code, so acceptance of it is only excluded up to an 8-byte MAC collision (Conf_collision)."
  },
  {
   "property": "C07",
   "status": "proved",
   "theorems": [
    "C07_at_most_once",
    "C07_record_at_most_once"
   ],
   "note": ""
  },
  {
   "property": "C08",
   "status": "proved",
   "theorems": [
    "C08_immediate_replay_refused",
    "C08_replay_in_a_row_refuted",
    "C08_stale_copy_refuted"
   ],
   "note": "The general expectation (a message accepted through an archived session is never accepted again) is false and is refuted twice with a serializing store; proved with the exact proviso under which an immediate replay is refused."
  },
  {
   "property": "C09",
   "status": "proved",
   "theorems": [
    "C09_record_bounded"
   ],
   "note": ""
  },
  {
   "property": "C10",
   "status": "proved",
   "theorems": [
    "C10_work_bound_new_chain",
    "C10_too_far_rejected",
    "C10_within_limit_processed",
    "C10_work_bound"
   ],
   "note": ""
  },
  {
   "property": "C11",
   "status": "proved",
   "theorems": [
    "C11_decrypt_error_changes_nothing",
    "C11_decrypt_message_error_only_saves_trusted_identity",
    "C11_decrypt_failure_no_writes"
   ],
   "note": ""
  },
  {
   "property": "C12",
   "status": "proved",
   "theorems": [
    "C12_forged_message_uses_up_position",
    "C12_live_store_unchanged_refuted",
    "C12_made_up_key_refuted",
    "C12_early_refusal_unchanged"
   ],
   "note": "The expectation is false of the code: refuted with two witnesses; the positive theorems delimit when the live record is unchanged."
  },
  {
   "property": "C13",
   "status": "proved",
   "theorems": [
    "C13_former_current_after_late_message",
    "C13_undisturbed_when_refused_early",
    "C13_foreign_key_replaces_sending_ratchet",
    "C13_late_message_breaks_current_session_refuted"
   ],
   "note": "The expectation is false of the code: refuted by a complete conversation; the positive theorems say exactly what is archived."
  },
  {
   "property": "C14",
   "status": "proved",
   "theorems": [
    "C14_mac_input_determines_every_field",
    "C14_verify_mac_exact",
    "C14_forgery_needs_collision",
    "C14_version2_identities_not_covered",
    "C14_accepted_message_has_valid_mac"
   ],
   "note": ""
  },
  {
   "property": "C15",
   "status": "proved",
   "theorems": [
    "C15_parse_depends_on_decoded_fields",
    "C15_low_nibble_ignored",
    "C15_unknown_field_ignored",
    "C15_field_order_ignored",
    "C15_overlong_counter_accepted"
   ],
   "note": ""
  },
  {
   "property": "C16",
   "status": "proved",
   "theorems": [
    "C16_signal_message_roundtrip",
    "C16_new_message_roundtrip",
    "C16_version2_read_as_version3",
    "C16_version2_roundtrip_refuted"
   ],
   "note": "Version 3 proved; version 2 refuted (read back as version 3)."
  },
  {
   "property": "C17",
   "status": "proved",
   "theorems": [
    "C17_prekey_message_roundtrip",
    "C17_absent_id_becomes_zero",
    "C17_nil_id_panics",
    "C17_absent_id_roundtrip_refuted"
   ],
   "note": "With an id proved; without one refuted."
  },
  {
   "property": "C18",
   "status": "proved",
   "theorems": [
    "C18_sender_key_message_roundtrip",
    "C18_new_sender_key_message_roundtrip",
    "C18_distribution_message_roundtrip",
    "C18_version2_refuted"
   ],
   "note": ""
  },
  {
   "property": "C19",
   "status": "proved",
   "theorems": [
    "C19_signal_message_panics_iff",
    "C19_signal_message_ok",
    "C19_signal_message_short_input",
    "C19_prekey_message_panics_iff",
    "C19_prekey_message_ok",
    "C19_group_message_never_panics",
    "C19_group_message_ok",
    "C19_distribution_message_panics_iff",
    "C19_distribution_message_ok",
    "C19_signal_message_errors",
    "C19_prekey_message_errors",
    "C19_group_message_errors",
    "C19_distribution_message_errors"
   ],
   "note": ""
  },
  {
   "property": "C20",
   "status": "proved",
   "theorems": [
    "C20_public_key_roundtrip",
    "C20_decode_classification",
    "C20_decode_padding",
    "C20_encoding_injective"
   ],
   "note": ""
  },
  {
   "property": "C21",
   "status": "proved",
   "theorems": [
    "C21_encrypt_fate",
    "C21_roundtrip_given_iv",
    "C21_roundtrip_generated_iv"
   ],
   "note": ""
  },
  {
   "property": "C22",
   "status": "proved",
   "theorems": [
    "C22_decrypt_fate",
    "C22_decrypt_outcome",
    "C22_panics_iff",
    "C22_padding_contents_unchecked_refuted"
   ],
   "note": ""
  },
  {
   "property": "C23",
   "status": "proved",
   "theorems": [
    "C23_unpad_fate",
    "C23_pad_fate",
    "C23_decrypt_fate",
    "C23_encrypt_fate",
    "C23_pkcs7_roundtrip",
    "C23_unpad_sound",
    "C23_pad_domain",
    "C23_cipher_roundtrip",
    "C23_cipher_rejects_empty",
    "C23_large_block_size_refuted"
   ],
   "note": ""
  },
  {
   "property": "C24",
   "status": "proved",
   "theorems": [
    "C24_bundle_refusals",
    "C24_bundle_gate",
    "C24_bundle_success",
    "C24_bundle_accepted"
   ],
   "note": ""
  },
  {
   "property": "C25",
   "status": "proved",
   "theorems": [
    "C25_untrusted_prekey_message_refused",
    "C25_untrusted_world"
   ],
   "note": ""
  },
  {
   "property": "C26",
   "status": "proved",
   "theorems": [
    "C26_trust_not_consulted",
    "C26_identity_saved_unconditionally",
    "C26_untrusted_send_refuted"
   ],
   "note": "Trust independence proved; the user expectation is refuted."
  },
  {
   "property": "C27",
   "status": "proved",
   "theorems": [
    "C27_prekey_removed_after_session",
    "C27_redelivery_after_crash"
   ],
   "note": ""
  },
  {
   "property": "C28",
   "status": "proved",
   "theorems": [
    "C28_never_read",
    "C28_empty_id_refused",
    "C28_no_prekey_id_panics_after_store",
    "C28_no_prekey_id_cases",
    "C28_bundle_without_prekey_refuted"
   ],
   "note": "Refuted: panic after the store."
  },
  {
   "property": "C29",
   "status": "proved",
   "theorems": [
    "C29_record_roundtrip",
    "C29_uninitialised_record_panics",
    "C29_idempotent",
    "C29_state_roundtrip",
    "C29_chain_roundtrip"
   ],
   "note": ""
  },
  {
   "property": "C30",
   "status": "proved",
   "theorems": [
    "C30_prekey_reload",
    "C30_signed_prekey_reload",
    "C30_public_key_preserved_refuted"
   ],
   "note": "Exact effect of a reload proved; preservation of the public key refuted."
  },
  {
   "property": "C31",
   "status": "proved",
   "theorems": [
    "C31_sender_key_roundtrip",
    "C31_own_record_unchanged",
    "C31_reload_stable"
   ],
   "note": ""
  },
  {
   "property": "C32",
   "status": "proved",
   "theorems": [
    "C32_any_schedule",
    "C32_exactly_once"
   ],
   "note": "Full wire path, any schedule, any start iteration; sender key id new at the receiver and fewer than 2000 states there; fewer than 2^32 iterations."
  },
  {
   "property": "C33",
   "status": "proved",
   "theorems": [
    "C33_at_most_once"
   ],
   "note": "Any history without eviction of the state (2000 states)."
  },
  {
   "property": "C34",
   "status": "proved",
   "theorems": [
    "C34_success_is_authentic",
    "C34_unverified_no_effect",
    "C34_failure_stores_nothing"
   ],
   "note": ""
  },
  {
   "property": "C35",
   "status": "proved",
   "theorems": [
    "C35_bounds",
    "C35_too_far",
    "C35_retention",
    "C35_jump_exact"
   ],
   "note": ""
  },
  {
   "property": "C36",
   "status": "proved",
   "theorems": [
    "C36_message_unchanged_refuted",
    "C36_what_changes"
   ],
   "note": "The property is refuted with a witness; C36_what_changes gives what holds."
  },
  {
   "property": "C37",
   "status": "proved",
   "theorems": [
    "C37_idempotent",
    "C37_first_time"
   ],
   "note": ""
  },
  {
   "property": "C38",
   "status": "proved",
   "theorems": [
    "C38_well_formed",
    "C38_symmetric",
    "C38_first_30_bytes",
    "C38_short_fingerprints_panic",
    "C38_chunks",
    "C38_text_determines_halves",
    "C38_whole_text",
    "C38_digits_determined"
   ],
   "note": ""
  },
  {
   "property": "C39",
   "status": "proved",
   "theorems": [
    "C39_address_string_injective",
    "C39_address_string",
    "C39_address_parse"
   ],
   "note": ""
  },
  {
   "property": "C40",
   "status": "proved",
   "theorems": [
    "C40_generated_prekeys",
    "C40_failure",
    "C40_ids_distinct"
   ],
   "note": ""
  },
  {
   "property": "C41",
   "status": "proved",
   "theorems": [
    "C41_roundtrip",
    "C41_only_authenticated",
    "C41_malformed_panics"
   ],
   "note": ""
  },
  {
   "property": "C42",
   "status": "proved",
   "theorems": [
    "C42_no_position_reused",
    "C42_concurrent_encrypts_refuted",
    "C42_position_from_loaded_record"
   ],
   "note": "Sequential use proved; concurrent use refuted."
  },
  {
   "property": "C43",
   "status": "proved",
   "theorems": [
    "C43_new_session",
    "C43_new_session_received",
    "C43_previous_counter",
    "C43_announced",
    "C43_unused_chain_refuted"
   ],
   "note": "Exact value proved; the unused-chain case refuted."
  },
  {
   "property": "C44",
   "status": "proved",
   "theorems": [
    "C44_bundle_archives_current",
    "C44_prekey_message_archives_current",
    "C44_stored_record_not_fresh",
    "C44_fresh_record_overwritten_refuted"
   ],
   "note": "Loaded records proved; fresh live records refuted."
  },
  {
   "property": "C45",
   "status": "proved",
   "theorems": [
    "C45_histories",
    "C45_other_addresses_untouched",
    "C45_other_sessions_irrelevant"
   ],
   "note": ""
  },
  {
   "property": "C46",
   "status": "proved",
   "theorems": [
    "C46_message_kind",
    "C46_first_reply_ends_it",
    "C46_never_again"
   ],
   "note": ""
  },
  {
   "property": "C47",
   "status": "proved",
   "theorems": [
    "C47_message_key_sizes",
    "C47_chain_key_size",
    "C47_every_key_has_its_size",
    "C47_encrypt_succeeds"
   ],
   "note": ""
  },
  {
   "property": "C48",
   "status": "proved",
   "theorems": [
    "C48_returned_keys_decrypt_later",
    "C48_returned_keys_decrypt_prekey_later"
   ],
   "note": ""
  },
  {
   "property": "C49",
   "status": "proved",
   "theorems": [
    "C49_group_crash_points",
    "C49_crash_points",
    "C49_retry_before_store",
    "C49_message_returned_after_store"
   ],
   "note": ""
  },
  {
   "property": "C50",
   "status": "proved",
   "theorems": [
    "C50_next_index",
    "C50_wrap_on_receive",
    "C50_old_counters_processed_again"
   ],
   "note": ""
  },
  {
   "property": "C51",
   "status": "proved",
   "theorems": [
    "C51_forward_secrecy",
    "C51_sessions_start_so",
    "C51_record_refuted"
   ],
   "note": "Symbolic model in FsSpec.v; the concrete state is tied to the terms by reads/derived_by. Session level proved for every life of a state; record level refuted (stale archived copies)."
  },
  {
   "property": "C52",
   "status": "proved",
   "theorems": [
    "C52_add_exact",
    "C52_sub_exact",
    "C52_neg_exact",
    "C52_mul",
    "C52_square",
    "C52_square2",
    "C52_cmove",
    "C52_from_bytes",
    "C52_to_bytes",
    "C52_canonical",
    "C52_decode_encode",
    "C52_is_negative",
    "C52_is_non_zero",
    "C52_prime",
    "C52_invert",
    "C52_invert_zero",
    "C52_pow22523",
    "C52_key_conversion"
   ],
   "note": "Field operations and the key conversion of verify. Point operations, scalar reduction and ed25519.Verify itself are not covered by this property."
  },
  {
   "property": "C53",
   "status": "proved",
   "theorems": [
    "C53_generated_bundle_accepted"
   ],
   "note": ""
  },
  {
   "property": "C54",
   "status": "proved",
   "theorems": [
    "C54_healing"
   ],
   "note": "Symbolic; the exception (receiving chain made with the leaked pair) is part of the statement."
  },
  {
   "property": "C55",
   "status": "proved",
   "theorems": [
    "C55_reduce",
    "C55_mul_add",
    "C55_canonical",
    "C55_top_bits",
    "C55_same_residue"
   ],
   "note": "All 64-bit operations of the model wrap; the transcription of the carry schedule was compared mechanically with the Go source."
  },
  {
   "property": "C56",
   "status": "proved",
   "theorems": [
    "C56_scalar_mult_base",
    "C56_double",
    "C56_mixed_add",
    "C56_to_bytes",
    "C56_table",
    "C56_order",
    "C56_same_public",
    "C56_clamped_not_neutral",
    "C56_high_scalar_refuted"
   ],
   "note": "Full group law on the twisted Edwards curve proved from scratch (associativity by field reasoning, completeness because d is not a square), table checked entry by entry in the kernel, order proved by Pocklington certificate plus evaluation. The bound 2^255 on scalars is necessary (C56_high_scalar_refuted) and all callers meet it."
  },
  {
   "property": "C57",
   "status": "proved",
   "theorems": [
    "C57_sign_verify",
    "C57_verify_exact",
    "C57_signature_bytes",
    "C57_key_agreement",
    "C57_laws"
   ],
   "note": "External functions (curve25519 scalar multiplication, ed25519.Verify, SHA-512) enter through XedSpec.external_spec, which is shown to be satisfiable (C57_example_external). C57_laws discharges the signature and Diffie-Hellman hypotheses of the other theorems."
  },
  {
   "property": "C58",
   "status": "proved",
   "theorems": [
    "C58_derive_secrets",
    "C58_chain",
    "C58_root_step",
    "C58_x3dh_initiator",
    "C58_x3dh_responder",
    "C58_group_chain",
    "C58_clamped_key",
    "C58_encrypt_wire",
    "C58_wire_determined"
   ],
   "note": "Model of the derivations and of Encrypt against WireFormatSpec.v, a description written from RFC 5869, RFC 7748, the Double Ratchet/X3DH documents and the protobuf encoding. HMAC, AES and X25519 are parameters."
  },
  {
   "property": "C59",
   "status": "proved",
   "theorems": [
    "C59_from_bytes",
    "C59_unique",
    "C59_roundtrip",
    "C59_canonical_only_refuted"
   ],
   "note": "Includes the negative result C59_canonical_only_refuted."
  },
  {
   "property": "C60",
   "status": "proved",
   "theorems": [
    "C60_session_roundtrip",
    "C60_session_uninitialised_panics",
    "C60_session_is_persist",
    "C60_session_injective",
    "C60_session_reload",
    "C60_state_roundtrip",
    "C60_session_is_json",
    "C60_state_text",
    "C60_session_text",
    "C60_truncated_session_rejected",
    "C60_trailing_bytes_rejected",
    "C60_not_json_rejected",
    "C60_load_never_panics_refuted",
    "C60_parser_exact",
    "C60_parse_unique",
    "C60_base64",
    "C60_base64_exact",
    "C60_string_exact",
    "C60_string_is_utf8",
    "C60_member_exact",
    "C60_unmarshal_marshal",
    "C60_unmarshal_total",
    "C60_values_exact",
    "C60_values_otherwise",
    "C60_sender_key_roundtrip",
    "C60_sender_key_same_as_structure",
    "C60_sender_key_text",
    "C60_truncated_sender_key_rejected",
    "C60_prekey_text",
    "C60_prekey_roundtrip",
    "C60_signed_prekey_text",
    "C60_signed_prekey_roundtrip",
    "C60_loaded_private_keys"
   ],
   "note": "encoding/json and encoding/base64 are modelled (Json.v) at the level of bytes, against the RFC 8259 grammar and RFC 4648. Includes the negative result C60_load_never_panics_refuted."
  },
  {
   "property": "C61",
   "status": "proved",
   "theorems": [
    "C61_signal_message_text",
    "C61_prekey_message_text",
    "C61_sender_key_message_text",
    "C61_distribution_message_text",
    "C61_signal_message_roundtrip",
    "C61_new_message_verifies",
    "C61_mac_covers_every_field",
    "C61_verify_mac_exact",
    "C61_prekey_message_roundtrip",
    "C61_sender_key_message_roundtrip",
    "C61_signed_bytes_determine_message",
    "C61_distribution_message_roundtrip",
    "C61_truncated_message_rejected",
    "C61_text_malleable",
    "C61_message_never_panics_refuted",
    "C61_every_signal_text",
    "C61_every_prekey_text",
    "C61_every_group_text",
    "C61_every_distribution_text"
   ],
   "note": "Includes C61_text_malleable and C61_message_never_panics_refuted."
  },
  {
   "property": "C62",
   "status": "proved",
   "theorems": [
    "C62_first_contact_again",
    "C62_any_schedule",
    "C62_refused_packets_disturb_nothing"
   ],
   "note": "Nothing is claimed from the point on where an injected packet is accepted, or where a message the reference refuses (duplicate) is accepted by an older session or by a MAC collision; see agrees in ReopenSpec.v. The new base key must be new (unused_base)."
  },
  {
   "property": "C63",
   "status": "proved",
   "theorems": [
    "C63_crossed_first_messages_read",
    "C63_crossed_conversation_refuted"
   ],
   "note": "The first crossed round is proved for all parties; the continuation is refuted (C63_crossed_conversation_refuted)."
  },
  {
   "property": "C64",
   "status": "proved",
   "theorems": [
    "C64_receive_panics_only_if",
    "C64_receive_panics_iff",
    "C64_after_panic",
    "C64_encrypt_panics_iff",
    "C64_serialize_panics_iff",
    "C64_process_bundle_never_panics",
    "C64_outsider_crashes_receiver",
    "C64_histories"
   ],
   "note": "Receiving is parse + Decrypt/DecryptMessage against a serializing store whose prekeys have private halves."
  },
  {
   "property": "C65",
   "status": "proved",
   "theorems": [
    "C65_threads_do_not_interfere",
    "C65_one_time_prekey_race_refuted",
    "C65_same_address_encrypts_refuted",
    "C65_replay_after_race_refuted"
   ],
   "note": "Each store access is one atomic step, the reads of a call come before its writes in any order. Data races inside the user's store implementation, or on a shared Cipher object, are outside the model. The three refuted theorems give concrete schedules (toy primitives)."
  },
  {
   "property": "C66",
   "status": "proved",
   "theorems": [
    "C66_group_conversation",
    "C66_refused_injections_disturb_nothing",
    "C66_no_reading_before_joining"
   ],
   "note": "The reference covers the run up to the first injected message that is accepted (it then carries a valid signature of the sender, C34)."
  },
  {
   "property": "C67",
   "status": "proved",
   "theorems": [
    "C67_known_id_changes_nothing",
    "C67_latest_2000_kept",
    "C67_everything_forgotten",
    "C67_reread_after_2000_distributions",
    "C67_lost_after_2000_others",
    "C67_encrypting_with_a_received_key",
    "C67_encrypt_panics_exactly",
    "C67_decrypt_panics_exactly",
    "C67_create_never_panics"
   ],
   "note": "Serializing store. The re-reading and losing theorems describe what the code does at the limit of 2000 states; they bound C33 and C66."
  },
  {
   "property": "C68",
   "status": "proved",
   "theorems": [
    "C68_stolen_record",
    "C68_forward_secrecy",
    "C68_sent_forward_secrecy"
   ],
   "note": "Symbolic: HMAC and HKDF are read as one-way functions of terms (GroupFsSpec.v); the theorems also show that the stored bytes are the values of those terms. Histories in which a sender key is dropped because of the limit of 2000 are C67."
  },
  {
   "property": "C69",
   "status": "proved",
   "theorems": [
    "C69_conversation_keys",
    "C69_exact",
    "C69_first_messages",
    "C69_theft",
    "C69_theft_of_both",
    "C69_past_is_safe",
    "C69_healing",
    "C69_second_theft"
   ],
   "note": "C69_conversation_keys ties the stored bytes and the wire bytes of the modelled code to the key schedule for every history (up to 8-byte MAC collisions on forgotten chains); the other theorems are symbolic: derivations are one-way and a Diffie-Hellman value needs one of the two private keys. Bundle with a one-time prekey."
  },
  {
   "property": "C70",
   "status": "proved",
   "theorems": [
    "C70_encrypt_bytes",
    "C70_distribution_bytes",
    "C70_one_encoding",
    "C70_one_encoding_session",
    "C70_encrypt_is_the_only_message",
    "C70_other_implementations_read"
   ],
   "note": ""
  },
  {
   "property": "C71",
   "status": "proved",
   "theorems": [
    "C71_x25519_is_multiplication",
    "C71_aes_inverse",
    "C71_standard_laws",
    "C71_any_schedule",
    "C71_group_conversation"
   ],
   "note": ""
  },
  {
   "property": "C72",
   "status": "proved",
   "theorems": [
    "C72_same_public_key",
    "C72_generated_keys_secret_nonzero",
    "C72_low_order_secret",
    "C72_low_order_agreement",
    "C72_bundle_with_known_keys_refuted"
   ],
   "note": ""
  },
  {
   "property": "C73",
   "status": "proved",
   "theorems": [
    "C73_sessions_bound",
    "C73_pending_prekeys",
    "C73_accepted_authenticated",
    "C73_encrypted_bound"
   ],
   "note": ""
  },
  {
   "property": "C74",
   "status": "proved",
   "theorems": [
    "C74_failed_first_message_saves_key",
    "C74_pinned",
    "C74_forgery_harmless_refuted"
   ],
   "note": ""
  },
  {
   "property": "C75",
   "status": "proved",
   "theorems": [
    "C75_session_file",
    "C75_session_file_total",
    "C75_sender_key_file",
    "C75_sender_key_file_total",
    "C75_prekey_file",
    "C75_signed_prekey_file",
    "C75_prekey_files_never_crash"
   ],
   "note": ""
  },
  {
   "property": "C76",
   "status": "proved",
   "theorems": [
    "C76_same_address",
    "C76_without_builder",
    "C76_without_builder_otherwise",
    "C76_builder_for_another_address",
    "C76_only_trust_depends_on_the_builder",
    "C76_trust_of_own_address_refuted"
   ],
   "note": ""
  },
  {
   "property": "C77",
   "status": "proved",
   "theorems": [
    "C77_threads_do_not_interfere",
    "C77_racing_encrypts",
    "C77_racing_creates_refuted",
    "C77_process_lost_refuted"
   ],
   "note": ""
  },
  {
   "property": "C78",
   "status": "proved",
   "theorems": [
    "C78_signal_message",
    "C78_prekey_message",
    "C78_group_message",
    "C78_distribution_message",
    "C78_one_fate",
    "C78_unambiguous",
    "C78_numbers_cut"
   ],
   "note": ""
  },
  {
   "property": "C79",
   "status": "proved",
   "theorems": [
    "C79_every_program",
    "C79_every_call",
    "C79_one_outcome",
    "C79_failed_call_keeps_the_record"
   ],
   "note": ""
  },
  {
   "property": "C80",
   "status": "proved",
   "theorems": [
    "C80_encrypt",
    "C80_decrypt",
    "C80_decrypt_message",
    "C80_process_bundle",
    "C80_every_packet",
    "C80_every_program",
    "C80_failed_call",
    "C80_saved_identity_refuted"
   ],
   "note": "Signature checking is the abstract verify_signature (XEdDSA is C57, C71)."
  },
  {
   "property": "C81",
   "status": "proved",
   "theorems": [
    "C81_any_schedule_with_crashes",
    "C81_after_a_cut_bundle",
    "C81_at_most_once",
    "C81_early_crash_harmless",
    "C81_in_order"
   ],
   "note": "A message of a chain no longer among the last five may be accepted by an 8-byte MAC collision; nothing is claimed from there on. Hypotheses as in C06."
  },
  {
   "property": "C82",
   "status": "proved",
   "theorems": [
    "C82_group_conversation_with_crashes",
    "C82_at_most_once",
    "C82_early_crash_harmless"
   ],
   "note": "Up to the first injected message that carries a valid signature and is accepted, as in C66."
  },
  {
   "property": "C83",
   "status": "proved",
   "theorems": [
    "C83_injections_harmless",
    "C83_same_results",
    "C83_taken_is_authentic"
   ],
   "note": "The identity store trusts every key in this setting, as in C06 and C81; with trust on first use an injected first message can shut the genuine one out (C74). Which MAC keys count is C80. With an injected packet that is taken nothing is claimed from there on."
  },
  {
   "property": "C84",
   "status": "proved",
   "theorems": [
    "C84_many_conversations",
    "C84_each_conversation",
    "C84_no_interference",
    "C84_at_most_once",
    "C84_in_order"
   ],
   "note": "The identity stores trust the keys involved, as in C06. After a collision of MACs on a message of a forgotten chain nothing is claimed (as in C06); C84_no_interference and the others assume no such message is delivered."
  },
  {
   "property": "C85",
   "status": "proved",
   "theorems": [
    "C85_test_store",
    "C85_first_contact",
    "C85_conversation",
    "C85_at_most_once",
    "C85_injections_harmless",
    "C85_many_conversations",
    "C85_unverified_refuted"
   ],
   "note": "strangers C addr (credulous wa) (credulous wb) says: strangers as in C06, but for whom they trust. C85_injections_harmless assumes that no injected packet is taken (C83_taken_is_authentic says what a taken packet is). C85_unverified_refuted is the complement, from C74."
  },
  {
   "property": "C86",
   "status": "proved",
   "theorems": [
    "C86_groups_over_sessions",
    "C86_group_outcomes",
    "C86_at_most_once"
   ],
   "note": "Bounds: as in C66 and C84; fewer than 2000 invitations are processed in all (C67 says what happens beyond). After a collision of MACs on a message of a forgotten chain, or an accepted injected group message, nothing is claimed (C06, C34). C86_at_most_once assumes no injected group messages."
  },
  {
   "property": "C87",
   "status": "proved",
   "theorems": [
    "C87_encrypt_cbc",
    "C87_session_encrypt",
    "C87_group_encrypt",
    "C87_no_room",
    "C87_neighbour",
    "C87_disjoint_plaintexts_refuted",
    "C87_spaced",
    "C87_session_decrypt",
    "C87_group_decrypt",
    "C87_group_plaintext_shared",
    "C87_decrypt_cbc",
    "C87_cipher_encrypt",
    "C87_cipher_decrypt"
   ],
   "note": "The memory model covers byte slices only: keys, IVs and records are values (in the code they are derived or decoded freshly). A session's decryption is covered at the decryption of the body, the only place where its bytes are handled in place."
  },
  {
   "property": "C88",
   "status": "proved",
   "theorems": [
    "C88_identity",
    "C88_key_pair",
    "C88_prekeys",
    "C88_signed_prekey",
    "C88_registration_id",
    "C88_sender_key",
    "C88_unnoticed",
    "C88_new_prekey",
    "C88_new_prekey_panics",
    "C88_new_signed_prekey",
    "C88_new_signed_prekey_panics",
    "C88_last_resort",
    "C88_used_once",
    "C88_last_resort_refuted"
   ],
   "note": "Loops whose int counter would overflow (count = 2^63-1) are out of scope, as in C40."
  },
  {
   "property": "C89",
   "status": "proved",
   "theorems": [
    "C89_encrypt",
    "C89_envelope",
    "C89_decrypt",
    "C89_decrypt_message",
    "C89_programs",
    "C89_group_encrypt",
    "C89_group_envelope",
    "C89_group_decrypt",
    "C89_group_programs",
    "C89_packet_length",
    "C89_group_length",
    "C89_blocks"
   ],
   "note": "A store is what the library hands to it: memory and logs of the process are not modelled here."
  },
  {
   "property": "C90",
   "status": "proved",
   "theorems": [
    "C90_every_call",
    "C90_caller",
    "C90_caller_exists",
    "C90_debug_never_printed",
    "C90_own_logger",
    "C90_empty_part",
    "C90_silence_refuted",
    "C90_exact_name_refuted"
   ],
   "note": "The text of a message (fmt.Sprint), the time on a line and Setup of a nil pointer are not modelled. Not a theorem, but visible in the text: at Debug level the library hands an application's own logger cipher keys (session/cipher.go:352, 359) and whole session states (serialize/json.go:149)."
  },
  {
   "property": "C91",
   "status": "proved",
   "theorems": [
    "C91_identity",
    "C91_verify",
    "C91_sign",
    "C91_signature_not_zero",
    "C91_round_trip",
    "C91_zero_told_refuted"
   ],
   "note": "The scheduling of the goroutine, and the completion's own code, are not modelled."
  },
  {
   "property": "C92",
   "status": "proved",
   "theorems": [
    "C92_one_second_half",
    "C92_at_most_two",
    "C92_same_coordinate",
    "C92_one_key_refuted"
   ],
   "note": ""
  },
  {
   "property": "C93",
   "status": "proved",
   "theorems": [
    "C93_split_three",
    "C93_split_three_never_panics_refuted",
    "C93_split",
    "C93_trim",
    "C93_trim_prefix",
    "C93_trim_own_bytes_refuted",
    "C93_bytes5",
    "C93_copy",
    "C93_arrays",
    "C93_multi_error",
    "C93_as_in_the_model"
   ],
   "note": "amd64: make refuses more than 2^48 bytes; a machine with less memory is not modelled. The text of SplitThree's error, which contains the input, is not modelled."
  }
 ]
}