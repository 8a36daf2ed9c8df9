{
 "claims": [
  {
   "property": "C01",
   "status": "proved",
   "theorems": [
    "C01_hex_encode_decode",
    "C01_hex_decode_encode"
   ],
   "note": ""
  },
  {
   "property": "C02",
   "status": "proved",
   "theorems": [
    "C02_hex_decode_acceptance"
   ],
   "note": ""
  },
  {
   "property": "C03",
   "status": "proved",
   "theorems": [
    "C03_bech32_round_trip",
    "C03_bech32_encode_is_bip173",
    "C03_bech32_encode_refuses_upper",
    "C03_bech32_hex_round_trip",
    "C03_bech32_hex_refuses"
   ],
   "note": ""
  },
  {
   "property": "C04",
   "status": "proved",
   "theorems": [
    "C04_bech32_canonical",
    "C04_bech32_decode_sound",
    "C04_bech32_decode_complete",
    "C04_bech32_decode_hex_exact"
   ],
   "note": ""
  },
  {
   "property": "C05",
   "status": "proved",
   "theorems": [
    "C05_bech32_detects_errors"
   ],
   "note": ""
  },
  {
   "property": "C06",
   "status": "proved",
   "theorems": [
    "C06_bech32_unsafe_exactly",
    "C06_bech32_ascii_safe",
    "C06_bech32_memory_safety_refuted"
   ],
   "note": "Exact: C06_bech32_unsafe_exactly is an equivalence. The plain claim 'memory safe on any text' is false of the code (C06_bech32_memory_safety_refuted)."
  },
  {
   "property": "C07",
   "status": "proved",
   "theorems": [
    "C07_base58_round_trip",
    "C07_base58_decode_complete",
    "C07_base58_hex_round_trip"
   ],
   "note": ""
  },
  {
   "property": "C08",
   "status": "proved",
   "theorems": [
    "C08_base58_all_zero",
    "C08_base58_all_zero_refuted",
    "C08_base58_undefined_exactly",
    "C08_base58_hex_outcomes"
   ],
   "note": "Every string not covered by C07. The plain claim 'degenerate inputs survive' is false of the code for all of them (C08_base58_all_zero_refuted, C08_base58_undefined_exactly)."
  },
  {
   "property": "C09",
   "status": "proved",
   "theorems": [
    "C09_base58_decode_accepts",
    "C09_base58_decode_exact",
    "C09_base58_reject_foreign_refuted",
    "C09_base58_decode_hex_exact"
   ],
   "note": "Exact acceptance and exact value for every text. The plain claim 'foreign characters are refused' is false of the code (C09_base58_reject_foreign_refuted)."
  },
  {
   "property": "C10",
   "status": "proved",
   "theorems": [
    "C10_base58_encode_buffer",
    "C10_base58_encode_returns"
   ],
   "note": ""
  },
  {
   "property": "C11",
   "status": "proved",
   "theorems": [
    "C11_pack_unpack_be",
    "C11_pack_unpack_le",
    "C11_unpack_pack_be",
    "C11_unpack_pack_le",
    "C11_pack_be_positional",
    "C11_pack_le_reverse"
   ],
   "note": ""
  },
  {
   "property": "C12",
   "status": "proved",
   "theorems": [
    "C12_base_round_trip",
    "C12_enterprise_round_trip",
    "C12_rewards_round_trip",
    "C12_base_bytes",
    "C12_enterprise_bytes",
    "C12_rewards_bytes",
    "C12_base_from_keys",
    "C12_single_from_keys"
   ],
   "note": ""
  },
  {
   "property": "C13",
   "status": "proved",
   "theorems": [
    "C13_base_accepts",
    "C13_enterprise_accepts",
    "C13_rewards_accepts",
    "C13_kinds_exclusive"
   ],
   "note": ""
  },
  {
   "property": "C14",
   "status": "proved",
   "theorems": [
    "C14_prefix_refuted",
    "C14_network_refuted",
    "C14_unknown_network_refuted",
    "C14_prefix_ignored",
    "C14_rewriting_detects",
    "C14_base_reproduced",
    "C14_enterprise_reproduced",
    "C14_rewards_reproduced"
   ],
   "note": "The plain claim 'fromBech32 checks prefix and network' is false of the code (C14_prefix_refuted, C14_network_refuted, C14_unknown_network_refuted); what it does instead is characterised exactly."
  },
  {
   "property": "C15",
   "status": "proved",
   "theorems": [
    "C15_pointer_bytes",
    "C15_pointer_prefix_free"
   ],
   "note": ""
  },
  {
   "property": "C16",
   "status": "proved",
   "theorems": [
    "C16_generate_round_trip",
    "C16_generate_is_bip39",
    "C16_generate_rejects"
   ],
   "note": ""
  },
  {
   "property": "C17",
   "status": "proved",
   "theorems": [
    "C17_entropy_positional",
    "C17_split_unique",
    "C17_verify_checksum",
    "C17_valid_phrases_injective"
   ],
   "note": ""
  },
  {
   "property": "C18",
   "status": "proved",
   "theorems": [
    "C18_word_lists",
    "C18_languages",
    "C18_text_round_trip",
    "C18_text_accepts"
   ],
   "note": ""
  },
  {
   "property": "C19",
   "status": "proved",
   "theorems": [
    "C19_hypotheses_satisfiable",
    "C19_sign_verifies",
    "C19_keygen_succeeds"
   ],
   "note": ""
  },
  {
   "property": "C20",
   "status": "proved",
   "theorems": [
    "C20_public_key_constant"
   ],
   "note": ""
  },
  {
   "property": "C21",
   "status": "proved",
   "theorems": [
    "C21_lifetime"
   ],
   "note": ""
  },
  {
   "property": "C22",
   "status": "proved",
   "theorems": [
    "C22_forward_security",
    "C22_drop_erases"
   ],
   "note": ""
  },
  {
   "property": "C23",
   "status": "proved",
   "theorems": [
    "C23_sizes",
    "C23_signature_parsing",
    "C23_compact_parsing",
    "C23_key_parsing"
   ],
   "note": ""
  },
  {
   "property": "C24",
   "status": "proved",
   "theorems": [
    "C24_compact_verifies",
    "C24_depth0_out_of_bounds_refuted",
    "C24_compact_exact",
    "C24_restored_key_refuted"
   ],
   "note": "The exact statement is proved. The plain claim (all histories, all depths) is refuted: at depth 0 signCompact writes out of bounds; a key just restored from bytes signs compactly for period 0."
  },
  {
   "property": "C25",
   "status": "proved",
   "theorems": [
    "C25_beyond_lifetime_refuted",
    "C25_within_lifetime",
    "C25_period_bound",
    "C25_compact_period_bound"
   ],
   "note": "The exact statement is proved, reduced to Ed25519 unforgeability and Blake2b collisions. The plain claim is refuted past the lifetime (the last signature verifies at every later period)."
  },
  {
   "property": "C26",
   "status": "proved",
   "theorems": [
    "C26_dealers",
    "C26_split_total",
    "C26_reconstruct",
    "C26_too_few",
    "C26_conflict",
    "C26_max_refuted"
   ],
   "note": "The exact statement is proved; C26_max_refuted is the case n = 2^32-1, where the loop bound wraps."
  },
  {
   "property": "C27",
   "status": "proved",
   "theorems": [
    "C27_split_total",
    "C27_direct",
    "C27_single_refuted"
   ],
   "note": "The exact statement is proved; C27_single_refuted is the case n = 1 ([1+s]B instead of [s]B)."
  },
  {
   "property": "C28",
   "status": "proved",
   "theorems": [
    "C28_direct",
    "C28_shamir",
    "C28_coefficients_refused",
    "C28_commitments_must_agree",
    "C28_stateful",
    "C28_commitment",
    "C28_default_coefficient"
   ],
   "note": "Under the Ed25519 group laws and verification equation stated in Spec_Ed25519; the sums of nonces and of keys must not be the identity (verification rejects it)."
  },
  {
   "property": "C29",
   "status": "proved",
   "theorems": [
    "C29_shares_are_values",
    "C29_secrecy",
    "C29_rules_out_own_value"
   ],
   "note": "Information-theoretic part proved. C29_rules_out_own_value records that redrawing zero coefficients excludes one candidate when t = 2."
  },
  {
   "property": "C30",
   "status": "proved",
   "theorems": [
    "C30_reuse_refuted",
    "C30_uncommitted_refuted",
    "C30_commit",
    "C30_history",
    "C30_history_alone",
    "C30_reuse_reveals_refuted"
   ],
   "note": "The exact statement is proved (C30_history). The plain claim that nonces are used once is refuted: reuse and the zero nonce reveal the key."
  },
  {
   "property": "C31",
   "status": "proved",
   "theorems": [
    "C31_soft_step",
    "C31_zero_tweak",
    "C31_public_child_is_public_key",
    "C31_soft_path",
    "C31_v2_formula",
    "C31_derivation_step",
    "C31_public_derivation_step"
   ],
   "note": ""
  },
  {
   "property": "C32",
   "status": "proved",
   "theorems": [
    "C32_hardened_public_throws",
    "C32_soft_public_derives",
    "C32_harden",
    "C32_index_encoding_injective"
   ],
   "note": ""
  },
  {
   "property": "C33",
   "status": "proved",
   "theorems": [
    "C33_encrypt_round_trip",
    "C33_format"
   ],
   "note": ""
  },
  {
   "property": "C34",
   "status": "proved",
   "theorems": [
    "C34_seed_root",
    "C34_generated_root",
    "C34_mnemonic_root",
    "C34_byron_root",
    "C34_icarus_formula",
    "C34_seed_formula",
    "C34_byron_formula",
    "C34_root_has_public_key",
    "C34_v2_never_fails"
   ],
   "note": ""
  },
  {
   "property": "C35",
   "status": "proved",
   "theorems": [
    "C35_signature_verifies",
    "C35_sign_total"
   ],
   "note": ""
  },
  {
   "property": "C36",
   "status": "proved",
   "theorems": [
    "C36_conserves",
    "C36_frame",
    "C36_fee_exact",
    "C36_fee_covers",
    "C36_terminates",
    "C36_history_conserves"
   ],
   "note": "All states, amounts below 2^63; C36_history_conserves states it for whole call histories."
  },
  {
   "property": "C37",
   "status": "proved",
   "theorems": [
    "C37_fee_exact",
    "C37_terminates",
    "C37_fee_witness_independent",
    "C37_fee_of_signed",
    "C37_update_fee",
    "C37_update_fee_terminates",
    "C37_negative_fee_parameter_refuted",
    "C37_babbage_fee_exact",
    "C37_babbage_terminates",
    "C37_babbage_witness_independent",
    "C37_babbage_fee_of_signed"
   ],
   "note": "Fuel models the while loop: None is a loop that goes on. Termination in both eras under the stated condition; C37_negative_fee_parameter_refuted shows the condition is needed."
  },
  {
   "property": "C38",
   "status": "proved",
   "theorems": [
    "C38_witnesses_current",
    "C38_edits_discard",
    "C38_certificates_keep",
    "C38_witness_origin",
    "C38_certificate_keeps_signatures_refuted",
    "C38_babbage_witnesses_current"
   ],
   "note": "Exact statement proved for all histories. The plain claim is refuted for the certificate adders of the Shelley builder."
  },
  {
   "property": "C39",
   "status": "proved",
   "theorems": [
    "C39_totals_exact",
    "C39_running_totals",
    "C39_totals_of_body",
    "C39_duplicate_input_refuted",
    "C39_withdrawal_replaced_refuted",
    "C39_loaded_totals_refuted",
    "C39_loaded_cannot_balance"
   ],
   "note": "Exact statement proved for all histories that describe their inputs truthfully. The plain claim is refuted for duplicates and for builders made by fromCBOR."
  },
  {
   "property": "C40",
   "status": "proved",
   "theorems": [
    "C40_id_binds_body",
    "C40_ipv6_unbound_refuted",
    "C40_babbage_id_binds_body",
    "C40_id_of_body",
    "C40_id_binds_simple",
    "C40_sign",
    "C40_sign_many"
   ],
   "note": "The exact statement is proved. The plain claim is refuted: IPv6 addresses of relays are not bound by the id (C40_ipv6_unbound_refuted). The hash function is arbitrary; equality of ids gives equality of bodies or an explicit collision."
  },
  {
   "property": "C41",
   "status": "proved",
   "theorems": [
    "C41_cbor_reads_back",
    "C41_cbor_bytes",
    "C41_cbor_prefix_free",
    "C41_cbor_shortest"
   ],
   "note": ""
  },
  {
   "property": "C42",
   "status": "proved",
   "theorems": [
    "C42_exact",
    "C42_relay_round_trip",
    "C42_ipv6_only_refuted",
    "C42_ipv6_dropped_refuted",
    "C42_no_address_refuted"
   ],
   "note": "The exact statement is proved. The plain claim is refuted: IPv6-only relays throw, IPv4+IPv6 drops the IPv6 address, address relays without address are written in a form the reader rejects."
  },
  {
   "property": "C43",
   "status": "proved",
   "theorems": [
    "C43_exact",
    "C43_cert_round_trip",
    "C43_pool_relays_lost_refuted",
    "C43_pool_without_owners_refuted",
    "C43_genesis_refuted",
    "C43_mir_accumulates_refuted"
   ],
   "note": "The exact statement is proved. The plain claim is refuted: relays and metadata of pool registrations are lost, and genesis delegations and registrations with relays but without owners make the reader dereference null."
  },
  {
   "property": "C44",
   "status": "proved",
   "theorems": [
    "C44_exact",
    "C44_script_round_trip",
    "C44_nofk_rejected_refuted",
    "C44_nofk_never_read_refuted"
   ],
   "note": "The exact statement is proved. The plain claim is refuted: n-of-k scripts are written but never read."
  },
  {
   "property": "C45",
   "status": "proved",
   "theorems": [
    "C45_input_order",
    "C45_body_order_independent",
    "C45_inputs_exact",
    "C45_withdrawals_exact"
   ],
   "note": "Over the model of std::set and std::map as sorted lists."
  },
  {
   "property": "C46",
   "status": "proved",
   "theorems": [
    "C46_generated_verifies",
    "C46_message_layout",
    "C46_message_binds",
    "C46_tampering_is_forgery",
    "C46_serialize",
    "C46_serialize_injective",
    "C46_counter",
    "C46_counter_serialize",
    "C46_signings"
   ],
   "note": "Signature scheme abstract; verifying under other fields is reduced to an existential forgery."
  },
  {
   "property": "C47",
   "status": "proved",
   "theorems": [
    "C47_63_digits_refuted",
    "C47_out_of_range_refuted",
    "C47_small_limit",
    "C47_rational_bounded",
    "C47_rational_accurate",
    "C47_nan_never_returns_refuted",
    "C47_tiny_undefined_refuted",
    "C47_negative_denominator_refuted",
    "C47_infinity_undefined_refuted"
   ],
   "note": "The exact statement is proved. The plain claim is refuted: NaN, infinities and doubles with 63 or more fraction digits."
  },
  {
   "property": "C48",
   "status": "proved",
   "theorems": [
    "C48_crc_is_the_standard_one",
    "C48_layout",
    "C48_reads_every_address",
    "C48_cbor_round_trip",
    "C48_base58_round_trip",
    "C48_redeem_refuted",
    "C48_accepted",
    "C48_payload_burst_rejected",
    "C48_burst_rejected",
    "C48_wrong_crc_rejected",
    "C48_longer_burst_refuted",
    "C48_long_root_refuted",
    "C48_shape_refuted",
    "C48_short_root_refuted",
    "C48_path_plaintext",
    "C48_long_path_refuted",
    "C48_from_root_key",
    "C48_path_length_checked",
    "C48_safe_exactly",
    "C48_base58_safe_exactly",
    "C48_accepted_exact"
   ],
   "note": "The exact statement is proved. The plain claim is refuted: redeem addresses change type, malformed shapes dereference null, long paths are written wrongly."
  },
  {
   "property": "C49",
   "status": "proved",
   "theorems": [
    "C49_byron_reads",
    "C49_alonzo_reads",
    "C49_conway_reads",
    "C49_shelley_reads",
    "C49_shelley_slot_length_refuted",
    "C49_writes",
    "C49_text_writes",
    "C49_byron_round_trip",
    "C49_alonzo_round_trip",
    "C49_conway_round_trip",
    "C49_shelley_round_trip",
    "C49_not_finite_refuted",
    "C49_initial_funds_refuted",
    "C49_missing_field_rejected",
    "C49_missing_slot_length_refuted",
    "C49_numbers_refuted",
    "C49_read_as_one",
    "C49_numbers_exactly",
    "C49_cost_model"
   ],
   "note": "The exact statement is proved. The plain claim is refuted: the Shelley slot length is read from the wrong member."
  },
  {
   "property": "C50",
   "status": "proved",
   "theorems": [
    "C50_from_seed",
    "C50_valid_iff",
    "C50_valid_keys",
    "C50_signatures"
   ],
   "note": ""
  },
  {
   "property": "C51",
   "status": "proved",
   "theorems": [
    "C51_margin_exact",
    "C51_history_exact",
    "C51_constructor_exact",
    "C51_registration_invariant",
    "C51_constructor",
    "C51_fields",
    "C51_low_cost_refuted",
    "C51_nan_margin_refuted",
    "C51_small_margin_crashes_refuted",
    "C51_small_margin_wrong_refuted",
    "C51_ipv6_unserialisable_refuted"
   ],
   "note": "The exact statement is proved. The plain claim is refuted: setCost is unchecked, a NaN margin hangs, 0.0003 crashes, 0.0007 is recorded as (2^64-1)/1429."
  },
  {
   "property": "C52",
   "status": "proved",
   "theorems": [
    "C52_certificate_exact",
    "C52_script_exact",
    "C52_witness_set_exact",
    "C52_body_exact",
    "C52_transaction_exact",
    "C52_bytes_exact",
    "C52_simple_readers_safe",
    "C52_cert_safe",
    "C52_unsafe_refuted",
    "C52_untagged_margin_refuted"
   ],
   "note": "The exact statement is proved. The plain claim is refuted: explicit byte strings make the readers of certificates, scripts, witness sets and bodies dereference null."
  },
  {
   "property": "C53",
   "status": "proved",
   "theorems": [
    "C53_fresh_file",
    "C53_file_loses_period_refuted",
    "C53_file_zero_seed_refuted",
    "C53_file_exact",
    "C53_zero_seed_always"
   ],
   "note": "The exact statement is proved. The plain claim (a saved key resumes) is refuted: saveToFile drops the period, and every key saved after an update ends on the all-zero seed."
  },
  {
   "property": "C54",
   "status": "proved",
   "theorems": [
    "C54_body_exact",
    "C54_transaction_exact",
    "C54_body_round_trip",
    "C54_transaction_round_trip",
    "C54_scripts_lost_refuted",
    "C54_metadata_dropped_refuted"
   ],
   "note": "The exact statement is proved. The plain claim is refuted: scripts, bootstrap witnesses and metadata are lost."
  },
  {
   "property": "C55",
   "status": "proved",
   "theorems": [
    "C55_exact",
    "C55_cert_cddl",
    "C55_pool_cddl",
    "C55_pool_not_cddl_refuted",
    "C55_babbage_certs_dropped_refuted",
    "C55_babbage_script_ref_dropped_refuted"
   ],
   "note": "The exact statement is proved. The plain claim is refuted: pool registrations without owners, relays or metadata do not conform, Babbage bodies drop certificates."
  },
  {
   "property": "C56",
   "status": "proved",
   "theorems": [
    "C56_outputs_cut_back",
    "C56_kept_exactly",
    "C56_outputs_kept",
    "C56_output_reduced_refuted",
    "C56_output_removed_refuted"
   ],
   "note": "The exact statement is proved. The plain claim is refuted: balance() may reduce or remove the caller's last outputs."
  },
  {
   "property": "C57",
   "status": "proved",
   "theorems": [
    "C57_verify_exact",
    "C57_proofs",
    "C57_short_proof_refuted",
    "C57_trailing_bytes_refuted"
   ],
   "note": "The exact statement is proved. The plain claim is refuted: short proofs are read out of bounds, trailing bytes are ignored. libsodium's VRF is assumed correct and unique (hypotheses, with a toy instance)."
  },
  {
   "property": "C58",
   "status": "proved",
   "theorems": [
    "C58_description_exact",
    "C58_envelope_reads_back",
    "C58_key_files",
    "C58_kes_signing_key_file",
    "C58_key_files_injective",
    "C58_counter_file",
    "C58_opcert_file",
    "C58_retirement_file",
    "C58_registration_file",
    "C58_registration_type_refuted",
    "C58_extended_key_file_refuted",
    "C58_unescaped_refuted",
    "C58_word_for_word"
   ],
   "note": "The exact statement is proved. The plain claim is refuted: registration files carry the type of operational certificates, chain codes are left out, descriptions are not escaped."
  },
  {
   "property": "C59",
   "status": "proved",
   "theorems": [
    "C59_final_exact",
    "C59_reported_exactly",
    "C59_open_failure",
    "C59_unserialisable",
    "C59_complete",
    "C59_every_crash_point",
    "C59_throw_means_full",
    "C59_silent_truncation_refuted",
    "C59_not_atomic_refuted"
   ],
   "note": "The exact statement is proved. The plain claim is refuted: a full device is not always reported and the old content is lost before the new is complete."
  },
  {
   "property": "C60",
   "status": "proved",
   "theorems": [
    "C60_extend_same_pool",
    "C60_extend_same_signatures",
    "C60_from_root_key",
    "C60_from_mnemonic",
    "C60_bech32",
    "C60_extended_bech32_refuted"
   ],
   "note": "The exact statement is proved. The plain claim is refuted: the Bech32 text of an extended key omits the chain code."
  },
  {
   "property": "C61",
   "status": "proved",
   "theorems": [
    "C61_reread_exact",
    "C61_parts_well_formed",
    "C61_certificates_well_formed",
    "C61_transactions_well_formed",
    "C61_reread_certificate",
    "C61_reread_transaction",
    "C61_reread_body",
    "C61_unknown_certificate_refuted"
   ],
   "note": "The exact statement is proved. The plain claim is refuted: an unknown certificate is read as an empty one, written as an empty array, which the reader refuses."
  },
  {
   "property": "C62",
   "status": "proved",
   "theorems": [
    "C62_exact",
    "C62_body_exact",
    "C62_witness_set_exact",
    "C62_transaction_exact",
    "C62_parts_say",
    "C62_scripts_say",
    "C62_certificates_say",
    "C62_relays_say",
    "C62_silent_losses_refuted",
    "C62_body_fields",
    "C62_missing_fields_refuted"
   ],
   "note": "The exact statement is proved. The plain claim is refuted: the listed losses (C62_silent_losses_refuted, C62_missing_fields_refuted)."
  },
  {
   "property": "C63",
   "status": "proved",
   "theorems": [
    "C63_shelley_body",
    "C63_shelley_transaction",
    "C63_babbage_transaction",
    "C63_script_reference"
   ],
   "note": "The exact statement is proved. The plain claim is refuted: the Babbage writer leaves out certificates, datum options, script references and scripts (C54/C55)."
  },
  {
   "property": "C64",
   "status": "proved",
   "theorems": [
    "C64_what_was_asked",
    "C64_babbage_what_was_asked"
   ],
   "note": "For histories from the empty builder; what Balance does to the outputs and the fee is C36 and C56, what UpdateFee does to the fee is C37."
  },
  {
   "property": "C65",
   "status": "proved",
   "theorems": [
    "C65_roundtrip_within_one",
    "C65_roundtrip_error",
    "C65_whole_ada",
    "C65_love2ada_monotone",
    "C65_love2ada_injective",
    "C65_ada2love_monotone",
    "C65_ada2love_defined",
    "C65_ada2love_undefined_refuted",
    "C65_roundtrip_inexact_refuted"
   ],
   "note": "Doubles are SpecFloat binary64 of Coq's standard library; the proofs go through Flocq, hence the real numbers' axioms (sig_forall_dec, sig_not_dec, functional_extensionality_dep, classic). The statement includes where exactness and definedness fail (C65_roundtrip_inexact_refuted, C65_ada2love_undefined_refuted)."
  },
  {
   "property": "C66",
   "status": "proved",
   "theorems": [
    "C66_arithmetic",
    "C66_equality",
    "C66_field_laws",
    "C66_division",
    "C66_reduce",
    "C66_fromUint",
    "C66_random",
    "C66_points",
    "C66_points_any",
    "C66_canonical_needed",
    "C66_tss_scalars"
   ],
   "note": ""
  },
  {
   "property": "C67",
   "status": "proved",
   "theorems": [
    "C67_rfc8032",
    "C67_sign_verify",
    "C67_not_malleable",
    "C67_bound_to_message",
    "C67_generate"
   ],
   "note": ""
  },
  {
   "property": "C68",
   "status": "proved",
   "theorems": [
    "C68_exact",
    "C68_reads",
    "C68_returned",
    "C68_bad_text_throws",
    "C68_malformed_refuted",
    "C68_order"
   ],
   "note": "The exact statement is proved. The plain claim is refuted: malformed descriptions are not all refused (C68_malformed_refuted)."
  },
  {
   "property": "C69",
   "status": "proved",
   "theorems": [
    "C69_constructed",
    "C69_others_unchanged",
    "C69_erased",
    "C69_no_secret_remains",
    "C69_locks_returned",
    "C69_locked",
    "C69_locked_refuted",
    "C69_locked_exactly"
   ],
   "note": "The exact statement is proved. The plain claim is refuted: a live array does not always stay locked: copies are never locked and destroying a neighbour unlocks the shared page."
  },
  {
   "property": "C70",
   "status": "proved",
   "theorems": [
    "C70_accepted",
    "C70_deregistration_refuted",
    "C70_no_ttl_refuted",
    "C70_accepted_iff"
   ],
   "note": "End to end over the calls, against an independent statement of the ledger's UTXO and UTXOW rules about bytes (Spec_Node). Not covered: the effects of certificates (DELEGS/POOL rules), scripts, metadata. The two refuted theorems are the exceptions the statement names."
  },
  {
   "property": "C71",
   "status": "proved",
   "theorems": [
    "C71_watch_only_keys",
    "C71_watch_only_address",
    "C71_watch_only_confined"
   ],
   "note": ""
  },
  {
   "property": "C72",
   "status": "proved",
   "theorems": [
    "C72_accepted_iff",
    "C72_fee_by_width",
    "C72_can_be_built"
   ],
   "note": ""
  },
  {
   "property": "C73",
   "status": "proved",
   "theorems": [
    "C73_verify_exact",
    "C73_compact_verify_exact",
    "C73_compact_verify_depth0",
    "C73_compact_depth0_refuted",
    "C73_block_accepted_iff",
    "C73_block_authentic"
   ],
   "note": "The exact statement is proved. That a compact signature is accepted only if valid is refuted at depth 0, where the key the signature carries is ignored."
  },
  {
   "property": "C74",
   "status": "proved",
   "theorems": [
    "C74_passing_is_signing",
    "C74_accepted",
    "C74_pool_registration_refuted"
   ],
   "note": "The statement as given, including its restriction, is proved; C74_pool_registration_refuted is the case outside the restriction."
  },
  {
   "property": "C75",
   "status": "proved",
   "theorems": [
    "C75_balance_funded",
    "C75_forced_succeeds",
    "C75_unforced_refuted",
    "C75_funded_accepted"
   ],
   "note": "The exact statement is proved. The plain claim (a funded transaction can be balanced) holds with force and is refuted without."
  },
  {
   "property": "C76",
   "status": "proved",
   "theorems": [
    "C76_phrase_restores",
    "C76_wallet_pays",
    "C76_received_is_mine"
   ],
   "note": "Pool certificates and stake deregistrations are left out of the wallet's calls (C70 covers the former and refutes the latter)."
  },
  {
   "property": "C77",
   "status": "proved",
   "theorems": [
    "C77_files",
    "C77_bad_phrase",
    "C77_blocks",
    "C77_counter_stale_refuted"
   ],
   "note": "C77_counter_stale_refuted is a finding beside the claim: cold.counter is saved before the certificate is issued and names the number that pool.cert already uses. If the signature nonce of the certificate is zero, the program throws (C77_files, last part)."
  },
  {
   "property": "C78",
   "status": "proved",
   "theorems": [
    "C78_as_new",
    "C78_kinds",
    "C78_history",
    "C78_transaction",
    "C78_rewards",
    "C78_all_or_nothing",
    "C78_failed_body",
    "C78_failed_small",
    "C78_half_written_refuted",
    "C78_stale_refuted",
    "C78_babbage_unread"
   ],
   "note": "C78_half_written_refuted and C78_stale_refuted are findings beside the claim: failed reads leave a zero denominator, a new credential kind over an old hash, new inputs over old outputs; reading [] leaves a transaction, and an object that reads back its own rewards holds every payment twice."
  },
  {
   "property": "C79",
   "status": "proved",
   "theorems": [
    "C79_isolated",
    "C79_shamir_exact",
    "C79_shamir",
    "C79_recommit_spoils",
    "C79_direct",
    "C79_default_is_one",
    "C79_dealt"
   ],
   "note": "C79_shamir_exact and C79_direct give the condition for a good signature exactly; C79_recommit_spoils shows that a second commitment between the collected one and the signature silently ruins the session."
  },
  {
   "property": "C80",
   "status": "proved",
   "theorems": [
    "C80_treasury_pays",
    "C80_direct_treasury_pays"
   ],
   "note": "Joins C75 and C79. The node is Spec_Node.accepts; placing the aggregated signature into the transaction's witness list is the caller's assignment (set_vkeys), as the library has no call for it."
  },
  {
   "property": "C81",
   "status": "proved",
   "theorems": [
    "C81_certificates_exact",
    "C81_admitted_iff",
    "C81_registration_fits",
    "C81_long_name_refuted",
    "C81_small_margin_refuted",
    "C81_pool_launch",
    "C81_pool_makes_blocks"
   ],
   "note": "The ledger is Spec_Stake (DELEGS, DELEG, POOL rules over wire CBOR). Key credentials; deregistrations are covered in the certificate theorem, not in the funded one (the builder forgets the refund, C70). The exact statements are proved; the plain claim (what the registration API takes, the ledger takes) is refuted by long names and small margins."
  },
  {
   "property": "C82",
   "status": "proved",
   "theorems": [
    "C82_pays",
    "C82_every_history"
   ],
   "note": "Purses are defined on the node's UTXO (Spec_Purse), the node is Spec_Node. The id of an applied transaction must be new to the purse (a premise: collision of a hash)."
  },
  {
   "property": "C83",
   "status": "proved",
   "theorems": [
    "C83_at_every_moment",
    "C83_never_refused",
    "C83_locked_out",
    "C83_way_back"
   ],
   "note": "The acceptance rule is Spec_Block (OCERT). Restarting goes through bytes(); through the key file it does not work (C53). An operator who misses an update is not covered."
  },
  {
   "property": "C84",
   "status": "proved",
   "theorems": [
    "C84_pays",
    "C84_every_life"
   ],
   "note": "The ledger is Spec_Node, Spec_Stake. Deregistration is left out: the builder forgets its refund (C70). A plan that makes no sense is refused by C81. One account per purse."
  },
  {
   "property": "C85",
   "status": "proved",
   "theorems": [
    "C85_at_every_moment",
    "C85_catching_up",
    "C85_too_early",
    "C85_reissue_helps"
   ],
   "note": "The OCERT rule is Spec_Block. 'Told apart' is a hypothesis about hash and signature scheme on this key's own tree; a toy instance meets it. A key that was updated and read back from its file is not covered (C53: it loses its period)."
  },
  {
   "property": "C86",
   "status": "proved",
   "theorems": [
    "C86_registered",
    "C86_leads_exactly",
    "C86_one_value",
    "C86_lost_slot"
   ],
   "note": "The VRF's properties (proofs exist, verify, have one value) are hypotheses about libsodium; the ledger snapshot, the threshold and the slot's input are the network's and arbitrary. The header's body is built by the caller (the library has no serializer for it): any body that says so."
  },
  {
   "property": "C87",
   "status": "proved",
   "theorems": [
    "C87_blake2b",
    "C87_digests",
    "C87_hashes_ok",
    "C87_phrases",
    "C87_kes"
   ],
   "note": "Botan's implementations are taken to compute the functions of the standards, which Spec_Hashes writes out and which reproduce the published examples and, through the model, the library's own test vectors (Vectors.v)."
  },
  {
   "property": "C88",
   "status": "proved",
   "theorems": [
    "C88_cut_exactly",
    "C88_one_place",
    "C88_gives_up",
    "C88_fee_bound",
    "C88_forced_iff",
    "C88_loss_is_final"
   ],
   "note": "Finding: with force, payees silently get less or nothing and the call returns normally; up to the minimum UTxO amount more than the fee is burned instead of being returned as change (C88_ex_all: 5 ada paid out of up to 6.165 ada, the rest is fee)."
  },
  {
   "property": "C89",
   "status": "proved",
   "theorems": [
    "C89_payees_lost",
    "C89_balanced",
    "C89_balance_add_balance",
    "C89_small_top_up",
    "C89_certificate"
   ],
   "note": "Finding: the change output of the first balance() is an ordinary output to the second one, which takes what is missing from the last output, the new payee: it is removed and the call returns normally (C89_ex_lost: a payee of 3 ada is dropped while 14.8 ada of change stand before it)."
  }
 ]
}