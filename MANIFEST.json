{
 "claims": [
  {
   "property": "C01",
   "status": "proved",
   "theorems": [
    "C01_var_int_roundtrip",
    "C01_var_int_shortest",
    "C01_var_int_prefix_free",
    "C01_read_var_int_characterised",
    "C01_read_canonical_refuted"
   ],
   "note": "Canonicity of the reader is false (over-long forms accepted): C01_read_canonical_refuted; the property statement says so."
  },
  {
   "property": "C02",
   "status": "proved",
   "theorems": [
    "C02_encode_minimally_correct",
    "C02_encode_minimally_fixpoint",
    "C02_minimal_unique"
   ],
   "note": ""
  },
  {
   "property": "C03",
   "status": "proved",
   "theorems": [
    "C03_encode_int_correct",
    "C03_int_roundtrip",
    "C03_encode_int_injective",
    "C03_vec_to_int_short",
    "C03_vec_to_int_long",
    "C03_vec_to_int_right_or_error_refuted",
    "C03_encode_bool"
   ],
   "note": "vec_to_int is wrong on some 5+-byte vectors: C03_vec_to_int_right_or_error_refuted; exact behaviour in C03_vec_to_int_long (length < 2^29, beyond that the u32 shift counter overflows)."
  },
  {
   "property": "C04",
   "status": "proved",
   "theorems": [
    "C04_integer_new",
    "C04_uinteger_new",
    "C04_add_exact_or_error",
    "C04_sub_exact_or_error",
    "C04_mul_exact_or_error",
    "C04_div_exact_or_error",
    "C04_rem_exact_or_error",
    "C04_neg_exact"
   ],
   "note": ""
  },
  {
   "property": "C05",
   "status": "proved",
   "theorems": [
    "C05_expression_evaluation",
    "C05_results_in_range",
    "C05_comparison",
    "C05_error_not_equal_to_itself"
   ],
   "note": ""
  },
  {
   "property": "C06",
   "status": "proved",
   "theorems": [
    "C06_and",
    "C06_or",
    "C06_xor",
    "C06_shl",
    "C06_shr",
    "C06_shl_exact_or_error_refuted"
   ],
   "note": "Left shift is proved to be reduction modulo 2^32 as the statement says; its non-exactness is exhibited by a _refuted theorem."
  },
  {
   "property": "C07",
   "status": "proved",
   "theorems": [
    "C07_num2bin",
    "C07_num2bin_nonpositive_length",
    "C07_num2bin_no_panic_refuted"
   ],
   "note": "Range n < 2^28 is in the statement; beyond it the byte count overflows and the code panics."
  },
  {
   "property": "C08",
   "status": "proved",
   "theorems": [
    "C08_history_refines_byte_strings",
    "C08_concat_data",
    "C08_split",
    "C08_concat_after_split",
    "C08_equality_is_data_equality",
    "C08_from_parts_data",
    "C08_concat_assoc_plain"
   ],
   "note": ""
  },
  {
   "property": "C09",
   "status": "proved",
   "theorems": [
    "C09_provenance_truthful",
    "C09_provenance_truthful_with_signing_refuted",
    "C09_concat_keeps_parts",
    "C09_from_parts_keeps_parts",
    "C09_function_recorded",
    "C09_naming_keeps",
    "C09_split_keeps_parts"
   ],
   "note": "The exception the statement names (splitting arrays made by signing functions) is exhibited by a _refuted theorem."
  },
  {
   "property": "C10",
   "status": "proved",
   "theorems": [
    "C10_serialise_meaning",
    "C10_serialise_then_parse",
    "C10_minimal_flag",
    "C10_bare_pushdata_refuted"
   ],
   "note": "Excluded ops are named in the statement; C10_bare_pushdata_refuted shows why."
  },
  {
   "property": "C11",
   "status": "proved",
   "theorems": [
    "C11_parse_then_serialise",
    "C11_normalisation_idempotent",
    "C11_exact_roundtrip_refuted"
   ],
   "note": "The statement itself says exact round trip fails for non-shortest prefixes; C11_parse_then_serialise gives the iff, C11_exact_roundtrip_refuted the witness."
  },
  {
   "property": "C12",
   "status": "proved",
   "theorems": [
    "C12_parsers_agree"
   ],
   "note": ""
  },
  {
   "property": "C13",
   "status": "proved",
   "theorems": [
    "C13_parser_total",
    "C13_parse_iff_grammar"
   ],
   "note": ""
  },
  {
   "property": "C14",
   "status": "proved",
   "theorems": [
    "C14_script_code_none",
    "C14_script_code_nth",
    "C14_script_code_missing_panics",
    "C14_script_code_first",
    "C14_conventions_differ"
   ],
   "note": ""
  },
  {
   "property": "C15",
   "status": "proved",
   "theorems": [
    "C15_integers_roundtrip",
    "C15_bool_roundtrip",
    "C15_fixed_array_roundtrip",
    "C15_byte_array_roundtrip",
    "C15_script_roundtrip",
    "C15_vec_roundtrip",
    "C15_outpoint_roundtrip",
    "C15_input_roundtrip",
    "C15_output_roundtrip",
    "C15_transaction_roundtrip",
    "C15_preimage_roundtrip",
    "C15_transaction_deser_ser",
    "C15_transaction_prefix_free",
    "C15_preimage_prefix_free",
    "C15_output_prefix_free",
    "C15_input_prefix_free",
    "C15_script_prefix_free",
    "C15_byte_array_prefix_free"
   ],
   "note": ""
  },
  {
   "property": "C16",
   "status": "proved",
   "theorems": [
    "C16_suffix_rejected",
    "C16_all_self_delimiting",
    "C16_transaction_suffix_rejected",
    "C16_transaction_prefix_rejected",
    "C16_preimage_prefix_rejected",
    "C16_deser_panics_only_on_capacity",
    "C16_parts_never_panic",
    "C16_deser_never_panics_refuted"
   ],
   "note": "The statement names the one panic (Vec::with_capacity); C16_deser_never_panics_refuted exhibits it, C16_deser_panics_only_on_capacity shows it is the only one."
  },
  {
   "property": "C17",
   "status": "proved",
   "theorems": [
    "C17_encode_decode_all",
    "C17_transactions_encode_decode_all",
    "C17_decode_all_total",
    "C17_empty_list_refuted",
    "C17_zero_size_items_diverge_refuted"
   ],
   "note": "The statement names the failing empty list; C17_zero_size_items_diverge_refuted shows why items must occupy at least one byte."
  },
  {
   "property": "C18",
   "status": "proved",
   "theorems": [
    "C18_hashed_coherent",
    "C18_hash_identifies",
    "C18_deser_keeps_raw",
    "C18_deser_hash_refuted"
   ],
   "note": "The statement names the defaults restored by deser; C18_deser_hash_refuted exhibits it."
  },
  {
   "property": "C19",
   "status": "proved",
   "theorems": [
    "C19_text_is_cash_addr",
    "C19_text_unique",
    "C19_round_trip",
    "C19_round_trip_upper_case",
    "C19_round_trip_without_prefix",
    "C19_text_injective",
    "C19_with_prefix",
    "C19_upper_case_prefix_refuted",
    "C19_colon_prefix_refuted"
   ],
   "note": "Full round trip, text characterised against an independent bit-string/LFSR specification; exceptions refuted with witnesses."
  },
  {
   "property": "C20",
   "status": "proved",
   "theorems": [
    "C20_burst_detected",
    "C20_four_substitutions_detected",
    "C20_transposition_detected",
    "C20_prefix_typo_refuted"
   ],
   "note": "Burst <= 8 for all texts; <= 4 arbitrary substitutions via a kernel-checked sweep of pair syndromes over all 43 positions lifted by linearity; prefix typos refuted."
  },
  {
   "property": "C21",
   "status": "proved",
   "theorems": [
    "C21_accepted_iff",
    "C21_panics_iff",
    "C21_accepted_canonical",
    "C21_no_panic_refuted",
    "C21_canonical_refuted"
   ],
   "note": "Exact characterisation of acceptance and of panics; panic-freedom and canonicity refuted with witnesses."
  },
  {
   "property": "C22",
   "status": "proved",
   "theorems": [
    "C22_locking_script_bytes",
    "C22_round_trip",
    "C22_received_script_is_address_iff",
    "C22_reported_address_is_script",
    "C22_null_data_iff",
    "C22_p2pk_iff",
    "C22_unknown_iff",
    "C22_panics_iff",
    "C22_p2pkh_script_iff",
    "C22_no_panic_refuted",
    "C22_only_standard_bytes_refuted",
    "C22_address_of_destination"
   ],
   "note": "Full classification proved as iff theorems; the two exceptions in the statement are exhibited by _refuted theorems (panic on wrong hash length, non-standard push prefix)."
  },
  {
   "property": "C23",
   "status": "proved",
   "theorems": [
    "C23_spend_recognised",
    "C23_spend_recognised_from_bytes",
    "C23_recognised_iff",
    "C23_unknown_flag_refuted",
    "C23_empty_signature_refuted"
   ],
   "note": "Proved, with the two exceptions of the statement exhibited by _refuted theorems."
  },
  {
   "property": "C24",
   "status": "proved",
   "theorems": [
    "C24_named_flags",
    "C24_flag_numbers",
    "C24_default_value_refuted",
    "C24_empty_message",
    "C24_preimages_are_sighash_messages",
    "C24_transaction_preimages",
    "C24_unknown_value_or_script_panics"
   ],
   "note": "The external hash is a parameter assumed only to return 32 bytes. An input without value or locking script panics (C24_unknown_value_or_script_panics)."
  },
  {
   "property": "C25",
   "status": "proved",
   "theorems": [
    "C25_signature_commits",
    "C25_message_depends_only_on",
    "C25_anyone_can_pay_ignores_other_inputs",
    "C25_none_ignores_outputs",
    "C25_single_ignores_other_outputs",
    "C25_none_single_ignore_other_sequences"
   ],
   "note": "Collision freedom is not assumed: the conclusion is a disjunction with an explicit collision."
  },
  {
   "property": "C26",
   "status": "proved",
   "theorems": [
    "C26_no_money_created",
    "C26_insufficient_inputs",
    "C26_only_error",
    "C26_release_overflow_refuted",
    "C26_without_estimation_refuted"
   ],
   "note": "Model of TxBuilder.build (tx_builder.rs). release=true models wrapping u64 sums, release=false panicking ones. C26_release_overflow_refuted and C26_without_estimation_refuted exhibit the two exceptions named in the property."
  },
  {
   "property": "C27",
   "status": "proved",
   "theorems": [
    "C27_calls",
    "C27_leftover_rule",
    "C27_bounds_and_fee",
    "C27_uncapped_change_pays_exact_fee",
    "C27_single_change",
    "C27_low_fee_refuted"
   ],
   "note": "The complete distribution rule (C27_leftover_rule) and its consequences. In a release build size*feerate must fit 64 bits (fees_fit). C27_low_fee_refuted is the exception named in the property."
  },
  {
   "property": "C28",
   "status": "proved",
   "theorems": [
    "C28_calls",
    "C28_order_preserved",
    "C28_without_estimation",
    "C28_leftover_needs_estimation"
   ],
   "note": "For every builder made with the API and every signing history."
  },
  {
   "property": "C29",
   "status": "proved",
   "theorems": [
    "C29_placeholder_preimage",
    "C29_estimate_bounds_size",
    "C29_p2pkh",
    "C29_fee_covers_size",
    "C29_imported_refuted"
   ],
   "note": "General theorem for all signatories plus the P2PKH instance; user signatories are arbitrary functions. C29_imported_refuted is the exception named in the property."
  },
  {
   "property": "C30",
   "status": "proved",
   "theorems": [
    "C30_sign_once",
    "C30_any_order",
    "C30_signs_only_its_input",
    "C30_complete_iff_all_signed",
    "C30_reference_signs_its_input",
    "C30_out_of_range_panics"
   ],
   "note": "For all signing histories mixing sign_input and sign_input_signatory. dyn Any downcasts are modelled by type ids."
  },
  {
   "property": "C31",
   "status": "proved",
   "theorems": [
    "C31_reimport",
    "C31_reimport_keeps_everything",
    "C31_remote_signing",
    "C31_sign_input_after_import_refuted",
    "C31_missing_value_is_zero_refuted"
   ],
   "note": "C31_sign_input_after_import_refuted and C31_missing_value_is_zero_refuted are the exceptions named in the property."
  },
  {
   "property": "C32",
   "status": "proved",
   "theorems": [
    "C32_round_trip",
    "C32_round_trip_tables",
    "C32_written_means",
    "C32_strings_once",
    "C32_data_once",
    "C32_indices_in_range",
    "C32_compact_entries",
    "C32_injective",
    "C32_writes_files"
   ],
   "note": "base64 crate assumed to decode what it encodes (base64_ok; satisfied by an RFC 4648 implementation in Spec_Base64.v); JSON texts as JSON values (serde_json printing/parsing not modelled); map order irrelevant. tables_fit: fewer than 2^64 table entries."
  },
  {
   "property": "C33",
   "status": "proved",
   "theorems": [
    "C33_reads_meaning",
    "C33_result_unique",
    "C33_no_panic",
    "C33_accepts_only_complete",
    "C33_missing_array_refuted",
    "C33_self_reference_refuted",
    "C33_cycle_refuted",
    "C33_blow_up_refuted",
    "C33_reads_files",
    "C33_other_values_are_errors",
    "C33_results_in_range",
    "C33_rewrites"
   ],
   "note": "File format given by the reader-independent relation file_of (Spec_JsonFile), meaning of tables by tx_means. The naive claim 'never panics, always terminates' is false: the _refuted theorems exhibit the crashing / diverging / exploding files for every decoder; the statement names these exceptions and everything else is proved."
  },
  {
   "property": "C34",
   "status": "proved",
   "theorems": [
    "C34_texts",
    "C34_texts_reversed",
    "C34_round_trip",
    "C34_accepted_iff",
    "C34_texts_injective",
    "C34_digest"
   ],
   "note": "For every n (20 and 32 are the types in the crate)."
  },
  {
   "property": "C35",
   "status": "proved",
   "theorems": [
    "C35_genesis_fields",
    "C35_genesis",
    "C35_send_fields",
    "C35_send",
    "C35_token_id",
    "C35_nulldata",
    "C35_limits_unchecked_refuted",
    "C35_type_names",
    "C35_into_unhashed_tx"
   ],
   "note": "Full statement proved; C35_limits_unchecked_refuted exhibits the parameters accepted by the constructors that SLP parsers reject. The document hash parameter is a &str, so a 32-byte hash that is not UTF-8 cannot be passed at all (a typing fact outside the model)."
  },
  {
   "property": "C36",
   "status": "proved",
   "theorems": [
    "C36_bip68",
    "C36_injective",
    "C36_ordered"
   ],
   "note": ""
  },
  {
   "property": "C37",
   "status": "proved",
   "theorems": [
    "C37_nested",
    "C37_exact",
    "C37_flat",
    "C37_accepts_iff",
    "C37_no_panic",
    "C37_every_nesting_refuted",
    "C37_else_without_else_refuted",
    "C37_second_else_refuted",
    "C37_deterministic"
   ],
   "note": "The exceptions the statement names are exhibited by C37_every_nesting_refuted, C37_else_without_else_refuted and C37_second_else_refuted; C37_exact gives the parser's result for every properly bracketed body."
  },
  {
   "property": "C38",
   "status": "proved",
   "theorems": [
    "C38_holds_iff",
    "C38_holds_decided",
    "C38_always",
    "C38_monotone",
    "C38_some_branch",
    "C38_contradiction_refuted",
    "C38_parse",
    "C38_parse_unambiguous",
    "C38_parse_no_panic_refuted"
   ],
   "note": "Exceptions in the statement: C38_contradiction_refuted, C38_parse_no_panic_refuted."
  },
  {
   "property": "C39",
   "status": "proved",
   "theorems": [
    "C39_tracks",
    "C39_single_variant",
    "C39_variants_static",
    "C39_emits",
    "C39_unknown_depth_refuted",
    "C39_depth_offset_refuted",
    "C39_size_refuted",
    "C39_unbalanced_refuted",
    "C39_variant_depth_refuted",
    "C39_alt_name_refuted",
    "C39_depth_panics_refuted",
    "C39_notif_refused",
    "C39_empty_variants_refuted",
    "C39_struct_variant_panics_refuted",
    "C39_depth_number"
   ],
   "note": "Against an independent labelled script machine (Spec_Macro.v). C39_tracks is the general theorem; C39_single_variant and C39_variants_static give checkable sufficient conditions; C39_emits says what is generated. The *_refuted theorems exhibit, for each condition, an accepted script that the tracker gets wrong."
  },
  {
   "property": "C40",
   "status": "proved",
   "theorems": [
    "C40_opcode_byte_roundtrip",
    "C40_byte_opcode",
    "C40_table_is_the_specification",
    "C40_disabled",
    "C40_lookup_by_name"
   ],
   "note": ""
  },
  {
   "property": "C41",
   "status": "proved",
   "theorems": [
    "C41_to_integer_push",
    "C41_to_integer_exec",
    "C41_to_integer_long_refuted"
   ],
   "note": "The failure on 5+-byte pushes, named in the statement, is C41_to_integer_long_refuted."
  },
  {
   "property": "C42",
   "status": "proved",
   "theorems": [
    "C42_transaction_wire_format",
    "C42_preimage_wire_format",
    "C42_reader_complete",
    "C42_reader_sound",
    "C42_reserialise",
    "C42_reserialise_identity_refuted"
   ],
   "note": "C42_reserialise_identity_refuted exhibits the byte-changing read-write cycle that the statement names."
  },
  {
   "property": "C43",
   "status": "proved",
   "theorems": [
    "C43_hash_text_round_trip",
    "C43_hash_text_iff",
    "C43_hash_text_panics_refuted",
    "C43_array_text",
    "C43_pubkey_text",
    "C43_pubkey_slice"
   ],
   "note": "C43_hash_text_panics_refuted proves the exception named in the statement."
  },
  {
   "property": "C44",
   "status": "proved",
   "theorems": [
    "C44_accepted_iff",
    "C44_panics_only_on_crate_name",
    "C44_crate_name",
    "C44_skip_mark",
    "C44_layout",
    "C44_lawful",
    "C44_skipped_not_written",
    "C44_crate_structs",
    "C44_foreign_skip_refuted"
   ],
   "note": "The generator is modelled as a function from declarations to generated statements (Model_Derive), with the meaning of the generated impl given separately. rustc's own demands (distinct field names, no field called `data`, which would be moved twice) are the hypothesis `compiles`. The attribute-path exception is C44_foreign_skip_refuted."
  },
  {
   "property": "C45",
   "status": "proved",
   "theorems": [
    "C45_pushes_value",
    "C45_pushes_values",
    "C45_data_is_pushed",
    "C45_announced_length",
    "C45_announced_type",
    "C45_panics_iff",
    "C45_stack_data_panics_iff",
    "C45_from_int"
   ],
   "note": "All nine implementations of BitcoinDataType are modelled as one sum type (the five hash types share one case)."
  },
  {
   "property": "C46",
   "status": "proved",
   "theorems": [
    "C46_equality_is_equivalence",
    "C46_equal_means_same_instructions",
    "C46_op_equality",
    "C46_tags_ignored",
    "C46_equal_scripts_same_bytes_refuted",
    "C46_same_bytes_equal_scripts_refuted"
   ],
   "note": "The two exceptions named in the statement are C46_equal_scripts_same_bytes_refuted and C46_same_bytes_equal_scripts_refuted."
  },
  {
   "property": "C47",
   "status": "proved",
   "theorems": [
    "C47_prefix_arguments",
    "C47_from_pk",
    "C47_from_redeem_script",
    "C47_equality",
    "C47_text_form",
    "C47_text_form_built",
    "C47_binary_form",
    "C47_binary_total",
    "C47_binary_keeps_equality_refuted",
    "C47_same_destination_equal_refuted"
   ],
   "note": "Hash functions are parameters giving 20 bytes. The exceptions named in the statement are C47_binary_keeps_equality_refuted and C47_same_destination_equal_refuted. A binary form is modelled as the three SerAddress fields, not as the bytes of one particular serde format; deserialising the borrowed prefix (&str) additionally needs a format that can lend strings."
  },
  {
   "property": "C48",
   "status": "proved",
   "theorems": [
    "C48_conversions",
    "C48_small_types",
    "C48_back",
    "C48_mixed_add_sub_mul",
    "C48_mixed_errors",
    "C48_mixed_comparison",
    "C48_serde"
   ],
   "note": "isize/usize are modelled as 64-bit. A serde form is the i32 handed to or obtained from the format."
  },
  {
   "property": "C49",
   "status": "proved",
   "theorems": [
    "C49_naming_is_annotation",
    "C49_script_bytes",
    "C49_wire",
    "C49_parse",
    "C49_txid",
    "C49_script_code",
    "C49_preimages",
    "C49_destination",
    "C49_build",
    "C49_sign_complete",
    "C49_session",
    "C49_p2pkh_signatory"
   ],
   "note": "twin_history/twin_sign_op pair two wallet sessions call by call; user signing code is assumed not to inspect annotations (twin_signatory), and the library's own P2PKH signatory is proved to satisfy that (C49_p2pkh_signatory)."
  },
  {
   "property": "C50",
   "status": "proved",
   "theorems": [
    "C50_bytes_determine",
    "C50_transaction_bytes",
    "C50_messages",
    "C50_signature_check",
    "C50_p2pkh",
    "C50_p2sh"
   ],
   "note": "Spec_Network.v is the network side, written from the Bitcoin Cash specification (May 2020 rules), independent of the library model. CHECKMULTISIG, the two lock-time opcodes, hash functions and signature verification are arbitrary functions; the sigchecks limit and segwit recovery are left out. Concrete three-input transaction (ALL, SINGLE|ANYONECANPAY, P2SH) checked in C50_nonvacuous and C50_valid_nonvacuous."
  },
  {
   "property": "C51",
   "status": "proved",
   "theorems": [
    "C51_integers",
    "C51_byte_arrays",
    "C51_comparisons",
    "C51_multiplication_disabled",
    "C51_num2bin_refuted"
   ],
   "note": "Compiler-style theorem: off_i/off_b/off_c evaluate with the modelled library functions, script_i/script_b/script_c are the postfix scripts, serialised with the modelled serialiser and run on the independently written interpreter of Spec_Network. Both directions by mutual induction over expressions. The converse needs 'guarded' (OP_NUM2BIN not applied directly to a sum or difference); C51_num2bin_refuted shows why."
  },
  {
   "property": "C52",
   "status": "proved",
   "theorems": [
    "C52_effect",
    "C52_needs_inputs",
    "C52_needs_numbers",
    "C52_total",
    "C52_disabled",
    "C52_enabled",
    "C52_behavior_panics",
    "C52_behavior_no_error",
    "C52_retains_input",
    "C52_consumes_input",
    "C52_constants",
    "C52_control",
    "C52_table_refuted"
   ],
   "note": "Holds with the exceptions named in the statement; C52_table_refuted exhibits the wrong rows. OP_CHECKMULTISIG(VERIFY) and OP_IFDUP have no behavior (panic, C52_behavior_panics). Signature checks and lock time checks are arbitrary functions of the environment."
  },
  {
   "property": "C53",
   "status": "proved",
   "theorems": [
    "C53_every_point",
    "C53_final_stack",
    "C53_straight",
    "C53_inputs",
    "C53_end_to_end",
    "C53_no_underflow"
   ],
   "note": "Combines C39 with the network's interpreter of Spec_Network (Proofs_MacroRun.lift: every step of the network lifts to a labelled step). The exception is stated as [diverted]; without OP_IF there is none (C53_straight)."
  },
  {
   "property": "C54",
   "status": "proved",
   "theorems": [
    "C54_body_accepted",
    "C54_body",
    "C54_attribute",
    "C54_parameters",
    "C54_function",
    "C54_function_accepted",
    "C54_docs",
    "C54_no_docs",
    "C54_panics",
    "C54_names_distinct",
    "C54_source_order",
    "C54_panic_refuted"
   ],
   "note": "Against an independent grammar (Spec_MacroParse.v) over the syntax tree syn delivers. C54_body_accepted, C54_attribute, C54_parameters, C54_function(_accepted) are equivalences; C54_body gives the meaning of bodies in the supported nesting (what happens to other nestings is C38); C54_source_order composes with the code generator of C39. C54_panic_refuted exhibits the two panics."
  },
  {
   "property": "C55",
   "status": "proved",
   "theorems": [
    "C55_items",
    "C55_struct",
    "C55_enum",
    "C55_inputs",
    "C55_script",
    "C55_debug",
    "C55_panics",
    "C55_spend",
    "C55_p2pkh",
    "C55_p2sh",
    "C55_const_generics_refuted",
    "C55_duplicate_field_refuted"
   ],
   "note": "Two stated exceptions are shown: C55_const_generics_refuted (a const generic parameter makes the macro panic) and C55_duplicate_field_refuted (#[variant(A, A)] gives the field twice). C55_script covers bodies the grammar of C54 (block) describes; scripts with Rust loops or ifs are refused by the generator. rustfmt's output and source positions are parameters."
  },
  {
   "property": "C56",
   "status": "proved",
   "theorems": [
    "C56_sign",
    "C56_derive_pubkey",
    "C56_sign_then_verify",
    "C56_verify",
    "C56_high_s_refused",
    "C56_normalize",
    "C56_never_panics",
    "C56_verify_errors",
    "C56_verify_size_error",
    "C56_verify_blame",
    "C56_wallet",
    "C56_estimate",
    "C56_contracts_satisfiable",
    "C56_64_bytes_refuted"
   ],
   "note": "The wrappers are modelled; the curve crates are arbitrary functions constrained by the contracts in Spec_Ecc.v (c_crate_ok, rust_crate_ok), which C56_contracts_satisfiable shows can be met. C56_64_bytes_refuted exhibits the excepted case."
  },
  {
   "property": "C57",
   "status": "proved",
   "theorems": [
    "C57_same_code",
    "C57_call",
    "C57_table",
    "C57_opcode",
    "C57_sound",
    "C57_final_stack",
    "C57_straight",
    "C57_pushed_value",
    "C57_end_to_end",
    "C57_bound_once",
    "C57_shadowing_refuted",
    "C57_transmute_refuted",
    "C57_unknown_depth_refuted",
    "C57_branches_refuted",
    "C57_transmute"
   ],
   "note": "Proved for the modelled rustc check (scoping, shadowing, inference of type parameters); that rustc also rejects uses of moved variables is not modelled, which only makes more scripts accepted in the model. The necessary conditions are shown by the C57_*_refuted theorems."
  },
  {
   "property": "C58",
   "status": "proved",
   "theorems": [
    "C58_writes",
    "C58_reads_every_document",
    "C58_reads_only_documents",
    "C58_unambiguous",
    "C58_roundtrip",
    "C58_roundtrip_bytes",
    "C58_roundtrip_txid",
    "C58_roundtrip_signing",
    "C58_hashed_roundtrip",
    "C58_unsigned_input_roundtrip",
    "C58_slp_roundtrip",
    "C58_slp_utxo_roundtrip",
    "C58_token_meta_roundtrip",
    "C58_other_documents",
    "C58_field_order",
    "C58_panics_only",
    "C58_wrong_size_panics_refuted",
    "C58_value_equality_refuted",
    "C58_hash_checked_refuted",
    "C58_formats_disjoint"
   ],
   "note": "Serde's derive and serde_json follow their documented conventions in the model (JSON as a tree, numbers are integers). Proved for every transaction and every document. Three guarantees one might expect fail and are stated as _refuted theorems with witnesses: malformed hash lengths panic, Op values may change although bytes do not, and Tx.hash/raw are not checked."
  },
  {
   "property": "C59",
   "status": "proved",
   "theorems": [
    "C59_debug_text",
    "C59_debug_brackets_refuted",
    "C59_number",
    "C59_script_text",
    "C59_text_determines_ops",
    "C59_text_determines_meaning",
    "C59_debug_determines",
    "C59_result_text",
    "C59_error_shows_operation",
    "C59_hash_debug",
    "C59_bytes_text",
    "C59_text_bytes_refuted",
    "C59_error_operator_refuted"
   ],
   "note": "Proved for all scripts and numbers. The exceptions named in the property are _refuted theorems with witnesses: the text does not determine the bytes nor the bytes the text, and the messages of SubOverflow, MulOverflow and ShrOverflow show the wrong operator."
  },
  {
   "property": "C60",
   "status": "proved",
   "theorems": [
    "C60_texts",
    "C60_width",
    "C60_fails",
    "C60_tags",
    "C60_texts_refuted"
   ],
   "note": "Proved for every rustfmt meeting the stated layout contract (Spec_GenSource.v lays_out); rustfmt itself is outside the model. The four exceptions named in the property are shown by witnesses in C60_texts_refuted."
  },
  {
   "property": "C61",
   "status": "proved",
   "theorems": [
    "C61_roundtrip",
    "C61_effects",
    "C61_unambiguous",
    "C61_borrowing_roundtrip",
    "C61_address_roundtrip",
    "C61_never_panics",
    "C61_bincode",
    "C61_bincode_layout",
    "C61_stream_refuted",
    "C61_bincode_stream_refuted",
    "C61_hash_checked_refuted"
   ],
   "note": "Proved for every format meeting the contract sound_format (and lending) in Spec_Binary.v; bincode is shown to meet it. serde's derive is modelled as fields in order. The two exceptions named in the property are C61_stream_refuted and C61_hash_checked_refuted."
  },
  {
   "property": "C62",
   "status": "proved",
   "theorems": [
    "C62_hash_lengths",
    "C62_hash_texts",
    "C62_encodings",
    "C62_addresses",
    "C62_address_index_refuted",
    "C62_p2pkh_script",
    "C62_push_too_large",
    "C62_json_true",
    "C62_json_faults_reported"
   ],
   "note": "Causes are stated about inputs in Spec_Errors.v. The exception named in the property is C62_address_index_refuted. Panics and non-termination on the other faulty inputs are the subject of C16, C20 and C33. The texts of the messages are modelled only where C59 says so."
  },
  {
   "property": "C63",
   "status": "proved",
   "theorems": [
    "C63_follows_calls",
    "C63_change",
    "C63_default_fee",
    "C63_p2pkh_relay_fee",
    "C63_p2pkh_estimate",
    "C63_default_builder_refuted",
    "C63_defaults",
    "C63_default_values"
   ],
   "note": "Calls and what they ask for are defined in Spec_Calls.v and Spec_Asked.v without reference to the builder's state; the distribution rule is that of C27. The exception named in the property is C63_default_builder_refuted."
  },
  {
   "property": "C64",
   "status": "proved",
   "theorems": [
    "C64_script_parts",
    "C64_transaction_parts",
    "C64_message_parts",
    "C64_transaction_id",
    "C64_signature_hashes",
    "C64_group_names_lost_refuted",
    "C64_short_push_name_lost_refuted"
   ],
   "note": "The parts of every kind of value are specified in Spec_Labels.v (the names of the opcodes themselves are pinned by C40). The exceptions named in the property are C64_group_names_lost_refuted and C64_short_push_name_lost_refuted."
  },
  {
   "property": "C65",
   "status": "proved",
   "theorems": [
    "C65_message_determines",
    "C65_numbers_shown",
    "C65_address_message",
    "C65_insufficient_amount_message_refuted",
    "C65_indistinct_refuted"
   ],
   "note": "Texts of std, hex, base64 and serde_json errors are a parameter. The exceptions named in the property are C65_indistinct_refuted and C65_insufficient_amount_message_refuted."
  },
  {
   "property": "C66",
   "status": "proved",
   "theorems": [
    "C66_what_equality_compares",
    "C66_equality_is_equivalence",
    "C66_equal_transactions_same_effect",
    "C66_equal_hashed_same_id",
    "C66_hashed_equality",
    "C66_reading_again_is_equal",
    "C66_roundtrip_equal_refuted",
    "C66_equal_same_bytes_refuted",
    "C66_hash_agrees_with_equality",
    "C66_pubkey_order",
    "C66_relative_lock_order",
    "C66_token_order"
   ],
   "note": "Derived implementations are modelled as the compiler generates them (field by field, in declaration order); the hasher is the sequence of calls made to it. The exceptions named in the property are C66_roundtrip_equal_refuted and C66_equal_same_bytes_refuted."
  },
  {
   "property": "C67",
   "status": "proved",
   "theorems": [
    "C67_single_preimage",
    "C67_multiple_preimages",
    "C67_signing_keeps_preimages",
    "C67_shown_is_sent",
    "C67_recomputable",
    "C67_digest_fixes_transaction",
    "C67_made_up_reference"
   ],
   "note": "The recomputation theorem speaks of transactions whose coins are all known (otherwise UnhashedTx::preimages panics, C24); the type parameter of a reference is an argument of the model."
  },
  {
   "property": "C68",
   "status": "proved",
   "theorems": [
    "C68_send",
    "C68_send_names_genesis",
    "C68_genesis",
    "C68_change_before_receiver_refuted"
   ],
   "note": "The indexer is specified in Spec_SlpTx on network transactions. The exception named in the property is C68_change_before_receiver_refuted."
  }
 ]
}