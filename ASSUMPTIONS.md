# Print Assumptions of every theorem in MANIFEST.json

Generated by tools/gen_assumptions.py.

| theorem | file | Print Assumptions |
|---|---|---|
| C01_var_int_roundtrip | Prop_Encoding.v | Closed under the global context |
| C01_var_int_shortest | Prop_Encoding.v | Closed under the global context |
| C01_var_int_prefix_free | Prop_Encoding.v | Closed under the global context |
| C01_read_var_int_characterised | Prop_Encoding.v | Closed under the global context |
| C01_read_canonical_refuted | Prop_Encoding.v | Closed under the global context |
| C02_encode_minimally_correct | Prop_Encoding.v | Closed under the global context |
| C02_encode_minimally_fixpoint | Prop_Encoding.v | Closed under the global context |
| C02_minimal_unique | Prop_Encoding.v | Closed under the global context |
| C03_encode_int_correct | Prop_Encoding.v | Closed under the global context |
| C03_int_roundtrip | Prop_Encoding.v | Closed under the global context |
| C03_encode_int_injective | Prop_Encoding.v | Closed under the global context |
| C03_vec_to_int_short | Prop_Encoding.v | Closed under the global context |
| C03_vec_to_int_long | Prop_Encoding.v | Closed under the global context |
| C03_vec_to_int_right_or_error_refuted | Prop_Encoding.v | Closed under the global context |
| C03_encode_bool | Prop_Small.v | Closed under the global context |
| C04_integer_new | Prop_Integer.v | Closed under the global context |
| C04_uinteger_new | Prop_Integer.v | Closed under the global context |
| C04_add_exact_or_error | Prop_Integer.v | Closed under the global context |
| C04_sub_exact_or_error | Prop_Integer.v | Closed under the global context |
| C04_mul_exact_or_error | Prop_Integer.v | Closed under the global context |
| C04_div_exact_or_error | Prop_Integer.v | Closed under the global context |
| C04_rem_exact_or_error | Prop_Integer.v | Closed under the global context |
| C04_neg_exact | Prop_Integer.v | Closed under the global context |
| C05_expression_evaluation | Prop_Integer.v | Closed under the global context |
| C05_results_in_range | Prop_Integer.v | Closed under the global context |
| C05_comparison | Prop_Integer.v | Closed under the global context |
| C05_error_not_equal_to_itself | Prop_Integer.v | Closed under the global context |
| C06_and | Prop_Integer.v | Closed under the global context |
| C06_or | Prop_Integer.v | Closed under the global context |
| C06_xor | Prop_Integer.v | Closed under the global context |
| C06_shl | Prop_Integer.v | Closed under the global context |
| C06_shr | Prop_Integer.v | Closed under the global context |
| C06_shl_exact_or_error_refuted | Prop_Integer.v | Closed under the global context |
| C07_num2bin | Prop_Integer.v | Closed under the global context |
| C07_num2bin_nonpositive_length | Prop_Integer.v | Closed under the global context |
| C07_num2bin_no_panic_refuted | Prop_Integer.v | Closed under the global context |
| C08_history_refines_byte_strings | Prop_ByteArray.v | Closed under the global context |
| C08_concat_data | Prop_ByteArray.v | Closed under the global context |
| C08_split | Prop_ByteArray.v | Closed under the global context |
| C08_concat_after_split | Prop_ByteArray.v | Closed under the global context |
| C08_equality_is_data_equality | Prop_ByteArray.v | Closed under the global context |
| C08_from_parts_data | Prop_ByteArray.v | Closed under the global context |
| C08_concat_assoc_plain | Prop_ByteArray.v | Closed under the global context |
| C09_provenance_truthful | Prop_ByteArray.v | Closed under the global context |
| C09_provenance_truthful_with_signing_refuted | Prop_ByteArray.v | Closed under the global context |
| C09_concat_keeps_parts | Prop_Parts.v | Closed under the global context |
| C09_from_parts_keeps_parts | Prop_Parts.v | Closed under the global context |
| C09_function_recorded | Prop_Parts.v | Closed under the global context |
| C09_naming_keeps | Prop_Parts.v | Closed under the global context |
| C09_split_keeps_parts | Prop_Parts.v | Closed under the global context |
| C10_serialise_meaning | Prop_Script.v | Closed under the global context |
| C10_serialise_then_parse | Prop_Script.v | Closed under the global context |
| C10_minimal_flag | Prop_Script.v | Closed under the global context |
| C10_bare_pushdata_refuted | Prop_Script.v | Closed under the global context |
| C11_parse_then_serialise | Prop_Script.v | Closed under the global context |
| C11_normalisation_idempotent | Prop_Script.v | Closed under the global context |
| C11_exact_roundtrip_refuted | Prop_Script.v | Closed under the global context |
| C12_parsers_agree | Prop_Script.v | Closed under the global context |
| C13_parser_total | Prop_Script.v | Closed under the global context |
| C13_parse_iff_grammar | Prop_Script.v | Closed under the global context |
| C14_script_code_none | Prop_Script.v | Closed under the global context |
| C14_script_code_nth | Prop_Script.v | Closed under the global context |
| C14_script_code_missing_panics | Prop_Script.v | Closed under the global context |
| C14_script_code_first | Prop_Script.v | Closed under the global context |
| C14_conventions_differ | Prop_Script.v | Closed under the global context |
| C15_integers_roundtrip | Prop_Code.v | Closed under the global context |
| C15_bool_roundtrip | Prop_Code.v | Closed under the global context |
| C15_fixed_array_roundtrip | Prop_Code.v | Closed under the global context |
| C15_byte_array_roundtrip | Prop_Code.v | Closed under the global context |
| C15_script_roundtrip | Prop_Code.v | Closed under the global context |
| C15_vec_roundtrip | Prop_Code.v | Closed under the global context |
| C15_outpoint_roundtrip | Prop_Code.v | Closed under the global context |
| C15_input_roundtrip | Prop_Code.v | Closed under the global context |
| C15_output_roundtrip | Prop_Code.v | Closed under the global context |
| C15_transaction_roundtrip | Prop_Code.v | Closed under the global context |
| C15_preimage_roundtrip | Prop_Code.v | Closed under the global context |
| C15_transaction_deser_ser | Prop_Code.v | Closed under the global context |
| C15_transaction_prefix_free | Prop_Code.v | Closed under the global context |
| C15_preimage_prefix_free | Prop_Code.v | Closed under the global context |
| C15_output_prefix_free | Prop_Code.v | Closed under the global context |
| C15_input_prefix_free | Prop_Code.v | Closed under the global context |
| C15_script_prefix_free | Prop_Code.v | Closed under the global context |
| C15_byte_array_prefix_free | Prop_Code.v | Closed under the global context |
| C16_suffix_rejected | Prop_Code.v | Closed under the global context |
| C16_all_self_delimiting | Prop_Code.v | Closed under the global context |
| C16_transaction_suffix_rejected | Prop_Code.v | Closed under the global context |
| C16_transaction_prefix_rejected | Prop_Code.v | Closed under the global context |
| C16_preimage_prefix_rejected | Prop_Code.v | Closed under the global context |
| C16_deser_panics_only_on_capacity | Prop_Code.v | Closed under the global context |
| C16_parts_never_panic | Prop_Code.v | Closed under the global context |
| C16_deser_never_panics_refuted | Prop_Code.v | Closed under the global context |
| C17_encode_decode_all | Prop_Code.v | Closed under the global context |
| C17_transactions_encode_decode_all | Prop_Code.v | Closed under the global context |
| C17_decode_all_total | Prop_Code.v | Closed under the global context |
| C17_empty_list_refuted | Prop_Code.v | Closed under the global context |
| C17_zero_size_items_diverge_refuted | Prop_Code.v | Closed under the global context |
| C18_hashed_coherent | Prop_Code.v | Closed under the global context |
| C18_hash_identifies | Prop_Code.v | Closed under the global context |
| C18_deser_keeps_raw | Prop_Code.v | Closed under the global context |
| C18_deser_hash_refuted | Prop_Code.v | Closed under the global context |
| C19_text_is_cash_addr | Prop_Address.v | Closed under the global context |
| C19_text_unique | Prop_Address.v | Closed under the global context |
| C19_round_trip | Prop_Address.v | Closed under the global context |
| C19_round_trip_upper_case | Prop_Address.v | Closed under the global context |
| C19_round_trip_without_prefix | Prop_Address.v | Closed under the global context |
| C19_text_injective | Prop_Address.v | Closed under the global context |
| C19_with_prefix | Prop_Address.v | Closed under the global context |
| C19_upper_case_prefix_refuted | Prop_Address.v | Closed under the global context |
| C19_colon_prefix_refuted | Prop_Address.v | Closed under the global context |
| C20_burst_detected | Prop_Address.v | Closed under the global context |
| C20_four_substitutions_detected | Prop_Address.v | Closed under the global context |
| C20_transposition_detected | Prop_Address.v | Closed under the global context |
| C20_prefix_typo_refuted | Prop_Address.v | Closed under the global context |
| C21_accepted_iff | Prop_Address.v | Closed under the global context |
| C21_panics_iff | Prop_Address.v | Closed under the global context |
| C21_accepted_canonical | Prop_Address.v | Closed under the global context |
| C21_no_panic_refuted | Prop_Address.v | Closed under the global context |
| C21_canonical_refuted | Prop_Address.v | Closed under the global context |
| C22_locking_script_bytes | Prop_Destination.v | Closed under the global context |
| C22_round_trip | Prop_Destination.v | Closed under the global context |
| C22_received_script_is_address_iff | Prop_Destination.v | Closed under the global context |
| C22_reported_address_is_script | Prop_Destination.v | Closed under the global context |
| C22_null_data_iff | Prop_Destination.v | Closed under the global context |
| C22_p2pk_iff | Prop_Destination.v | Closed under the global context |
| C22_unknown_iff | Prop_Destination.v | Closed under the global context |
| C22_panics_iff | Prop_Destination.v | Closed under the global context |
| C22_p2pkh_script_iff | Prop_Destination.v | Closed under the global context |
| C22_no_panic_refuted | Prop_Destination.v | Closed under the global context |
| C22_only_standard_bytes_refuted | Prop_Destination.v | Closed under the global context |
| C22_address_of_destination | Prop_Small.v | Closed under the global context |
| C23_spend_recognised | Prop_Destination.v | Closed under the global context |
| C23_spend_recognised_from_bytes | Prop_Destination.v | Closed under the global context |
| C23_recognised_iff | Prop_Destination.v | Closed under the global context |
| C23_unknown_flag_refuted | Prop_Destination.v | Closed under the global context |
| C23_empty_signature_refuted | Prop_Destination.v | Closed under the global context |
| C24_named_flags | Prop_Labels.v | Closed under the global context |
| C24_flag_numbers | Prop_Labels.v | Closed under the global context |
| C24_default_value_refuted | Prop_Labels.v | Closed under the global context |
| C24_empty_message | Prop_Labels.v | Closed under the global context |
| C24_preimages_are_sighash_messages | Prop_Preimage.v | Closed under the global context |
| C24_transaction_preimages | Prop_Preimage.v | Closed under the global context |
| C24_unknown_value_or_script_panics | Prop_Preimage.v | Closed under the global context |
| C25_signature_commits | Prop_Preimage.v | Closed under the global context |
| C25_message_depends_only_on | Prop_Preimage.v | Closed under the global context |
| C25_anyone_can_pay_ignores_other_inputs | Prop_Preimage.v | Closed under the global context |
| C25_none_ignores_outputs | Prop_Preimage.v | Closed under the global context |
| C25_single_ignores_other_outputs | Prop_Preimage.v | Closed under the global context |
| C25_none_single_ignore_other_sequences | Prop_Preimage.v | Closed under the global context |
| C26_no_money_created | Prop_TxBuilder.v | Closed under the global context |
| C26_insufficient_inputs | Prop_TxBuilder.v | Closed under the global context |
| C26_only_error | Prop_TxBuilder.v | Closed under the global context |
| C26_release_overflow_refuted | Prop_TxBuilder.v | Closed under the global context |
| C26_without_estimation_refuted | Prop_TxBuilder.v | Closed under the global context |
| C27_calls | Prop_Calls.v | Closed under the global context |
| C27_leftover_rule | Prop_TxBuilder.v | Closed under the global context |
| C27_bounds_and_fee | Prop_TxBuilder.v | Closed under the global context |
| C27_uncapped_change_pays_exact_fee | Prop_TxBuilder.v | Closed under the global context |
| C27_single_change | Prop_TxBuilder.v | Closed under the global context |
| C27_low_fee_refuted | Prop_TxBuilder.v | Closed under the global context |
| C28_calls | Prop_Calls.v | Closed under the global context |
| C28_order_preserved | Prop_TxBuilder2.v | Closed under the global context |
| C28_without_estimation | Prop_TxBuilder2.v | Closed under the global context |
| C28_leftover_needs_estimation | Prop_TxBuilder2.v | Closed under the global context |
| C29_placeholder_preimage | Prop_Calls.v | Closed under the global context |
| C29_estimate_bounds_size | Prop_TxBuilder2.v | Closed under the global context |
| C29_p2pkh | Prop_TxBuilder2.v | Closed under the global context |
| C29_fee_covers_size | Prop_TxBuilder2.v | Closed under the global context |
| C29_imported_refuted | Prop_TxBuilder2.v | Closed under the global context |
| C30_sign_once | Prop_TxBuilder2.v | Closed under the global context |
| C30_any_order | Prop_TxBuilder2.v | Closed under the global context |
| C30_signs_only_its_input | Prop_TxBuilder2.v | Closed under the global context |
| C30_complete_iff_all_signed | Prop_TxBuilder2.v | Closed under the global context |
| C30_reference_signs_its_input | Prop_TxBuilder2.v | Closed under the global context |
| C30_out_of_range_panics | Prop_TxBuilder2.v | Closed under the global context |
| C31_reimport | Prop_TxBuilder2.v | Closed under the global context |
| C31_reimport_keeps_everything | Prop_TxBuilder2.v | Closed under the global context |
| C31_remote_signing | Prop_TxBuilder2.v | Closed under the global context |
| C31_sign_input_after_import_refuted | Prop_TxBuilder2.v | Closed under the global context |
| C31_missing_value_is_zero_refuted | Prop_TxBuilder2.v | Closed under the global context |
| C32_round_trip | Prop_Json.v | Closed under the global context |
| C32_round_trip_tables | Prop_Json.v | Closed under the global context |
| C32_written_means | Prop_Json.v | Closed under the global context |
| C32_strings_once | Prop_Json.v | Closed under the global context |
| C32_data_once | Prop_Json.v | Closed under the global context |
| C32_indices_in_range | Prop_Json.v | Closed under the global context |
| C32_compact_entries | Prop_Json.v | Closed under the global context |
| C32_injective | Prop_Json.v | Closed under the global context |
| C32_writes_files | Prop_JsonFile.v | Closed under the global context |
| C33_reads_meaning | Prop_Json.v | Closed under the global context |
| C33_result_unique | Prop_Json.v | Closed under the global context |
| C33_no_panic | Prop_Json.v | Closed under the global context |
| C33_accepts_only_complete | Prop_Json.v | Closed under the global context |
| C33_missing_array_refuted | Prop_Json.v | Closed under the global context |
| C33_self_reference_refuted | Prop_Json.v | Closed under the global context |
| C33_cycle_refuted | Prop_Json.v | Closed under the global context |
| C33_blow_up_refuted | Prop_Json.v | Closed under the global context |
| C33_reads_files | Prop_JsonFile.v | Closed under the global context |
| C33_other_values_are_errors | Prop_JsonFile.v | Closed under the global context |
| C33_results_in_range | Prop_JsonFile.v | Closed under the global context |
| C33_rewrites | Prop_JsonFile.v | Closed under the global context |
| C34_texts | Prop_Hash.v | Closed under the global context |
| C34_texts_reversed | Prop_Hash.v | Closed under the global context |
| C34_round_trip | Prop_Hash.v | Closed under the global context |
| C34_accepted_iff | Prop_Hash.v | Closed under the global context |
| C34_texts_injective | Prop_Hash.v | Closed under the global context |
| C34_digest | Prop_Hash.v | Closed under the global context |
| C35_genesis_fields | Prop_Slp.v | Closed under the global context |
| C35_genesis | Prop_Slp.v | Closed under the global context |
| C35_send_fields | Prop_Slp.v | Closed under the global context |
| C35_send | Prop_Slp.v | Closed under the global context |
| C35_token_id | Prop_Slp.v | Closed under the global context |
| C35_nulldata | Prop_Slp.v | Closed under the global context |
| C35_limits_unchecked_refuted | Prop_Slp.v | Closed under the global context |
| C35_type_names | Prop_Slp.v | Closed under the global context |
| C35_into_unhashed_tx | Prop_Small.v | Closed under the global context |
| C36_bip68 | Prop_Hash.v | Closed under the global context |
| C36_injective | Prop_Hash.v | Closed under the global context |
| C36_ordered | Prop_Hash.v | Closed under the global context |
| C37_nested | Prop_Macro.v | Closed under the global context |
| C37_exact | Prop_Macro.v | Closed under the global context |
| C37_flat | Prop_Macro.v | Closed under the global context |
| C37_accepts_iff | Prop_Macro.v | Closed under the global context |
| C37_no_panic | Prop_Macro.v | Closed under the global context |
| C37_every_nesting_refuted | Prop_Macro.v | Closed under the global context |
| C37_else_without_else_refuted | Prop_Macro.v | Closed under the global context |
| C37_second_else_refuted | Prop_Macro.v | Closed under the global context |
| C37_deterministic | Prop_Macro.v | Closed under the global context |
| C38_holds_iff | Prop_Macro.v | Closed under the global context |
| C38_holds_decided | Prop_Macro.v | Closed under the global context |
| C38_always | Prop_Macro.v | Closed under the global context |
| C38_monotone | Prop_Macro.v | Closed under the global context |
| C38_some_branch | Prop_Macro.v | Closed under the global context |
| C38_contradiction_refuted | Prop_Macro.v | Closed under the global context |
| C38_parse | Prop_Macro.v | Closed under the global context |
| C38_parse_unambiguous | Prop_Macro.v | Closed under the global context |
| C38_parse_no_panic_refuted | Prop_Macro.v | Closed under the global context |
| C39_tracks | Prop_Macro2.v | Closed under the global context |
| C39_single_variant | Prop_Macro2.v | Closed under the global context |
| C39_variants_static | Prop_Macro2.v | Closed under the global context |
| C39_emits | Prop_Macro2.v | Closed under the global context |
| C39_unknown_depth_refuted | Prop_Macro2.v | Closed under the global context |
| C39_depth_offset_refuted | Prop_Macro2.v | Closed under the global context |
| C39_size_refuted | Prop_Macro2.v | Closed under the global context |
| C39_unbalanced_refuted | Prop_Macro2.v | Closed under the global context |
| C39_variant_depth_refuted | Prop_Macro2.v | Closed under the global context |
| C39_alt_name_refuted | Prop_Macro2.v | Closed under the global context |
| C39_depth_panics_refuted | Prop_Macro2.v | Closed under the global context |
| C39_notif_refused | Prop_Macro2.v | Closed under the global context |
| C39_empty_variants_refuted | Prop_Macro2.v | Closed under the global context |
| C39_struct_variant_panics_refuted | Prop_Macro2.v | Closed under the global context |
| C39_depth_number | Prop_Small2.v | Closed under the global context |
| C40_opcode_byte_roundtrip | Prop_Script.v | Closed under the global context |
| C40_byte_opcode | Prop_Script.v | Closed under the global context |
| C40_table_is_the_specification | Prop_Script.v | Closed under the global context |
| C40_disabled | Prop_Script.v | Closed under the global context |
| C40_lookup_by_name | Prop_Script.v | Closed under the global context |
| C41_to_integer_push | Prop_Script.v | Closed under the global context |
| C41_to_integer_exec | Prop_Script.v | Closed under the global context |
| C41_to_integer_long_refuted | Prop_Script.v | Closed under the global context |
| C42_transaction_wire_format | Prop_Code.v | Closed under the global context |
| C42_preimage_wire_format | Prop_Code.v | Closed under the global context |
| C42_reader_complete | Prop_Code.v | Closed under the global context |
| C42_reader_sound | Prop_Code.v | Closed under the global context |
| C42_reserialise | Prop_Code.v | Closed under the global context |
| C42_reserialise_identity_refuted | Prop_Code.v | Closed under the global context |
| C43_hash_text_round_trip | Prop_Hash.v | Closed under the global context |
| C43_hash_text_iff | Prop_Hash.v | Closed under the global context |
| C43_hash_text_panics_refuted | Prop_Hash.v | Closed under the global context |
| C43_array_text | Prop_Hash.v | Closed under the global context |
| C43_pubkey_text | Prop_Hash.v | Closed under the global context |
| C43_pubkey_slice | Prop_Hash.v | Closed under the global context |
| C44_accepted_iff | Prop_Derive.v | Closed under the global context |
| C44_panics_only_on_crate_name | Prop_Derive.v | Closed under the global context |
| C44_crate_name | Prop_Derive.v | Closed under the global context |
| C44_skip_mark | Prop_Derive.v | Closed under the global context |
| C44_layout | Prop_Derive.v | Closed under the global context |
| C44_lawful | Prop_Derive.v | Closed under the global context |
| C44_skipped_not_written | Prop_Derive.v | Closed under the global context |
| C44_crate_structs | Prop_Derive.v | Closed under the global context |
| C44_foreign_skip_refuted | Prop_Derive.v | Closed under the global context |
| C45_pushes_value | Prop_DataType.v | Closed under the global context |
| C45_pushes_values | Prop_DataType.v | Closed under the global context |
| C45_data_is_pushed | Prop_DataType.v | Closed under the global context |
| C45_announced_length | Prop_DataType.v | Closed under the global context |
| C45_announced_type | Prop_DataType.v | Closed under the global context |
| C45_panics_iff | Prop_DataType.v | Closed under the global context |
| C45_stack_data_panics_iff | Prop_DataType.v | Closed under the global context |
| C45_from_int | Prop_DataType.v | Closed under the global context |
| C46_equality_is_equivalence | Prop_DataType.v | Closed under the global context |
| C46_equal_means_same_instructions | Prop_DataType.v | Closed under the global context |
| C46_op_equality | Prop_DataType.v | Closed under the global context |
| C46_tags_ignored | Prop_DataType.v | Closed under the global context |
| C46_equal_scripts_same_bytes_refuted | Prop_DataType.v | Closed under the global context |
| C46_same_bytes_equal_scripts_refuted | Prop_DataType.v | Closed under the global context |
| C47_prefix_arguments | Prop_AddressApi.v | Closed under the global context |
| C47_from_pk | Prop_AddressApi.v | Closed under the global context |
| C47_from_redeem_script | Prop_AddressApi.v | Closed under the global context |
| C47_equality | Prop_AddressApi.v | Closed under the global context |
| C47_text_form | Prop_AddressApi.v | Closed under the global context |
| C47_text_form_built | Prop_AddressApi.v | Closed under the global context |
| C47_binary_form | Prop_AddressApi.v | Closed under the global context |
| C47_binary_total | Prop_AddressApi.v | Closed under the global context |
| C47_binary_keeps_equality_refuted | Prop_AddressApi.v | Closed under the global context |
| C47_same_destination_equal_refuted | Prop_AddressApi.v | Closed under the global context |
| C48_conversions | Prop_IntConv.v | Closed under the global context |
| C48_small_types | Prop_IntConv.v | Closed under the global context |
| C48_back | Prop_IntConv.v | Closed under the global context |
| C48_mixed_add_sub_mul | Prop_IntConv.v | Closed under the global context |
| C48_mixed_errors | Prop_IntConv.v | Closed under the global context |
| C48_mixed_comparison | Prop_IntConv.v | Closed under the global context |
| C48_serde | Prop_IntConv.v | Closed under the global context |
| C49_naming_is_annotation | Prop_Small.v | Closed under the global context |
| C49_script_bytes | Prop_Twin.v | Closed under the global context |
| C49_wire | Prop_Twin.v | Closed under the global context |
| C49_parse | Prop_Twin.v | Closed under the global context |
| C49_txid | Prop_Twin.v | Closed under the global context |
| C49_script_code | Prop_Twin.v | Closed under the global context |
| C49_preimages | Prop_Twin.v | Closed under the global context |
| C49_destination | Prop_Twin.v | Closed under the global context |
| C49_build | Prop_Twin.v | Closed under the global context |
| C49_sign_complete | Prop_Twin.v | Closed under the global context |
| C49_session | Prop_Twin.v | Closed under the global context |
| C49_p2pkh_signatory | Prop_Twin.v | Closed under the global context |
| C50_bytes_determine | Prop_Network.v | Closed under the global context |
| C50_transaction_bytes | Prop_Network.v | Closed under the global context |
| C50_messages | Prop_Network.v | Closed under the global context |
| C50_signature_check | Prop_Network.v | Closed under the global context |
| C50_p2pkh | Prop_Network.v | Closed under the global context |
| C50_p2sh | Prop_Network.v | Closed under the global context |
| C51_integers | Prop_OffChain.v | Closed under the global context |
| C51_byte_arrays | Prop_OffChain.v | Closed under the global context |
| C51_comparisons | Prop_OffChain.v | Closed under the global context |
| C51_multiplication_disabled | Prop_OffChain.v | Closed under the global context |
| C51_num2bin_refuted | Prop_OffChain.v | Closed under the global context |
| C52_effect | Prop_Behavior.v | Closed under the global context |
| C52_needs_inputs | Prop_Behavior.v | Closed under the global context |
| C52_needs_numbers | Prop_Behavior.v | Closed under the global context |
| C52_total | Prop_Behavior.v | Closed under the global context |
| C52_disabled | Prop_Behavior.v | Closed under the global context |
| C52_enabled | Prop_Behavior.v | Closed under the global context |
| C52_behavior_panics | Prop_Behavior.v | Closed under the global context |
| C52_behavior_no_error | Prop_Behavior.v | Closed under the global context |
| C52_retains_input | Prop_Behavior.v | Closed under the global context |
| C52_consumes_input | Prop_Behavior.v | Closed under the global context |
| C52_constants | Prop_Behavior.v | Closed under the global context |
| C52_control | Prop_Behavior.v | Closed under the global context |
| C52_table_refuted | Prop_Behavior.v | Closed under the global context |
| C53_every_point | Prop_MacroRun.v | Closed under the global context |
| C53_final_stack | Prop_MacroRun.v | Closed under the global context |
| C53_straight | Prop_MacroRun.v | Closed under the global context |
| C53_inputs | Prop_MacroRun.v | Closed under the global context |
| C53_end_to_end | Prop_MacroRun.v | Closed under the global context |
| C53_no_underflow | Prop_MacroRun.v | Closed under the global context |
| C54_body_accepted | Prop_MacroParse.v | Closed under the global context |
| C54_body | Prop_MacroParse.v | Closed under the global context |
| C54_attribute | Prop_MacroParse.v | Closed under the global context |
| C54_parameters | Prop_MacroParse.v | Closed under the global context |
| C54_function | Prop_MacroParse.v | Closed under the global context |
| C54_function_accepted | Prop_MacroParse.v | Closed under the global context |
| C54_docs | Prop_MacroParse.v | Closed under the global context |
| C54_no_docs | Prop_MacroParse.v | Closed under the global context |
| C54_panics | Prop_MacroParse.v | Closed under the global context |
| C54_names_distinct | Prop_MacroParse.v | Closed under the global context |
| C54_source_order | Prop_MacroParse.v | Closed under the global context |
| C54_panic_refuted | Prop_MacroParse.v | Closed under the global context |
| C55_items | Prop_MacroOut.v | Closed under the global context |
| C55_struct | Prop_MacroOut.v | Closed under the global context |
| C55_enum | Prop_MacroOut.v | Closed under the global context |
| C55_inputs | Prop_MacroOut.v | Closed under the global context |
| C55_script | Prop_MacroOut.v | Closed under the global context |
| C55_debug | Prop_MacroOut2.v | Closed under the global context |
| C55_panics | Prop_MacroOut2.v | Closed under the global context |
| C55_spend | Prop_MacroOut2.v | Closed under the global context |
| C55_p2pkh | Prop_MacroOut2.v | Closed under the global context |
| C55_p2sh | Prop_MacroOut2.v | Closed under the global context |
| C55_const_generics_refuted | Prop_MacroOut2.v | Closed under the global context |
| C55_duplicate_field_refuted | Prop_MacroOut2.v | Closed under the global context |
| C56_sign | Prop_Ecc.v | Closed under the global context |
| C56_derive_pubkey | Prop_Ecc.v | Closed under the global context |
| C56_sign_then_verify | Prop_Ecc.v | Closed under the global context |
| C56_verify | Prop_Ecc.v | Closed under the global context |
| C56_high_s_refused | Prop_Ecc.v | Closed under the global context |
| C56_normalize | Prop_Ecc.v | Closed under the global context |
| C56_never_panics | Prop_Ecc.v | Closed under the global context |
| C56_verify_errors | Prop_Ecc.v | Closed under the global context |
| C56_verify_size_error | Prop_Ecc.v | Closed under the global context |
| C56_verify_blame | Prop_Ecc.v | Closed under the global context |
| C56_wallet | Prop_Ecc.v | Closed under the global context |
| C56_estimate | Prop_Ecc.v | Closed under the global context |
| C56_contracts_satisfiable | Prop_Ecc.v | Closed under the global context |
| C56_64_bytes_refuted | Prop_Ecc.v | Closed under the global context |
| C57_same_code | Prop_MacroType.v | Closed under the global context |
| C57_call | Prop_MacroType.v | Closed under the global context |
| C57_table | Prop_MacroType.v | Closed under the global context |
| C57_opcode | Prop_MacroType.v | Closed under the global context |
| C57_sound | Prop_MacroType.v | Closed under the global context |
| C57_final_stack | Prop_MacroType.v | Closed under the global context |
| C57_straight | Prop_MacroType.v | Closed under the global context |
| C57_pushed_value | Prop_MacroType.v | Closed under the global context |
| C57_end_to_end | Prop_MacroType.v | Closed under the global context |
| C57_bound_once | Prop_MacroType.v | Closed under the global context |
| C57_shadowing_refuted | Prop_MacroType2.v | Closed under the global context |
| C57_transmute_refuted | Prop_MacroType2.v | Closed under the global context |
| C57_unknown_depth_refuted | Prop_MacroType2.v | Closed under the global context |
| C57_branches_refuted | Prop_MacroType2.v | Closed under the global context |
| C57_transmute | Prop_MacroType3.v | Closed under the global context |
| C58_writes | Prop_Serde.v | Closed under the global context |
| C58_reads_every_document | Prop_Serde.v | Closed under the global context |
| C58_reads_only_documents | Prop_Serde.v | Closed under the global context |
| C58_unambiguous | Prop_Serde.v | Closed under the global context |
| C58_roundtrip | Prop_Serde.v | Closed under the global context |
| C58_roundtrip_bytes | Prop_Serde.v | Closed under the global context |
| C58_roundtrip_txid | Prop_Serde.v | Closed under the global context |
| C58_roundtrip_signing | Prop_Serde.v | Closed under the global context |
| C58_hashed_roundtrip | Prop_Serde.v | Closed under the global context |
| C58_unsigned_input_roundtrip | Prop_Serde.v | Closed under the global context |
| C58_slp_roundtrip | Prop_Serde.v | Closed under the global context |
| C58_slp_utxo_roundtrip | Prop_Serde.v | Closed under the global context |
| C58_token_meta_roundtrip | Prop_Serde.v | Closed under the global context |
| C58_other_documents | Prop_Serde.v | Closed under the global context |
| C58_field_order | Prop_Serde.v | Closed under the global context |
| C58_panics_only | Prop_Serde.v | Closed under the global context |
| C58_wrong_size_panics_refuted | Prop_Serde.v | Closed under the global context |
| C58_value_equality_refuted | Prop_Serde.v | Closed under the global context |
| C58_hash_checked_refuted | Prop_Serde.v | Closed under the global context |
| C58_formats_disjoint | Prop_Serde.v | Closed under the global context |
| C59_debug_text | Prop_ErrorText.v | Closed under the global context |
| C59_debug_brackets_refuted | Prop_ErrorText.v | Closed under the global context |
| C59_number | Prop_Text.v | Closed under the global context |
| C59_script_text | Prop_Text.v | Closed under the global context |
| C59_text_determines_ops | Prop_Text.v | Closed under the global context |
| C59_text_determines_meaning | Prop_Text.v | Closed under the global context |
| C59_debug_determines | Prop_Text.v | Closed under the global context |
| C59_result_text | Prop_Text.v | Closed under the global context |
| C59_error_shows_operation | Prop_Text.v | Closed under the global context |
| C59_hash_debug | Prop_Text.v | Closed under the global context |
| C59_bytes_text | Prop_Text.v | Closed under the global context |
| C59_text_bytes_refuted | Prop_Text.v | Closed under the global context |
| C59_error_operator_refuted | Prop_Text.v | Closed under the global context |
| C60_texts | Prop_GenSource.v | Closed under the global context |
| C60_width | Prop_GenSource.v | Closed under the global context |
| C60_fails | Prop_GenSource.v | Closed under the global context |
| C60_tags | Prop_GenSource.v | Closed under the global context |
| C60_texts_refuted | Prop_GenSource.v | Closed under the global context |
| C61_roundtrip | Prop_Binary.v | Closed under the global context |
| C61_effects | Prop_Binary.v | Closed under the global context |
| C61_unambiguous | Prop_Binary.v | Closed under the global context |
| C61_borrowing_roundtrip | Prop_Binary.v | Closed under the global context |
| C61_address_roundtrip | Prop_Binary.v | Closed under the global context |
| C61_never_panics | Prop_Binary.v | Closed under the global context |
| C61_bincode | Prop_Binary.v | Closed under the global context |
| C61_bincode_layout | Prop_Binary.v | Closed under the global context |
| C61_stream_refuted | Prop_Binary.v | Closed under the global context |
| C61_bincode_stream_refuted | Prop_Binary.v | Closed under the global context |
| C61_hash_checked_refuted | Prop_Binary.v | Closed under the global context |
| C62_hash_lengths | Prop_Errors.v | Closed under the global context |
| C62_hash_texts | Prop_Errors.v | Closed under the global context |
| C62_encodings | Prop_Errors.v | Closed under the global context |
| C62_addresses | Prop_Errors.v | Closed under the global context |
| C62_address_index_refuted | Prop_Errors.v | Closed under the global context |
| C62_p2pkh_script | Prop_Errors.v | Closed under the global context |
| C62_push_too_large | Prop_Errors.v | Closed under the global context |
| C62_json_true | Prop_Errors.v | Closed under the global context |
| C62_json_faults_reported | Prop_Errors.v | Closed under the global context |
| C63_follows_calls | Prop_Asked.v | Closed under the global context |
| C63_change | Prop_Asked.v | Closed under the global context |
| C63_default_fee | Prop_Asked.v | Closed under the global context |
| C63_p2pkh_relay_fee | Prop_Asked.v | Closed under the global context |
| C63_p2pkh_estimate | Prop_Asked.v | Closed under the global context |
| C63_default_builder_refuted | Prop_Asked.v | Closed under the global context |
| C63_defaults | Prop_Asked.v | Closed under the global context |
| C63_default_values | Prop_Asked.v | Closed under the global context |
| C64_script_parts | Prop_Labels.v | Closed under the global context |
| C64_transaction_parts | Prop_Labels.v | Closed under the global context |
| C64_message_parts | Prop_Labels.v | Closed under the global context |
| C64_transaction_id | Prop_Labels.v | Closed under the global context |
| C64_signature_hashes | Prop_Labels.v | Closed under the global context |
| C64_group_names_lost_refuted | Prop_Labels.v | Closed under the global context |
| C64_short_push_name_lost_refuted | Prop_Labels.v | Closed under the global context |
| C65_message_determines | Prop_ErrorText.v | Closed under the global context |
| C65_numbers_shown | Prop_ErrorText.v | Closed under the global context |
| C65_address_message | Prop_ErrorText.v | Closed under the global context |
| C65_insufficient_amount_message_refuted | Prop_ErrorText.v | Closed under the global context |
| C65_indistinct_refuted | Prop_ErrorText.v | Closed under the global context |
| C66_what_equality_compares | Prop_Equality.v | Closed under the global context |
| C66_equality_is_equivalence | Prop_Equality.v | Closed under the global context |
| C66_equal_transactions_same_effect | Prop_Equality.v | Closed under the global context |
| C66_equal_hashed_same_id | Prop_Equality.v | Closed under the global context |
| C66_hashed_equality | Prop_Equality.v | Closed under the global context |
| C66_reading_again_is_equal | Prop_Equality.v | Closed under the global context |
| C66_roundtrip_equal_refuted | Prop_Equality.v | Closed under the global context |
| C66_equal_same_bytes_refuted | Prop_Equality.v | Closed under the global context |
| C66_hash_agrees_with_equality | Prop_Equality.v | Closed under the global context |
| C66_pubkey_order | Prop_Equality.v | Closed under the global context |
| C66_relative_lock_order | Prop_Equality.v | Closed under the global context |
| C66_token_order | Prop_Equality.v | Closed under the global context |
| C67_single_preimage | Prop_InputRef.v | Closed under the global context |
| C67_multiple_preimages | Prop_InputRef.v | Closed under the global context |
| C67_signing_keeps_preimages | Prop_InputRef.v | Closed under the global context |
| C67_shown_is_sent | Prop_InputRef.v | Closed under the global context |
| C67_recomputable | Prop_InputRef.v | Closed under the global context |
| C67_digest_fixes_transaction | Prop_InputRef.v | Closed under the global context |
| C67_made_up_reference | Prop_InputRef.v | Closed under the global context |
| C68_send | Prop_SlpTx.v | Closed under the global context |
| C68_send_names_genesis | Prop_SlpTx.v | Closed under the global context |
| C68_genesis | Prop_SlpTx.v | Closed under the global context |
| C68_change_before_receiver_refuted | Prop_SlpTx.v | Closed under the global context |
