{
"C01": {
"status": "proved",
"note": "Canonicity of the reader is false (over-long forms accepted): C01_read_canonical_refuted; the property statement says so."
},
"C03": {
"status": "proved",
"note": "vec_to_int is wrong on some 5+-byte vectors: C03_vec_to_int_right_or_error_refuted; exact behaviour in C03_vec_to_int_long (length < 2^29, beyond that the u32 shift counter overflows)."
},
"C06": {
"status": "proved",
"note": "Left shift is proved to be reduction modulo 2^32 as the statement says; its non-exactness is exhibited by a _refuted theorem."
},
"C07": {
"status": "proved",
"note": "Range n < 2^28 is in the statement; beyond it the byte count overflows and the code panics."
},
"C09": {
"status": "proved",
"note": "The exception the statement names (splitting arrays made by signing functions) is exhibited by a _refuted theorem."
},
"C10": {
"note": "Excluded ops are named in the statement; C10_bare_pushdata_refuted shows why.",
"status": "proved"
},
"C11": {
"note": "The statement itself says exact round trip fails for non-shortest prefixes; C11_parse_then_serialise gives the iff, C11_exact_roundtrip_refuted the witness.",
"status": "proved"
},
"C41": {
"note": "The failure on 5+-byte pushes, named in the statement, is C41_to_integer_long_refuted.",
"status": "proved"
},
"C16": {
"note": "The statement names the one panic (Vec::with_capacity); C16_deser_never_panics_refuted exhibits it, C16_deser_panics_only_on_capacity shows it is the only one.",
"status": "proved"
},
"C17": {
"note": "The statement names the failing empty list; C17_zero_size_items_diverge_refuted shows why items must occupy at least one byte.",
"status": "proved"
},
"C18": {
"note": "The statement names the defaults restored by deser; C18_deser_hash_refuted exhibits it.",
"status": "proved"
},
"C42": {
"note": "C42_reserialise_identity_refuted exhibits the byte-changing read-write cycle that the statement names.",
"status": "proved"
},
"C19": {
"note": "Full round trip, text characterised against an independent bit-string/LFSR specification; exceptions refuted with witnesses.",
"status": "proved"
},
"C20": {
"note": "Burst <= 8 for all texts; <= 4 arbitrary substitutions via a kernel-checked sweep of pair syndromes over all 43 positions lifted by linearity; prefix typos refuted.",
"status": "proved"
},
"C21": {
"note": "Exact characterisation of acceptance and of panics; panic-freedom and canonicity refuted with witnesses.",
"status": "proved"
},
"C22": {
"note": "Full classification proved as iff theorems; the two exceptions in the statement are exhibited by _refuted theorems (panic on wrong hash length, non-standard push prefix).",
"status": "proved"
},
"C23": {
"note": "Proved, with the two exceptions of the statement exhibited by _refuted theorems.",
"status": "proved"
},
"C24": {
"note": "The external hash is a parameter assumed only to return 32 bytes. An input without value or locking script panics (C24_unknown_value_or_script_panics).",
"status": "proved"
},
"C25": {
"note": "Collision freedom is not assumed: the conclusion is a disjunction with an explicit collision.",
"status": "proved"
},
"C26": {
"note": "Model of TxBuilder.build (tx_builder.rs). release=true models wrapping u64 sums, release=false panicking ones. C26_release_overflow_refuted and C26_without_estimation_refuted exhibit the two exceptions named in the property.",
"status": "proved"
},
"C27": {
"note": "The complete distribution rule (C27_leftover_rule) and its consequences. In a release build size*feerate must fit 64 bits (fees_fit). C27_low_fee_refuted is the exception named in the property.",
"status": "proved"
},
"C28": {
"note": "For every builder made with the API and every signing history.",
"status": "proved"
},
"C29": {
"note": "General theorem for all signatories plus the P2PKH instance; user signatories are arbitrary functions. C29_imported_refuted is the exception named in the property.",
"status": "proved"
},
"C30": {
"note": "For all signing histories mixing sign_input and sign_input_signatory. dyn Any downcasts are modelled by type ids.",
"status": "proved"
},
"C31": {
"note": "C31_sign_input_after_import_refuted and C31_missing_value_is_zero_refuted are the exceptions named in the property.",
"status": "proved"
},
"C32": {
"note": "base64 crate assumed to decode what it encodes (base64_ok; satisfied by an RFC 4648 implementation in Spec_Base64.v); JSON texts as JSON values (serde_json printing/parsing not modelled); map order irrelevant. tables_fit: fewer than 2^64 table entries."
},
"C33": {
"note": "File format given by the reader-independent relation file_of (Spec_JsonFile), meaning of tables by tx_means. The naive claim 'never panics, always terminates' is false: the _refuted theorems exhibit the crashing / diverging / exploding files for every decoder; the statement names these exceptions and everything else is proved.",
"status": "proved"
},
"C35": {
"note": "Full statement proved; C35_limits_unchecked_refuted exhibits the parameters accepted by the constructors that SLP parsers reject. The document hash parameter is a &str, so a 32-byte hash that is not UTF-8 cannot be passed at all (a typing fact outside the model).",
"status": "proved"
},
"C43": {
"note": "C43_hash_text_panics_refuted proves the exception named in the statement.",
"status": "proved"
},
"C34": {
"note": "For every n (20 and 32 are the types in the crate).",
"status": "proved"
},
"C37": {
"note": "The exceptions the statement names are exhibited by C37_every_nesting_refuted, C37_else_without_else_refuted and C37_second_else_refuted; C37_exact gives the parser's result for every properly bracketed body.",
"status": "proved"
},
"C38": {
"note": "Exceptions in the statement: C38_contradiction_refuted, C38_parse_no_panic_refuted.",
"status": "proved"
},
"C39": {
"note": "Against an independent labelled script machine (Spec_Macro.v). C39_tracks is the general theorem; C39_single_variant and C39_variants_static give checkable sufficient conditions; C39_emits says what is generated. The *_refuted theorems exhibit, for each condition, an accepted script that the tracker gets wrong.",
"status": "proved"
},
"C44": {
"note": "The generator is modelled as a function from declarations to generated statements (Model_Derive), with the meaning of the generated impl given separately. rustc's own demands (distinct field names, no field called `data`, which would be moved twice) are the hypothesis `compiles`. The attribute-path exception is C44_foreign_skip_refuted.",
"status": "proved"
},
"C45": {
"note": "All nine implementations of BitcoinDataType are modelled as one sum type (the five hash types share one case)."
},
"C46": {
"note": "The two exceptions named in the statement are C46_equal_scripts_same_bytes_refuted and C46_same_bytes_equal_scripts_refuted.",
"status": "proved"
},
"C47": {
"note": "Hash functions are parameters giving 20 bytes. The exceptions named in the statement are C47_binary_keeps_equality_refuted and C47_same_destination_equal_refuted. A binary form is modelled as the three SerAddress fields, not as the bytes of one particular serde format; deserialising the borrowed prefix (&str) additionally needs a format that can lend strings.",
"status": "proved"
},
"C48": {
"note": "isize/usize are modelled as 64-bit. A serde form is the i32 handed to or obtained from the format.",
"status": "proved"
},
"C49": {
"note": "twin_history/twin_sign_op pair two wallet sessions call by call; user signing code is assumed not to inspect annotations (twin_signatory), and the library's own P2PKH signatory is proved to satisfy that (C49_p2pkh_signatory).",
"status": "proved"
},
"C50": {
"note": "Spec_Network.v is the network side, written from the Bitcoin Cash specification (May 2020 rules), independent of the library model. CHECKMULTISIG, the two lock-time opcodes, hash functions and signature verification are arbitrary functions; the sigchecks limit and segwit recovery are left out. Concrete three-input transaction (ALL, SINGLE|ANYONECANPAY, P2SH) checked in C50_nonvacuous and C50_valid_nonvacuous.",
"status": "proved"
},
"C51": {
"note": "Compiler-style theorem: off_i/off_b/off_c evaluate with the modelled library functions, script_i/script_b/script_c are the postfix scripts, serialised with the modelled serialiser and run on the independently written interpreter of Spec_Network. Both directions by mutual induction over expressions. The converse needs 'guarded' (OP_NUM2BIN not applied directly to a sum or difference); C51_num2bin_refuted shows why.",
"status": "proved"
},
"C52": {
"note": "Holds with the exceptions named in the statement; C52_table_refuted exhibits the wrong rows. OP_CHECKMULTISIG(VERIFY) and OP_IFDUP have no behavior (panic, C52_behavior_panics). Signature checks and lock time checks are arbitrary functions of the environment.",
"status": "proved"
},
"C53": {
"note": "Combines C39 with the network's interpreter of Spec_Network (Proofs_MacroRun.lift: every step of the network lifts to a labelled step). The exception is stated as [diverted]; without OP_IF there is none (C53_straight).",
"status": "proved"
},
"C54": {
"note": "Against an independent grammar (Spec_MacroParse.v) over the syntax tree syn delivers. C54_body_accepted, C54_attribute, C54_parameters, C54_function(_accepted) are equivalences; C54_body gives the meaning of bodies in the supported nesting (what happens to other nestings is C38); C54_source_order composes with the code generator of C39. C54_panic_refuted exhibits the two panics.",
"status": "proved"
},
"C55": {
"note": "Two stated exceptions are shown: C55_const_generics_refuted (a const generic parameter makes the macro panic) and C55_duplicate_field_refuted (#[variant(A, A)] gives the field twice). C55_script covers bodies the grammar of C54 (block) describes; scripts with Rust loops or ifs are refused by the generator. rustfmt's output and source positions are parameters.",
"status": "proved"
},
"C56": {
"note": "The wrappers are modelled; the curve crates are arbitrary functions constrained by the contracts in Spec_Ecc.v (c_crate_ok, rust_crate_ok), which C56_contracts_satisfiable shows can be met. C56_64_bytes_refuted exhibits the excepted case.",
"status": "proved"
},
"C57": {
"note": "Proved for the modelled rustc check (scoping, shadowing, inference of type parameters); that rustc also rejects uses of moved variables is not modelled, which only makes more scripts accepted in the model. The necessary conditions are shown by the C57_*_refuted theorems.",
"status": "proved"
},
"C58": {
"note": "Serde's derive and serde_json follow their documented conventions in the model (JSON as a tree, numbers are integers). Proved for every transaction and every document. Three guarantees one might expect fail and are stated as _refuted theorems with witnesses: malformed hash lengths panic, Op values may change although bytes do not, and Tx.hash/raw are not checked.",
"status": "proved"
},
"C59": {
"note": "Proved for all scripts and numbers. The exceptions named in the property are _refuted theorems with witnesses: the text does not determine the bytes nor the bytes the text, and the messages of SubOverflow, MulOverflow and ShrOverflow show the wrong operator.",
"status": "proved"
},
"C60": {
"note": "Proved for every rustfmt meeting the stated layout contract (Spec_GenSource.v lays_out); rustfmt itself is outside the model. The four exceptions named in the property are shown by witnesses in C60_texts_refuted.",
"status": "proved"
},
"C61": {
"note": "Proved for every format meeting the contract sound_format (and lending) in Spec_Binary.v; bincode is shown to meet it. serde's derive is modelled as fields in order. The two exceptions named in the property are C61_stream_refuted and C61_hash_checked_refuted.",
"status": "proved"
},
"C62": {
"note": "Causes are stated about inputs in Spec_Errors.v. The exception named in the property is C62_address_index_refuted. Panics and non-termination on the other faulty inputs are the subject of C16, C20 and C33. The texts of the messages are modelled only where C59 says so.",
"status": "proved"
},
"C63": {
"note": "Calls and what they ask for are defined in Spec_Calls.v and Spec_Asked.v without reference to the builder's state; the distribution rule is that of C27. The exception named in the property is C63_default_builder_refuted.",
"status": "proved"
},
"C64": {
"note": "The parts of every kind of value are specified in Spec_Labels.v (the names of the opcodes themselves are pinned by C40). The exceptions named in the property are C64_group_names_lost_refuted and C64_short_push_name_lost_refuted.",
"status": "proved"
},
"C65": {
"note": "Texts of std, hex, base64 and serde_json errors are a parameter. The exceptions named in the property are C65_indistinct_refuted and C65_insufficient_amount_message_refuted.",
"status": "proved"
},
"C66": {
"note": "Derived implementations are modelled as the compiler generates them (field by field, in declaration order); the hasher is the sequence of calls made to it. The exceptions named in the property are C66_roundtrip_equal_refuted and C66_equal_same_bytes_refuted.",
"status": "proved"
},
"C67": {
"note": "The recomputation theorem speaks of transactions whose coins are all known (otherwise UnhashedTx::preimages panics, C24); the type parameter of a reference is an argument of the model.",
"status": "proved"
},
"C68": {
"note": "The indexer is specified in Spec_SlpTx on network transactions. The exception named in the property is C68_change_before_receiver_refuted.",
"status": "proved"
}
}