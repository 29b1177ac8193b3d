{"id": "C01", "title": "VarInt codec is lossless, shortest-form and prefix-free", "statement": "For every u64 n, reading a var-int from the bytes written for n followed by any other bytes returns n and leaves exactly the other bytes; the written form is the shortest of the four var-int forms able to hold n; and no written var-int is a proper prefix of another. (The reader also accepts over-long forms: write(read(bs)) = bs is false in general.)", "quantifier": "every u64 and every trailing byte string", "why_tests_cant": "2^64 values times arbitrary suffixes; prefix-freeness relates all pairs of values", "anchors": ["bitcoin-cash-base/src/encoding_utils.rs: read_var_int, write_var_int, encode_var_int"]}
{"id": "C02", "title": "encode_minimally preserves the number and is minimal", "statement": "For every byte vector read as a little-endian sign-magnitude script number, encode_minimally returns a vector denoting the same number that satisfies the consensus minimality rule, is never longer than the input, is the unique minimal vector with that value, and is the identity exactly on vectors that were already minimal.", "quantifier": "every byte vector of every length", "why_tests_cant": "unbounded length vectors; the trimming loop has data-dependent length", "anchors": ["bitcoin-cash-base/src/encoding_utils.rs: encode_minimally"]}
{"id": "C03", "title": "Script integers survive encoding and decoding", "statement": "For every Integer i (|i| <= 2^31-1) encode_int yields at most 4 bytes, minimally encoded, and vec_to_int of it is Ok(i); distinct integers have distinct encodings; and for every vector of at most 4 bytes vec_to_int returns exactly its sign-magnitude value. For longer vectors the same would be expected (or an error), but vec_to_int silently returns a wrong number for some 5+-byte vectors. encode_bool gives the same bytes as the integers 0 and 1.", "quantifier": "every 32-bit script integer; every byte vector", "why_tests_cant": "2^32 integers and unboundedly many vectors", "anchors": ["bitcoin-cash-base/src/encoding_utils.rs: encode_int, vec_to_int, try_shl", "bitcoin-cash-base/src/op.rs: Op::to_integer"]}
{"id": "C04", "title": "Integer arithmetic is exact or reports an error", "statement": "For all script integers a,b: a+b, a-b, a*b, a/b, a%b, -a either return exactly the mathematical (truncated) result, which is in +-(2^31-1), or an error; the error occurs if and only if the result is out of that range or the divisor is zero, and no operation panics. Every Integer ever constructed lies in +-(2^31-1).", "quantifier": "every pair of script integers, every operator", "why_tests_cant": "2^64 operand pairs per operator", "anchors": ["bitcoin-cash-base/src/integer.rs: Integer::new, IntegerResult::op, Add/Sub/Mul/Div/Rem/Neg"]}
{"id": "C05", "title": "Integer errors are sticky and never compare equal", "statement": "Once a sub-expression of an integer expression is an error, the whole expression is an error, namely the left-most/first one evaluated; an erroneous IntegerResult is not equal to anything, including itself, and has no ordering to anything; non-error results compare like the mathematical integers. An arbitrary expression tree over + - * / % neg evaluates to n if and only if every sub-result is in range, and then n is its mathematical value.", "quantifier": "every expression tree over the operators", "why_tests_cant": "unbounded expression trees", "anchors": ["bitcoin-cash-base/src/integer.rs: IntegerResult::op, unop, PartialEq, PartialOrd"]}
{"id": "C06", "title": "Bitwise and shift operators", "statement": "For all script integers, &, | and ^ equal the two's-complement 32-bit operation or report an error exactly when the result would be -2^31; >> is arithmetic shift for amounts in 0..31 and an error otherwise; << is reduced modulo 2^32 (it is not exact: overflow of the value is not detected).", "quantifier": "every pair of script integers / shift amount", "why_tests_cant": "2^64 operand pairs", "anchors": ["bitcoin-cash-base/src/integer.rs: BitAnd, BitOr, BitXor, Shl, Shr"]}
{"id": "C07", "title": "NUM2BIN (ByteArray::from_int) is exact", "statement": "For every script integer i and length n > 0 (below 2^28): from_int succeeds iff |i| < 2^(8n-1); on success the result has exactly n bytes, they are a sign-magnitude encoding of i (so BIN2NUM recovers i), and otherwise an error is returned.", "quantifier": "every script integer and every requested length", "why_tests_cant": "2^32 integers times unbounded lengths", "anchors": ["bitcoin-cash-base/src/byte_array.rs: ByteArray::from_int"]}
{"id": "C08", "title": "ByteArray concat/split obey the byte-string laws", "statement": "For all byte arrays, however they were built: the data of concat(a,b) is a's data followed by b's; split(a,i) fails iff i > len(a), and otherwise returns two arrays whose data are the first i and the remaining bytes; hence concat after split gives back an equal array. Equality of byte arrays is equality of data only.", "quantifier": "every byte array tree and every split index", "why_tests_cant": "trees of unbounded depth; the split walks the provenance tree recursively", "anchors": ["bitcoin-cash-base/src/byte_array.rs: concat_named_option, concat, split, PartialEq"]}
{"id": "C09", "title": "Provenance of byte arrays stays consistent", "statement": "If every Plain node with preimages in an array's provenance tree carries exactly the concatenation of its preimages' data, the same holds for every array produced by any sequence of concat, split, from_parts, naming and hashing operations. This fails when splitting arrays made by signing functions. Nor is provenance lost: concat and from_parts keep every atomic part of their arguments in order, functions record their argument, naming keeps everything but the name, and split keeps every part on its side except at most one, which is cut in two unnamed pieces (marked as unexpected split if it was a hash).", "quantifier": "every sequence of byte-array operations", "why_tests_cant": "unbounded histories of operations over trees", "anchors": ["bitcoin-cash-base/src/byte_array.rs: ByteArray::{concat,split,from_parts,apply_function,named}, Function::should_keep_intact"]}
{"id": "C10", "title": "Script serialise-then-parse gives back an equivalent script", "statement": "For every sequence of ops whose pushes carry at most 2^32-1 bytes (and which contains no bare Op::Code(OP_PUSHDATA1/2/4) and no Op::Invalid holding a defined opcode byte), parsing the serialised bytes succeeds and gives, op for op, the same opcode or a push of the same stack bytes (with its is_minimal flag true exactly when the push was written in its shortest form); in particular serialising the parsed ops again gives the same bytes.", "quantifier": "every op list", "why_tests_cant": "unbounded op lists and push sizes across the 75/255/65535 boundaries", "anchors": ["bitcoin-cash/src/script.rs: serialize_ops, serialize_op, serialize_push_prefix, deserialize_ops"]}
{"id": "C11", "title": "Script parse-then-serialise", "statement": "For every byte string that parses as a script and whose pushes use the shortest push-prefix for their length, serialising the parsed ops gives exactly the same bytes. For other scripts it does not (non-shortest PUSHDATA prefixes are rewritten, so a re-serialised transaction gets another txid), but parse-serialise is idempotent: doing it twice equals doing it once.", "quantifier": "every byte string", "why_tests_cant": "unbounded byte strings", "anchors": ["bitcoin-cash/src/script.rs: deserialize_ops, serialize_ops", "bitcoin-cash-base/src/op.rs: Op"]}
{"id": "C12", "title": "The two script parsers agree", "statement": "The plain parser (deserialize_ops on bytes) and the provenance-keeping parser (deserialize_ops_byte_array) accept exactly the same byte strings and yield equal op lists, for every way the byte array was assembled from parts.", "quantifier": "every byte string and every provenance tree over it", "why_tests_cant": "product of unbounded byte strings and unbounded trees", "anchors": ["bitcoin-cash/src/script.rs: deserialize_ops, deserialize_ops_byte_array"]}
{"id": "C13", "title": "Script parsing is total and rejects exactly truncated pushes", "statement": "For every byte string the script parser terminates without panicking; it returns an error iff some push announces more bytes (or length-prefix bytes) than remain; otherwise every byte of the input is consumed by exactly one op.", "quantifier": "every byte string", "why_tests_cant": "unbounded, adversarial input", "anchors": ["bitcoin-cash/src/script.rs: deserialize_ops, deserialize_ops_byte_array"]}
{"id": "C14", "title": "Script code selection around OP_CODESEPARATOR", "statement": "to_script_code(None) is the whole script; to_script_code(Some n) is the suffix of the script that begins at the n-th OP_CODESEPARATOR, for every n smaller than the number of separators, and panics otherwise; to_script_code_first returns everything after the first separator, or the whole script. (The two conventions differ: Some(0) keeps the separator itself.)", "quantifier": "every script and index", "why_tests_cant": "unbounded scripts", "anchors": ["bitcoin-cash/src/script.rs: to_script_code, to_script_code_first"]}
{"id": "C15", "title": "BitcoinCode of values round-trips and is self-delimiting", "statement": "For every value of every serialisable type (integers, bool, fixed arrays, byte arrays, scripts, vectors, outpoints, inputs, outputs, transactions, sighash preimages): reading from ser(v) followed by arbitrary bytes yields v (up to fields declared skipped) and leaves exactly those bytes; hence ser is injective and prefix-free on each type.", "quantifier": "every value and every suffix", "why_tests_cant": "infinite types; suffix-independence ranges over all continuations", "anchors": ["bitcoin-cash/src/bitcoin_code.rs", "bitcoin-cash-code/src/lib.rs", "bitcoin-cash/src/tx.rs", "bitcoin-cash/src/tx_preimage.rs"]}
{"id": "C16", "title": "deser accepts only complete input", "statement": "deser(bytes) of any type succeeds only when the value's reader consumes every byte: any non-empty suffix appended to an accepted encoding is rejected with LeftoverBytes reporting exactly the suffix, and every proper prefix of a serialised transaction is rejected with an error. Reading a transaction from arbitrary bytes panics only when an announced number of inputs or outputs exceeds the maximum Vec capacity (13 bytes of input suffice for that).", "quantifier": "every accepted byte string and every suffix / prefix", "why_tests_cant": "unbounded byte strings", "anchors": ["bitcoin-cash/src/bitcoin_code.rs: BitcoinCode::deser", "bitcoin-cash/src/error.rs"]}
{"id": "C17", "title": "encode_all / decode_all of object lists", "statement": "For every non-empty list of values, decode_bitcoin_code_all(encode_bitcoin_code_all(vs)) = vs; decode_all on any bytes either consumes all input or errors. (The empty list does not round-trip: decoding empty input is an error.)", "quantifier": "every list of values", "why_tests_cant": "unbounded lists", "anchors": ["bitcoin-cash/src/serializer.rs: encode_bitcoin_code_all, decode_bitcoin_code_all"]}
{"id": "C18", "title": "Transaction hash coherence", "statement": "For every unhashed transaction, hashed() yields a Tx whose raw bytes are its serialisation, whose hash is the double-SHA256 of those bytes and whose unhashed part is the original. A Tx read back with deser keeps the raw bytes; its hash and parsed fields however are not restored (they are defaults).", "quantifier": "every transaction", "why_tests_cant": "infinite set of transactions", "anchors": ["bitcoin-cash/src/tx.rs: UnhashedTx::hashed, Tx"]}
{"id": "C19", "title": "CashAddr encode/decode round trip", "statement": "For every prefix, address type and 20-byte hash, from_hash yields exactly the CashAddr text of the specification; for every lower-case colon-free prefix, parsing it (in any letter case, or with prefix and colon left out when the prefix is the default one) returns the same prefix, type and hash; two distinct addresses never share text. (A prefix with an upper-case letter or a colon does not survive the round trip: witnesses.)", "quantifier": "every hash (2^160), type and prefix string", "why_tests_cant": "2^160 hashes and unboundedly many prefixes", "anchors": ["bitcoin-cash/src/address.rs: _to_cash_addr, _from_cash_addr, _convert_bits, _poly_mod"]}
{"id": "C20", "title": "CashAddr checksum detects typing errors", "statement": "For every accepted address text: any change confined to 8 consecutive payload characters (so any transposition of neighbours), and any one to four substituted payload characters wherever they are, make from_cash_addr return an error (invalid letter or checksum), never another address and never a panic. (Errors in the prefix are not always detected: only the low five bits of each prefix character are checksummed; witness.)", "quantifier": "every accepted text, every error pattern of these kinds", "why_tests_cant": "2^160 addresses times all error patterns", "anchors": ["bitcoin-cash/src/address.rs: _poly_mod, _verify_checksum, _calculate_checksum"]}
{"id": "C21", "title": "CashAddr parsing of untrusted text", "statement": "from_cash_addr accepts exactly the texts whose letters are in the alphabet, whose checksum is valid, which have 42 or 43 payload letters and announce type 0 or 8; accepted texts with 42 letters and zero padding bits equal, up to case and omission of the default prefix, the canonical text of the resulting address; it panics exactly on texts with a valid checksum and another number of payload letters; every other text yields an error. (So it is not panic-free and not canonical: witnesses.)", "quantifier": "every input string", "why_tests_cant": "unbounded adversarial strings", "anchors": ["bitcoin-cash/src/address.rs: _from_cash_addr, _map_from_b32, Address::from_cash_addr"]}
{"id": "C22", "title": "Address to script and back", "statement": "For every address, its locking script serialises to the standard bytes and script_destination of it is exactly that address (type and hash, under the requested prefix); a received script is reported as an address if and only if it reads as that template with a 20-byte push, and a script value reported as an address is equal to, and serialises to, that address' locking script; scripts starting with OP_RETURN are reported as null data with the remaining operations, push+OP_CHECKSIG as pay-to-pubkey, everything else as unknown. (Exceptions: a template whose pushed hash has not 20 bytes makes it panic; a P2SH template written with a longer push prefix is reported as an address although its bytes are not the standard ones.) Destination::address returns an address exactly in the address case.", "quantifier": "every address and every script", "why_tests_cant": "2^161 addresses and all scripts", "anchors": ["bitcoin-cash/src/destination.rs: script_destination", "bitcoin-cash/src/scripts.rs", "bitcoin-cash/src/address.rs: From<Address> for Script"]}
{"id": "C23", "title": "P2PKH spends are recognised", "statement": "For every signature, every flag set without undefined bits and every public key, the input script built by P2PKHSignatory is recognised by script_p2pkh_spend, which returns that same public key and flags, also after the script was serialised and parsed (for non-empty signatures of at most MAX_SIGNATURE_SIZE bytes); nothing is recognised that is not two data pushes, the second of 33 bytes, the first ending in a flag byte without undefined bits. (A flag byte with bit 0x20 or an empty signature read from bytes is not recognised.)", "quantifier": "every signature, public key and sighash flag set", "why_tests_cant": "huge product space", "anchors": ["bitcoin-cash/src/destination.rs: script_p2pkh_spend", "bitcoin-cash/src/scripts.rs: P2PKHSignatory"]}
{"id": "C24", "title": "Sighash preimages equal the specified digest message", "statement": "For every transaction, input index and sighash flag set, the preimage built for that input serialises to exactly the message the Bitcoin Cash replay-protected sighash specification (BIP143 layout) prescribes: version, hashPrevouts, hashSequence, outpoint, script code, value, sequence, hashOutputs, lock time, sighash type, with the zero hashes where ANYONECANPAY/NONE/SINGLE demand, SINGLE without matching output giving zero. The named flags combine to the types the protocol defines (DEFAULT is ALL with FORKID); the default value of the flags type, though, has no FORKID.", "quantifier": "every transaction, input index and flag byte", "why_tests_cant": "unbounded inputs and outputs times 32 flag combinations", "anchors": ["bitcoin-cash/src/tx_preimage.rs: TxPreimage::build_preimages", "bitcoin-cash/src/tx.rs: UnhashedTx::preimages"]}
{"id": "C25", "title": "What a signature commits to", "statement": "For any two signature messages (any transactions, inputs, flag sets) with the same bytes: unless they exhibit a collision of the hash function, flags, version, lock time and the signed input's outpoint, sequence, value and script code are the same; without ANYONECANPAY so are all outpoints, with ALL also all sequences, and all outputs unless NONE or SINGLE, with SINGLE the output of the same index. Conversely with ANYONECANPAY the message is independent of all other inputs; with NONE it is independent of all outputs; with SINGLE it depends on no output other than the one at the same index (on none if there is none).", "quantifier": "all pairs of transactions", "why_tests_cant": "relational property over all pairs of transactions", "anchors": ["bitcoin-cash/src/tx_preimage.rs: build_preimages"]}
{"id": "C26", "title": "TxBuilder never creates money", "statement": "For every builder whose input values, and whose fixed output values, sum to less than 2^64 (in a debug build: for every builder), whenever build returns a transaction the sum of its output values is at most the sum of its input values; build fails with InsufficientInputAmount(known - inputs) exactly when the fixed outputs exceed the inputs, and with no other error. Exceptions: with overflowing sums a release build can create money; build_without_estimation does not compare inputs and outputs.", "quantifier": "every builder content and fee parameters", "why_tests_cant": "unbounded lists of inputs and outputs", "anchors": ["bitcoin-cash/src/tx_builder.rs: build, make_outputs, known_output_sum, input_sum"]}
{"id": "C27", "title": "Leftover outputs respect their bounds and the fee", "statement": "Leftover (change) outputs are served in order of precedence, then position. Each one gets min(remaining - estimated_size * feerate / 1000, upper bound), where the size is that of the transaction with the outputs placed so far and this one; it is left out unless that is more than its lower bound. Hence lower < v <= upper for every placed output, the fee is at least estimated_size * feerate / 1000 once a leftover output was placed, and exactly that if some placed leftover output stays below its upper bound (for inputs whose scripts do not depend on the outputs). Exception: if no leftover output is placed, the fee may be below the requested rate and build does not report it.", "quantifier": "every builder content and fee parameters", "why_tests_cant": "unbounded lists, 64-bit arithmetic", "anchors": ["bitcoin-cash/src/tx_builder.rs: build"]}
{"id": "C28", "title": "Known outputs are preserved in order", "statement": "In every transaction obtained from a builder (build or build_without_estimation, then any signing history, then partial_tx or complete_tx), every fixed output appears unchanged and in insertion order; the only other outputs are leftover outputs, with their scripts, at their insertion positions; inputs appear in insertion order with their outpoints, sequences and values; version and lock time are those of the builder. build_without_estimation refuses leftover outputs. In terms of the caller's calls: for any list of add_input/add_output/add_outputs/add_leftover_output(_bounded)/set_fee_per_kb calls the finished transaction has exactly the asked inputs and outputs in call order, add_leftover_output means bounds 546 (dust) and none, the fee rate is the last one set, and add_input returns 0, 1, 2, ...", "quantifier": "every builder content", "why_tests_cant": "unbounded lists", "anchors": ["bitcoin-cash/src/tx_builder.rs: build, build_without_estimation, make_outputs"]}
{"id": "C29", "title": "Size estimate bounds the real size", "statement": "If every signatory's script with its placeholder signature is at least as long as with any signature used, the estimated size is at least the size of the final serialised transaction; this holds for P2PKH with signatures of at most MAX_SIGNATURE_SIZE (72) bytes. So whenever a leftover output was placed, the final transaction pays at least feerate/1000 per byte of its real size. Exception: inputs imported unsigned (from_tx) and signed with sign_input_signatory are estimated with an empty script. The placeholder preimage handed to signatories during estimation is exactly as long as the real preimage of that input.", "quantifier": "every number of inputs/outputs and every signature", "why_tests_cant": "unbounded number of inputs (var-int boundaries), all signature lengths", "anchors": ["bitcoin-cash/src/tx_builder.rs: estimate_size", "bitcoin-cash/src/scripts.rs: P2PKHSignatory"]}
{"id": "C30", "title": "Signing bookkeeping", "statement": "Each input can be signed exactly once: after any history a second attempt returns InputAlreadySigned; signing in any order gives the same transaction; signing changes the script of its own input only; the reference returned by add_input signs exactly that input with the script its signatory builds; a signature of the wrong type and an index out of range panic; complete_tx succeeds, with the same transaction as partial_tx, exactly when every input is signed (or was imported signed), and otherwise panics.", "quantifier": "every sequence of signing operations on every unsigned transaction", "why_tests_cant": "unbounded operation histories and all permutations", "anchors": ["bitcoin-cash/src/tx_builder.rs: UnsignedTx::{sign_input,sign_input_dyn,complete_tx,partial_tx}"]}
{"id": "C31", "title": "Multi-party hand-over keeps signatures", "statement": "Turning a partially signed transaction into a transaction (partial_tx) and re-importing it (from_tx) works, and keeps version, lock time, outputs, outpoints, sequences, recorded values, lock scripts and every signed input script bit for bit, and all signing messages (preimages); signed inputs stay signed; signing there with sign_input_signatory gives the same transaction as signing before. Exceptions: plain sign_input on an imported unsigned input stores an empty script and reports success; an imported input without a recorded value is signed with value 0.", "quantifier": "every partially signed transaction", "why_tests_cant": "unbounded transactions and signing histories", "anchors": ["bitcoin-cash/src/tx_builder.rs: TxBuilder::from_tx, build_without_estimation, partial_tx"]}
{"id": "C32", "title": "JSON transaction form is lossless", "statement": "For every transaction, reading back its JSON form (json_to_tx(tx_to_json(tx))) reproduces it: version, lock time, inputs, outputs, scripts, source positions and names, and for every pushed array data, name, function and the whole preimage tree; equal strings and equal data are stored once (array entries themselves are not shared); every index in the emitted tables is in range and an array's preimages are earlier entries; two transactions with the same JSON form are equal.", "quantifier": "every transaction with arbitrary provenance trees", "why_tests_cant": "unbounded nested trees with sharing through intern tables", "anchors": ["bitcoin-cash/src/serialize_json.rs: JsonTx::from_tx, make_tx, insert_byte_array, get_byte_array, insert_string"]}
{"id": "C33", "title": "JSON reader on untrusted input", "statement": "json_to_tx accepts exactly the JSON values of the documented file format (named fields exactly once, or a struct as an array of its fields; numbers within their integer types; compact array entries) whose tables have a meaning and returns the transaction they mean, every field of which is in the range of its type (so it can be written and read again); otherwise, if no array reference is missing or circular, it terminates with an error (wrong shape or out-of-range number, dangling string or data index, undecodable data, wrong hash length, integer out of range). Missing and circular array references are NOT reported: a missing array index panics, a cycle recurses without end, and n table entries can describe an array of 2^n nodes.", "quantifier": "every JSON object", "why_tests_cant": "adversarial, unbounded tables", "anchors": ["bitcoin-cash/src/serialize_json.rs: make_tx, get_byte_array, get_string"]}
{"id": "C34", "title": "Hash hex and byte-order conversions", "statement": "For every hash type and value, from_hex_le(to_hex_le h) = h and from_hex_be(to_hex_be h) = h; the two hex forms are byte reversals of each other; strings of wrong length or with non-hex characters are rejected with an error by the constructors.", "quantifier": "every hash value and every string", "why_tests_cant": "2^256 values, unbounded strings", "anchors": ["bitcoin-cash/src/hash.rs: Hashed", "bitcoin-cash-base/src/byte_array.rs: FixedByteArray::from_slice"]}
{"id": "C35", "title": "SLP outputs follow the SLP specification", "statement": "For every ticker, name, document url, document hash, decimals, baton position and quantity within the SLP limits, an independent SLP parser applied to the bytes of the produced OP_RETURN output recovers exactly these fields; likewise SEND for 1 to 19 64-bit amounts, with the token id written as wallets display it; whatever the parameters, every field is pushed in a form SLP allows (never OP_0, OP_1NEGATE, OP_1..OP_16). Exception: the limits are not checked, so parameters outside them (20 amounts, no amount, a document hash of 64 characters, ...) give an output that SLP parsers reject. Converting an SLP transaction back to a plain one keeps version, lock time, inputs and outputs.", "quantifier": "every field content and every amount list", "why_tests_cant": "unbounded strings and 64-bit amounts", "anchors": ["bitcoin-cash-slp/src/lib.rs: slp_genesis_output, slp_send_output, slp_amount_ops, TokenId"]}
{"id": "C36", "title": "Relative lock-time sequences", "statement": "For every 16-bit value, the sequence number for a time-based / height-based relative lock decodes under BIP68 to exactly that kind and value, so distinct lock times give distinct sequences.", "quantifier": "all 2^16 values and both kinds", "why_tests_cant": "needs all values of the two constructors together with the BIP68 reading", "anchors": ["bitcoin-cash/src/sequence.rs"]}
{"id": "C37", "title": "Nested IF/ELSE/ENDIF keep statement order", "statement": "A script body given to the script macro is accepted by its bracket parser exactly when its IF/NOTIF/ELSE/ENDIF brackets balance (every ELSE and ENDIF inside an IF, every IF closed); anything else is reported as an error, never a panic. Every properly bracketed body in which a conditional directly inside a then-branch has no ELSE and one directly inside an else-branch has an ELSE is parsed into exactly the tree that was written: same statements, same order, same branches. For every other properly bracketed body the result is determined: a statement goes to the then- or else-branch according to the IF or ELSE written last before it, even when that bracket belongs to an inner conditional that is already closed (so statements move to the wrong branch, or into an else-branch nobody wrote); and a second ELSE is silently lost.", "quantifier": "every list of statements, every nesting of conditionals", "why_tests_cant": "unbounded nesting", "anchors": ["bitcoin-cash-script-macro/src/parse.rs: parse_stmts, parse_op_if"]}
{"id": "C38", "title": "Variant predicates", "statement": "For every variant predicate (or of ands of possibly negated variables) and every list of branches taken, 'holds' is true exactly when some assignment of truth values agrees with the branches taken and makes the predicate true (for predicates without contradictory conjunctions; a contradictory one holds until its variable is decided); once all its variables are decided it is the predicate's boolean value; the empty predicate always holds; taking more branches never revives a variant, and a possible variant stays possible in at least one branch of every conditional. The text parser accepts exactly the texts 'a&&!b||c' whose names are non-empty, alphanumeric or underscore, and returns the predicate written (a non-ASCII first character of an unnegated name makes it panic).", "quantifier": "every predicate, every list of branches, every text", "why_tests_cant": "unbounded formula trees", "anchors": ["bitcoin-cash-script-macro/src/ir.rs: VariantPredicate::holds"]}
{"id": "C39", "title": "Compile-time stack tracking matches the script machine", "statement": "For every script the #[script] macro accepts, for every variant, every values of the inputs and every execution in which the conditionals go a way the variant's predicate allows: before each generated op the machine's main and alt stacks hold the items the op needs, under the names the author wrote for its inputs; the names recorded in the generated script for pushed items are the names of those items; the number pushed by depth_of / depth_of_offset is the real depth of the topmost item with that name, plus the offset; conditionals are properly closed; at the end the macro's tracked stacks carry exactly the names on the machine's stacks. The generated script has exactly one op per written statement (none for transmute), in order. Conditions: both branches of a conditional leave the same stacks (for variants that can take either), PICK and ROLL take a number produced by depth_of, the variants agree on what is popped (automatic for one variant, and for any number of variants in scripts without PICK/ROLL/depth_of and without renaming on the alt stack), OP_SIZE names its outputs, depth_of_offset has offset 0, and names do not start with the macro's own prefix __id_. Without each of these conditions there is a script the macro accepts whose generated code does not behave as tracked; OP_DEPTH without an output name makes the macro panic and OP_NOTIF is always refused. In a script without variants no input may carry a #[variant] attribute: one with an empty #[variant()] is pushed by the input struct but not tracked, and one naming the struct itself makes the macro panic.", "quantifier": "every macro script (any number of statements, nesting, variants and inputs), every variant, every assignment of truth values to conditions allowed by its predicate, every execution of the generated ops and every values on the stack", "why_tests_cant": "unbounded programs, nesting depths, stack depths, variants and executions", "anchors": ["bitcoin-cash-script-macro/src/state.rs: push, pop, pick_roll, find_item", "bitcoin-cash-script-macro/src/generate.rs: run_script, run_stmt, run_push, run_opcode, run_other_opcode, run_opcode_function, run_if", "bitcoin-cash-base/src/opcode.rs: Opcode::behavior, OpcodeBehavior"]}
{"id": "C40", "title": "Opcode byte table", "statement": "Opcode numbering is a bijection between the defined opcodes and the byte values 0x00, 0x4c..0xbd: converting an opcode to a byte and back is the identity, every other byte is not an opcode, and disabled opcodes are exactly the specified ones.", "quantifier": "all 256 bytes and all opcodes", "why_tests_cant": "whole table agreement with the parser over every script", "anchors": ["bitcoin-cash-base/src/opcode.rs: Opcode, is_disabled", "bitcoin-cash/src/script.rs: deserialize_ops"]}
{"id": "C41", "title": "Op::to_integer reads the number an op pushes", "statement": "For every op that pushes at most 4 bytes (as a byte array, boolean, integer or small-number opcode), to_integer returns exactly the script number those bytes denote; for every op that is not a push it returns None. (Longer pushes should give None, but some give a wrong number.)", "quantifier": "every op: all opcodes, all byte arrays up to 4 bytes, all booleans and integers", "why_tests_cant": "The domain is 2^32 byte strings and all ops; tests sample a few.", "anchors": ["bitcoin-cash-base/src/op.rs Op::to_integer", "bitcoin-cash-base/src/encoding_utils.rs vec_to_int"]}
{"id": "C42", "title": "Transactions are written and read in the Bitcoin wire format", "statement": "Serialising a transaction (or sighash preimage) yields exactly the documented Bitcoin wire layout with shortest length prefixes; deserialising accepts every wire encoding of a transaction and nothing that is not one, and only ever returns values that can be serialised again; re-serialising a transaction that was read reproduces the bytes if and only if they used shortest var-ints and shortest push prefixes, and never yields more bytes. (So a read-write cycle can change a transaction's bytes and id.)", "quantifier": "every transaction and every byte string", "why_tests_cant": "Requires agreement with the protocol on every transaction and on every accepted byte string, including non-canonical ones.", "anchors": ["bitcoin-cash/src/tx.rs: UnhashedTx", "bitcoin-cash/src/bitcoin_code.rs: BitcoinCode", "bitcoin-cash-code/src/lib.rs: bitcoin_code_macro_derive"]}
{"id": "C43", "title": "Text forms of hashes, arrays and public keys", "statement": "In human-readable formats a hash or fixed-size array is written as the hexadecimal text of its bytes (hashes in reverse) and read back to the same value for every value; plain byte arrays and public keys likewise; exactly the hexadecimal texts of the right length are accepted, other characters are an error. Exception: reading a hexadecimal text of the wrong length as a hash panics instead of failing (public keys report an error, but Pubkey::from_slice panics on any length other than 33).", "quantifier": "every hash size, array, public key and input text", "why_tests_cant": "the texts come from untrusted files and peers; all lengths and characters matter", "anchors": ["bitcoin-cash-base/src/byte_array.rs: Serialize/Deserialize for FixedByteArray, ByteArray", "bitcoin-cash/src/pubkey.rs: Pubkey"]}
{"id": "C44", "title": "derive(BitcoinCode) generates a faithful codec for every struct it accepts", "statement": "`#[derive(BitcoinCode)]` accepts exactly the structs with named fields whose field attributes are all of the form `#[..(skip)]` (and whose `#[bitcoin_code(..)]` attribute only names the crate). For every accepted struct whose declaration compiles, and for every choice of field types: `ser` is the concatenation, in declaration order, of the encodings of the fields that are not skipped, each part labelled with the field's name; skipped fields have no influence on the bytes; and if the field types on the wire round-trip and are self-delimiting, so is the struct: reading the bytes back, whatever follows them, restores every field on the wire, gives skipped fields their default, and leaves exactly what follows. The codecs of TxOutpoint, TxInput, TxOutput, UnhashedTx, Tx and TxPreimage are instances. Exception: the attribute's name is not checked, so `#[serde(skip)]` on a field also silently takes it off the wire.", "quantifier": "all struct declarations (any number of fields, any attributes), all field types with any codec, all values, all following bytes", "why_tests_cant": "the macro's input is an arbitrary declaration and the laws range over arbitrary field codecs and values; tests expand it for a handful of structs", "anchors": ["bitcoin-cash-code/src/lib.rs: generate", "bitcoin-cash/src/bitcoin_code.rs: BitcoinCode", "bitcoin-cash/src/tx.rs", "bitcoin-cash/src/tx_preimage.rs"]}
{"id": "C45", "title": "Pushing an API value pushes exactly its stack encoding", "statement": "For every value of a type that can be pushed (script integers, integer results, i32, booleans, byte slices, byte arrays, hashes, public keys, preimages): `to_pushop` gives an op that serialises to a shortest push of exactly the value's stack encoding (shortest script number; 01 or empty; the bytes; the preimage's wire encoding); a list of values pushed in order reads back as exactly those pushes in order; `to_data` is the item the op pushes; a length announced by `to_data_type` is the length of the item. `to_pushop` and `to_data` never return an error and panic exactly on a failed integer result and on i32::MIN; `StackItemData::from(op)` panics exactly on non-push ops.", "quantifier": "all values of the pushable types, all lists of them, all ops", "why_tests_cant": "ranges over all integers, all byte strings up to 4 GiB and all lists of values", "anchors": ["bitcoin-cash-base/src/data_type.rs", "bitcoin-cash-base/src/op.rs: from_int, from_array", "bitcoin-cash/src/hash.rs: to_pushop", "bitcoin-cash/src/pubkey.rs: to_pushop", "bitcoin-cash/src/tx_preimage.rs: to_pushop"]}
{"id": "C46", "title": "Equality of ops and scripts is an equivalence that respects meaning", "statement": "`==` on ops and scripts is reflexive, symmetric and transitive; two ops are equal exactly when they differ at most in the provenance of the pushed array and the minimality flag; source locations and stack item names are ignored; equal scripts are the same sequence of instructions. Exceptions: equal scripts can serialise to different bytes (minimality flag ignored), and scripts with identical bytes can compare unequal (PushInteger(1), Code(OP_1), PushBoolean(true)).", "quantifier": "all ops and scripts", "why_tests_cant": "an equivalence relation is a statement about all pairs and triples of scripts", "anchors": ["bitcoin-cash-base/src/op.rs: PartialEq for Op", "bitcoin-cash/src/tagged_op.rs: PartialEq", "bitcoin-cash/src/script.rs"]}
{"id": "C47", "title": "Addresses of keys and redeem scripts; equality and serde forms of addresses", "statement": "Address::from_pk gives the P2PKH address of the hash of the key's bytes and Address::from_redeem_script the P2SH address of the hash of the script's bytes, with the CashAddr text for the given prefix, the prefix kind exactly if the prefix is one of the two known ones, and the standard locking script asking for that hash. Equality of addresses compares everything the accessors show, including the text, so (named exception) the same address read from an upper-case and a lower-case text compares unequal. In human-readable serde formats an address is written as the text it was read from or built with and reads back equal; in binary formats every (type, 20-byte hash, prefix) is readable and the type, hash and prefix survive; the address read back is equal to the original exactly if the original carried the canonical text (so, named exception, not if it was read from an upper-case text or one without prefix).", "quantifier": "every public key, redeem script, prefix, 20-byte-valued hash function, address text and binary form", "why_tests_cant": "address texts, prefixes and hashes are unbounded; whether equality survives depends on how the address was created", "anchors": ["bitcoin-cash/src/address.rs: from_redeem_script, from_pk, from_hash, with_prefix, to_owned_address, into_owned_address, SerAddress, Serialize, Deserialize, AddressPrefix", "bitcoin-cash/src/pubkey.rs: as_byte_array"]}
{"id": "C48", "title": "Conversions between Rust integers and script integers", "statement": "Converting a number of any Rust integer type to an Integer or IntegerResult gives exactly that number if it is in +-(2^31-1) and otherwise the error naming the range that was left (-2^31; beyond 32 bits; beyond 128 bits), never a panic and never a changed number; types of at most 16 bits always convert. Operators, == and < between an IntegerResult and a Rust integer behave as with the converted number; if it does not convert, the result is the first error and nothing compares to it. serde writes an Integer/UInteger as its number and reads back exactly the numbers in (non-negative) range.", "quantifier": "every integer of every Rust integer type, every left operand and operator", "why_tests_cant": "2^128 inputs per conversion", "anchors": ["bitcoin-cash-base/src/integer.rs: From/TryFrom impls, UInteger, IntegerResult::op, Serialize, Deserialize"]}
{"id": "C49", "title": "Annotations never change bytes or outcomes", "statement": "Two values that differ only in annotations (names, recorded functions and preimages of byte arrays; source location, variable and item names of tagged ops) are indistinguishable on the wire and in every decision: scripts, outpoints, inputs, outputs, transactions and preimages serialise to the same bytes, byte arrays with the same bytes parse to values with the same content, the transaction id, script code, signature preimages, destinations and P2PKH spends are the same, and a whole TxBuilder session (construct, build, sign, complete, hash) run with annotations added, removed or changed ends in the same bytes and txid or in the same error or panic.", "quantifier": "every pair of values differing only in annotations, every codec, every builder history, every list of signing calls, both build modes, every hash function", "why_tests_cant": "relates pairs of runs over all annotations; a test compares a few named values", "anchors": ["bitcoin-cash-base/src/byte_array.rs: ByteArray", "bitcoin-cash-base/src/op.rs: TaggedOp", "bitcoin-cash/src/bitcoin_code.rs", "bitcoin-cash/src/tx.rs", "bitcoin-cash/src/tx_preimage.rs", "bitcoin-cash/src/tx_builder.rs", "bitcoin-cash/src/destination.rs"]}
{"id": "C50", "title": "Transactions and signatures are valid on the network", "statement": "The network (written down separately: byte format of transactions, signature-hash message, script interpreter with its limits, P2SH rule) reads a serialised transaction as exactly the transaction that was serialised. For every transaction assembled with the builder, finished by any sequence of signing calls: the preimages handed out are, byte for byte, the messages the network hashes for that input, amount, script code and hash type in the final transaction; a signed P2PKH input is valid for a coin of the stated value locked to the address if and only if the public key hashes to the address, the hash type is one the network accepts and the signature verifies for the handed-out message; a signed P2SH input is valid if and only if the redeem script hashes to the address, the unlocking script only pushes, and the redeem script succeeds on what it pushes.", "quantifier": "every list of builder calls, both build modes, every order of signing, every input, every hash type, every hash and signature function, every redeem script and signatory within consensus size limits", "why_tests_cant": "tests check a few transactions against a node; validity must hold for every transaction, sighash type and signing order", "anchors": ["bitcoin-cash/src/tx_builder.rs: TxBuilder, UnsignedTx", "bitcoin-cash/src/tx_preimage.rs: TxPreimage::build_preimages", "bitcoin-cash/src/tx.rs: UnhashedTx", "bitcoin-cash/src/scripts.rs: P2PKHSignatory, p2pkh_script, p2sh_script", "bitcoin-cash/src/script.rs: Script::serialize"]}
{"id": "C51", "title": "What is computed off-chain is what the script computes on-chain", "statement": "Take any expression built from Integer arithmetic (+, -, /, %, unary -, Integer::new(array.len())), byte array operations (concat, either half of split, ByteArray::from_int, the five digests) and a final ==, !=, <, >, <=, >= comparison, and the script consisting of the corresponding pushes and opcodes in postfix order, serialised by the library. If the Rust expression has a value, no intermediate byte string exceeds 520 bytes and the script is within the network's size limits, then executing the script's bytes on any stack leaves exactly the value's encoding on top of it. Conversely, if the script executes and leaves a number, the Rust expression has that value (byte strings and comparisons: whenever the script executes at all), so a locking script that performs a check is satisfied exactly when the Rust comparison is true. Multiplication and shifts, which Rust's integers offer, can never be used on-chain. Exceptions: OP_NUM2BIN accepts an overflowed sum and length 0, which from_int rejects.", "quantifier": "all expressions of any depth, all literals in range, all initial stacks, all environments (hash functions, signature checks)", "why_tests_cant": "Tests compare a few hand-picked sums; agreement must hold for every expression, including overflow at every intermediate position, truncating division of negatives, sign bytes and padding.", "anchors": ["bitcoin-cash-base/src/integer.rs: IntegerResult::op, IntegerResult::unop, PartialOrd for IntegerResult", "bitcoin-cash-base/src/byte_array.rs: ByteArray::concat, ByteArray::split, ByteArray::from_int", "bitcoin-cash/src/hash.rs: Hashed::digest", "bitcoin-cash/src/script.rs: serialize_op"]}
{"id": "C52", "title": "The opcode table describes what the network's opcodes do", "statement": "For every opcode that works on the main stack, Opcode::behavior() is a correct type and effect signature of the opcode as the network executes it: given inputs of input_types it consumes exactly those, leaves the rest of the stack, the alt stack and open conditionals alone and leaves results of output_types in the order and with the deltas declared (sums and differences may leave the integer range); with fewer inputs, or with a non-number where a number is declared, the script fails; opcodes outside a fixed list never fail on inputs of the declared types. is_disabled() is true only of opcodes that always fail and every other opcode (except OP_RETURN and PUSHDATA) can succeed; retains_input() is true exactly of the computing opcodes that leave their operand on the stack. Known wrong rows (refuted): the delta of OP_CHECKSIGVERIFY, the output order of OP_DEPTH, OP_NOTIF, and the item count of OP_ROLL.", "quantifier": "all opcodes, all stacks, alt stacks and open conditionals, all hash functions and signature checks", "why_tests_cant": "there are infinitely many stacks per opcode; the table is never executed against an interpreter in the repository", "anchors": ["bitcoin-cash-base/src/opcode.rs: Opcode::behavior, Opcode::is_disabled, Opcode::retains_input, OpcodeBehavior, StackItemDelta"]}
{"id": "C53", "title": "Executed by the network, a macro-generated script does what the macro tracked", "statement": "For every script accepted by #[bitcoin_cash::script] (under the hygiene and coherence conditions of C39), every variant and every valuation of the condition names satisfying the variant's predicate: when the network executes the serialised script on the inputs of that variant, then at every point of the execution the stacks, labelled with the author's names, are as the macro promises (each opcode finds enough items and the named inputs are the ones the author wrote), and after a completed execution the final stack has exactly the items, with the names, that the macro has for the variant - unless an executed OP_IF on a named item goes against the valuation. The input script leaves exactly the variant's inputs, in order.", "quantifier": "all scripts, variants, valuations, input values, hash and signature functions, all points of all executions", "why_tests_cant": "executions, stacks and scripts are unbounded; the repository has no interpreter to run generated scripts on", "anchors": ["bitcoin-cash-script-macro/src/generate.rs: run_script, run_stmt, run_opcode, run_other_opcode, make_tagged_op", "bitcoin-cash-script-macro/src/state.rs: VariantStates", "bitcoin-cash/src/script.rs: serialize_ops"]}
{"id": "C54", "title": "What an annotated Rust function means", "statement": "The #[script(..)] macro accepts a function exactly when: the attribute is a struct name followed by Variant=\"predicate\", crate=\"name\" and debug=bool arguments; there is no return type; every parameter but the first is a plainly named one with well-formed #[variant(..)] attributes; and the body consists of opcode names, calls of single names, pushed values, lets of these with name or tuple patterns, blocks, loops and conditionals in which every block's own OP_IF / OP_ELSE / OP_ENDIF are balanced. Then: the struct name, the crate (last one given), the variants with their predicates in order and the debug flag (default true) are those written; the first parameter gives the type the script method is put on and the others the inputs, with their names, types, variants (last #[variant] counts) and remaining attributes; a path or call is an opcode (a single name as an argument is a stack item, anything else an expression), every other expression a push, with the let's names as outputs; conditionals in the supported nesting are grouped with their statements, braces only group; doc lines after '# Struct' belong to the struct until '## Variant', then to that variant. The ops of the generated script are those of the source lines, in source order. The macro's parser panics only on a crate name that is no identifier or a non-ASCII predicate text.", "quantifier": "every list of attribute arguments, every function (any nesting of blocks, any number of parameters, attributes, doc lines), every classification of characters in which & | ! are not alphanumeric, every text and value of expressions", "why_tests_cant": "functions, nestings and attribute lists are unbounded; tests compile a handful of functions", "anchors": ["bitcoin-cash-script-macro/src/parse.rs: parse_script, parse_attrs, parse_docs, parse_script_inputs, parse_script_input, parse_stmts, parse_stmt, parse_stmt_expr, parse_opcode, parse_opcode_inputs, single_path, parse_doc_attribute", "bitcoin-cash-script-macro/src/ir.rs: Script, ScriptInput, ScriptDocs"]}
{"id": "C55", "title": "What the script macro generates", "statement": "An accepted #[script(..)] function expands to: a struct or enum with the given name and the docs collected for it; without variants a struct with one public field per input, in order, with the input's name, type and remaining attributes; with variants an enum with these variants, in order, each with its docs and, in order, exactly the inputs without #[variant] or naming that variant (variant names and the names in one #[variant] being distinct: a name given twice yields the field twice). A method with the function's name and attributes is put on the first parameter's type, taking &self if that is a reference type and self otherwise. ops() of a value pushes the fields of its variant in order, which are the names the script was checked with. The method's script has one op per line of the function (transmute aside), in source order: the pushed value, the opcode, or depth_of's number. With debugging every op carries file, line and column, the text of its own line at widths 30, 40, 60 and 80 and the names of what it pushes; without, nothing. Appending debug=.. changes only the tags, never the items, ops or bytes. Pushing a value of the inputs and running the script on the network starts with the fields' values on the stack under their names and ends with the items the macro tracked, unless a conditional goes against the variant's predicate. The expansion panics only where the parser or the stack tracker does, and on const generics. The library's own p2pkh_script and p2sh_script functions expand to the P2PKH and P2SH scripts used everywhere else.", "quantifier": "every attribute list, function, source text, formatter output, position reported by the compiler, value of the inputs, variant and network environment", "why_tests_cant": "functions, variants and inputs are unbounded, and the correspondence of op, line text, names and fields must hold at every position", "anchors": ["bitcoin-cash-script-macro/src/generate.rs: run_script, make_tagged_op, next_formatted_stmts, make_stmt_token_streams", "bitcoin-cash-script-macro/src/lib.rs: script", "bitcoin-cash/src/scripts.rs: p2pkh_script, p2sh_script", "bitcoin-cash/src/tagged_op.rs: TaggedOp"]}
{"id": "C56", "title": "Keys, signatures and spends made with the ECC back-ends are valid end to end", "statement": "Given curve libraries that meet their contract (parse 32-byte scalars and messages, produce valid signatures, read and write strict DER, check the ECDSA equation), both ECC back-ends behave as follows. sign fails with InvalidSize for a secret key that is not a 32-byte valid scalar (also when its size is 32), else for a message that is not 32 bytes; otherwise it returns the strict DER encoding, at most 71 bytes, of a low-S signature valid for the key, as a byte array recording the message it signs. derive_pubkey returns the 33-byte compressed key. Whatever one back-end signs verifies under the key's public key with either back-end; verify gives the equation's verdict on low-S signatures, the C back-end refuses high-S ones, and normalize_sig makes any signature low-S without changing its validity and is idempotent. No function panics, whatever the curve library returns; verify's errors are message size, signature format, public key. A coin locked to Address::from_pk(derive_pubkey(key)), added to a TxBuilder with the P2PKH signatory and signed with sign over the double SHA-256 of the preimage, is accepted by the network, unless the DER signature is exactly 64 bytes long (which the network reads as a Schnorr signature). The builder's size estimate bounds the real size for such signatures.", "quantifier": "all secret keys, messages, signatures, both back-ends, all curve libraries meeting the contract, all builder call sequences", "why_tests_cant": "The space of keys, messages and signatures cannot be enumerated; a 64-byte DER signature occurs with probability about 2^-50", "anchors": ["bitcoin-cash-ecc/src/c_ecc.rs: sign, verify, derive_pubkey, normalize_sig", "bitcoin-cash-ecc/src/rust_ecc.rs: sign, verify, derive_pubkey, normalize_sig", "bitcoin-cash/src/ecc.rs: ECC", "bitcoin-cash/src/address.rs: from_pk", "bitcoin-cash/src/scripts.rs: P2PKHSignatory", "bitcoin-cash/src/tx.rs: MAX_SIGNATURE_SIZE"]}
{"id": "C57", "title": "Scripts that rustc accepts are well-typed on the network", "statement": "The script macro emits, next to the ops, Rust code in which every stack item is a variable and every opcode a call of a mock function, so that rustc checks the types of the script. This never changes the ops, stacks or errors of the macro. A generated call is accepted exactly if its variables are in scope with types the function can be called with. The functions exist exactly for the opcodes the macro accepts, with as many parameters and results and the same permutation as the table of opcode behaviours. They are right about the network: an opcode that succeeds on operands of the parameter types (integers: minimally encoded numbers; Booleans: empty or 1; byte arrays: anything) leaves results of the result types in their places and changes nothing else. Hence for a script the macro and rustc accept, spent with values of the declared input types, every opcode executed on the network finds operands of its function's parameter types, and the items left at the end have the types of their variables, unless a conditional finds another truth value than the variant implies. This needs: no variable is bound again with a smaller type (in particular if none is bound twice), no downward transmute, numbers for OP_PICK/OP_ROLL come from depth_of with offset 0, and variants or branches that meet agree on types. Each of these is necessary: without it there are scripts that are accepted and reach an opcode with operands of the wrong type.", "quantifier": "all scripts (statements, nesting, variants, inputs, declared types), all input values of these types, all points of all executions on the network", "why_tests_cant": "A test runs a few scripts on a few inputs; the claim is about every script that compiles and every execution of it, and compares a table of 80 function signatures with the behaviour of the opcodes on all operands.", "anchors": ["bitcoin-cash-base/src/opcode.rs: func (2435-2830)", "bitcoin-cash-script-macro/src/generate.rs: run_script, run_push, run_opcode, run_other_opcode, run_opcode_function, run_if", "bitcoin-cash-script-macro/src/state.rs: StackItem, VariantStates", "bitcoin-cash-base/src/data_type.rs: BitcoinDataType"]}
{"id": "C58", "title": "The serde (JSON) form of transactions round-trips", "statement": "Serializing an UnhashedTx with serde to a human-readable format never fails and yields an object with its fields (camelCase), hashes as reversed hex and scripts as the hex of their length-prefixed bytes. Deserializing accepts every document of a transaction - fields in any order, unknown fields, optional fields missing or null, structs as arrays, either hex case, any encoding of length prefixes and pushes - and returns the transaction it describes, including lock scripts, values, P2SH marks and sighash flags that are not on the wire; it accepts nothing else, and a document describes one transaction only. Write-then-read keeps every script's instructions and bytes and all metadata, so the serialized bytes, the transaction id and all signature-hash messages are the same afterwards. The same holds for Tx, UnsignedTxInput, SlpTx, SlpUtxo and TokenMeta. Reading panics only if the document contains a hex text that is not 64 digits long - and does panic, rather than fail, when such a text stands for a transaction or token id. Not guaranteed: equality of the Op values (a pushed integer comes back as an opcode), that hash and raw of a deserialized Tx belong to its transaction (they are taken unchecked), or that the other JSON format (serialize_json) can be read with serde or vice versa (it never can).", "quantifier": "all transactions, inputs, outputs, SLP transactions and token data within the ranges of their types; all JSON trees whose texts fit in memory; all hash functions with 32-byte results; all sighash flags", "why_tests_cant": "The reader has to be right for every field order, unknown field, optional field, hex case and push encoding, and the round trip for every script; unit tests fix a handful of documents, and the panic needs a malformed hash.", "anchors": ["bitcoin-cash/src/tx.rs: TxOutpoint, TxInput, TxOutput, UnhashedTx, Tx (serde derives)", "bitcoin-cash/src/script.rs: Serialize, Deserialize for Script", "bitcoin-cash/src/tx_builder.rs: UnsignedTxInput", "bitcoin-cash/src/tx_preimage.rs: SigHashFlags", "bitcoin-cash-slp/src/lib.rs: SlpTx, SlpTxInput, SlpTxOutput, SlpTxData, SlpToken, SlpAction, SlpUtxo, TokenMeta", "bitcoin-cash-base/src/byte_array.rs: serde of ByteArray, FixedByteArray"]}
{"id": "C59", "title": "Displayed texts of scripts, numbers, errors and hashes are faithful", "statement": "Displaying a number gives its decimal numeral. Displaying a script gives one word per op, each followed by a space: the opcode's name, 0x and the lower-case hex of pushed bytes, OP_TRUE/OP_FALSE, the decimal numeral of a pushed integer, the hex of an invalid opcode. Scripts with the same text have the same ops up to array names and the way arrays are pushed, hence the same instructions; the debugging texts of ops determine the serialized bytes. The texts of integer results, errors included, determine the result. The debugging text of a hash determines its kind and bytes. An integer error's message shows the failed operation as it was written, except that subtraction, multiplication and right-shift errors show another operator. Not guaranteed: that the displayed text determines the serialized bytes (minimal and non-minimal pushes look alike) or the other way round. The debugging text of a pushed array has one closing parenthesis too many.", "quantifier": "all i32 numbers and integer results, all scripts whose ops are well formed (invalid opcodes are in 0xbe..0xff, pushed bytes are bytes), all hashes", "why_tests_cant": "That no two different scripts look alike is a statement about all pairs of scripts; unit tests can only compare a few.", "anchors": ["bitcoin-cash-base/src/op.rs: Display, Debug for Op", "bitcoin-cash/src/script.rs: Display for Script", "bitcoin-cash-base/src/opcode.rs: Display for Opcode", "bitcoin-cash-base/src/integer.rs: IntegerError, Display, Debug for Integer", "bitcoin-cash-base/src/byte_array.rs: Debug for ByteArray", "bitcoin-cash/src/hash.rs: Debug of hashes"]}
{"id": "C60", "title": "Ops of a debug script carry the formatted source of their statement", "statement": "With a working rustfmt (the program named by RUSTFMT, or else the installed one), the macro attaches to the op of every statement, for each of the widths 30, 40, 60 and 80, the text of exactly that statement, laid out by rustfmt at that width and moved to the left margin: one text per statement, in order, with inner indentation and blank lines kept; and no line of it is longer than the requested width if rustfmt keeps to the width it is given. Without rustfmt, or if rustfmt fails for a width, compilation fails with an error. Not guaranteed: string literals over several lines keep their value in the text; statements that mention the macro's separator function are not cut in two; output without the separator does not panic; carriage returns are removed.", "quantifier": "all lists of statements, all line widths, all rustfmt programs that lay out a function body by indenting each statement by four spaces, all environments", "why_tests_cant": "The texts are cut out of rustfmt's output with regular expressions; that no statement, blank line, indentation or neighbour confuses the cutting is a claim about all statement lists.", "anchors": ["bitcoin-cash-script-macro/src/gen_source.rs: format_stmts, format_token_stream, which_rustfmt, write_rustfmt_config", "bitcoin-cash-script-macro/src/generate.rs: run_script, next_formatted_stmts"]}
{"id": "C61", "title": "Values survive binary serde formats", "statement": "In every binary (not human-readable) serde format that reads back the integers, booleans, tags, lengths, variant numbers and texts it writes, a transaction, unsigned input, script, hash, public key, SLP transaction, SLP utxo or token description that is written and read back -- whatever follows it in the input -- is the same value: all fields including those that are not on the wire, scripts with the same instructions and bytes, hence the same serialisation, transaction id and messages to sign. No transaction's bytes begin those of a different one. Byte arrays, hashed transactions and addresses come back too if the reader can lend its input (an address with its canonical text). No input makes a reader panic. In bincode a transaction is exactly the little-endian layout of its fields. Not guaranteed: byte arrays, hashed transactions and addresses cannot be read at all from a reader that does not lend its input (a file, for example); the id of a hashed transaction is not checked.", "quantifier": "all values of these types, all formats meeting the contract, all following bytes, all input bytes", "why_tests_cant": "Round trips quantify over all transactions, scripts and formats; a test fixes one format and a few values, and which values are affected by borrowed reads or the double length prefix of scripts only shows when all types are considered.", "anchors": ["bitcoin-cash/src/tx.rs: TxOutpoint, TxInput, TxOutput, UnhashedTx, Tx", "bitcoin-cash/src/script.rs: Serialize for Script, Deserialize for Script", "bitcoin-cash-base/src/byte_array.rs: Serialize/Deserialize for ByteArray and FixedByteArray", "bitcoin-cash/src/pubkey.rs: Serialize/Deserialize for Pubkey", "bitcoin-cash/src/address.rs: SerAddress, Serialize/Deserialize for Address", "bitcoin-cash/src/tx_builder.rs: UnsignedTxInput", "bitcoin-cash-slp/src/lib.rs: SlpTx, SlpUtxo, TokenMeta"]}
{"id": "C62", "title": "Errors name what is wrong with the input", "statement": "An error the library returns is true of the input and specific: a hash made from a slice, byte array or text of the wrong size reports the expected and the actual size, a bad hex text is reported as such and nothing else fails; reading a consensus encoding (numbers, booleans, hashes, byte arrays, scripts, transactions and their parts, preimages) fails only because data is missing or because bytes are left over, and then it reports exactly the left-over bytes; a CashAddr text is refused exactly for its first letter outside the alphabet (with its place and the letter), a wrong checksum or an unknown version byte (with that byte); a push fails exactly for data of 2^32 bytes or more; asking a P2SH address for its P2PKH script is an invalid-address-type error; an error of the JSON reader names a fault the file has (the missing data or string number, the undecodable data, the hash of the wrong length, the number outside the script range), and a file with such a fault and sound references is always refused with one of its faults. Not guaranteed: the CashAddr letter is reported in lower case and its index counts from after the colon, so it need not be the place in the text.", "quantifier": "all slices, texts, encodings, CashAddr texts, JSON trees and base-64 decoders", "why_tests_cant": "That an error is reported if and only if its cause holds, with the right numbers, quantifies over every malformed input; tests pick single malformed inputs and mostly check only that some error occurs.", "anchors": ["bitcoin-cash/src/error.rs: Error", "bitcoin-cash-base/src/byte_array.rs: from_slice, split", "bitcoin-cash/src/address.rs: CashAddrError, from_cash_addr, map_from_b32", "bitcoin-cash/src/serialize_json.rs: JsonError, get_byte_array, json_to_tx", "bitcoin-cash/src/hash.rs: from_hex_be, from_hex_le", "bitcoin-cash/src/bitcoin_code.rs: deser", "bitcoin-cash-base/src/op.rs: serialize_push_prefix"]}
{"id": "C63", "title": "A builder does what its calls ask for; the defaults", "statement": "For every way of making a transaction builder and every sequence of calls on it, the finished transaction has the version and lock time asked for, spends the coins of the imported transaction and of the add_input calls in that order with their sequence numbers, and has the outputs of the calls in their order; every change output lies strictly above the lower and not above the upper bound it was added with (above 546 satoshis and unlimited for add_leftover_output), change is distributed by precedence, and the fee is at least the last rate set (exactly that rate for the estimated size if some change output is below its upper bound). A builder from new, new_simple or from_tx whose rate is never set pays one satoshi per byte of the estimate; a completed P2PKH payment with change then pays at least one satoshi per byte of its actual size, and each P2PKH input is estimated at 149 bytes. Instructions made from plain operations have no debugging data, the default transaction is version 1 and empty. Not guaranteed: TxBuilder::default() builds transactions of version 0 that pay no fee.", "quantifier": "all ways of making a builder, all sequences of calls, all signatories, all amounts (without 64-bit overflow in release builds)", "why_tests_cant": "Sequences of calls are unbounded and interact (rates set before or after outputs, several change outputs, imported transactions); tests run a handful of fixed sequences.", "anchors": ["bitcoin-cash/src/tx_builder.rs: TxBuilder::{new, new_simple, new_with_fee, from_tx, default, set_fee_per_kb, add_input, add_output, add_outputs, add_leftover_output, add_leftover_output_bounded, build, build_without_estimation}, DEFAULT_FEE_PER_KB, DUST_AMOUNT", "bitcoin-cash/src/scripts.rs: P2PKHSignatory", "bitcoin-cash/src/tagged_op.rs: TaggedOp::from_op", "bitcoin-cash/src/tx.rs: Default for UnhashedTx"]}
{"id": "C64", "title": "Serialised values and signature hashes record where their bytes come from", "statement": "The recorded origin of a serialised script, transaction or signature message consists of exactly the fields of the value, in order and under their names: numbers under the field's name, lengths under 'size', opcodes under the opcode's name, pushed arrays with their own recorded parts behind an unnamed push prefix, hashes as one part under the field's name with their own origin. A transaction id records the raw transaction it is the hash of. In a signature message for any transaction, input and flags, hashPrevouts, hashSequence and hashOutputs are named so and record that they are the hash of arrays called prevouts, sequences and outputs made of the outpoints, of the sequence numbers under the names sequence_0, sequence_1, ... and of the outputs; where the flags leave something out, they are the named zero hash; under SINGLE, hashOutputs is an unnamed hash of the fields of the one output. Not kept: the names of structures inside structures (outpoint_N, output_N, prev_out, inputs, ...) and the name and origin of an array pushed by a single opcode.", "quantifier": "all scripts, transactions, messages, flags and hash functions; all recorded origins of the arrays in them", "why_tests_cant": "Names and origins form trees of unbounded size, and equality of byte arrays ignores them, so tests that compare results cannot even see them.", "anchors": ["bitcoin-cash/src/tx_preimage.rs: TxPreimage::build_preimages", "bitcoin-cash/src/script.rs: serialize_op, serialize_push_bytes", "bitcoin-cash/src/bitcoin_code.rs", "bitcoin-cash-code/src/lib.rs", "bitcoin-cash-base/src/byte_array.rs: concat, from_parts, named", "bitcoin-cash/src/tx.rs: UnhashedTx::hashed"]}
{"id": "C65", "title": "Error messages identify the error", "statement": "The message of every error the library itself defines tells which error it is and shows every number the error carries (indices, lengths, expected and actual sizes, amounts, operands), each as a decimal numeral not embedded in a longer one, and leftover bytes in hexadecimal: two such errors have the same message only if they are the same error. Exceptions: all address errors converted to the general error read 'Invalid CashAddr' (the address error's own message does identify it), a data index and a string index missing from a JSON document read the same, and an insufficient input amount reads as a script serialisation error.", "quantifier": "all errors, all payloads, all texts of errors from other crates", "why_tests_cant": "Payloads are unbounded; two messages that coincide for some payload are only found by comparing all pairs.", "anchors": ["bitcoin-cash/src/error.rs: Error, ScriptSerializeError", "bitcoin-cash/src/address.rs: CashAddrError", "bitcoin-cash/src/serialize_json.rs: JsonError", "bitcoin-cash-base/src/byte_array.rs: ByteArrayError"]}
{"id": "C66", "title": "Equality, order and hashing of transactions, keys and tokens", "statement": "`==` on outpoints, inputs, outputs, transactions and hashed transactions is an equivalence relation that compares every field, also those not serialised (values, lock scripts, flags), scripts op by op up to provenance and minimality flag. Equal transactions are the same transaction (inputs, outputs, instructions); equal hashed transactions have the same id and raw bytes, and hashed() of two transactions compares equal exactly when they do and serialise alike. A script or transaction read from any bytes, written and read again compares equal to itself. Byte arrays, hashes, public keys and addresses feed a hasher the same data exactly when they compare equal. Public keys are totally ordered as big-endian numbers, relative locks as the sequence numbers they produce, SLP tokens by amount, baton, action. Exceptions: a transaction that was built (not read) need not compare equal to what reading its bytes gives, and equal unhashed transactions can serialise to different bytes and so have different ids.", "quantifier": "all pairs and triples of values; all byte strings that parse as a script or transaction", "why_tests_cant": "Equivalence and order laws range over all triples; re-reading over all byte strings.", "anchors": ["bitcoin-cash/src/tx.rs: TxOutpoint, TxInput, TxOutput, UnhashedTx, Tx (PartialEq)", "bitcoin-cash/src/tx_builder.rs: UnsignedTxInput", "bitcoin-cash-base/src/byte_array.rs: Hash for ByteArray, FixedByteArray", "bitcoin-cash/src/pubkey.rs: Pubkey (Ord, Hash)", "bitcoin-cash/src/address.rs: Address (Hash)", "bitcoin-cash/src/sequence.rs: CsvTimedelta (Ord)", "bitcoin-cash-slp/src/lib.rs: SlpToken (Ord)"]}
{"id": "C67", "title": "What is shown for signing is what is signed and sent", "statement": "The reference returned by add_input reads, from every unsigned transaction made of a builder that this input was added to, the preimages of exactly that coin (outpoint, sequence, value, script code of the locking script) and of exactly the flag sets of its signatory, in order, whatever was added to the builder afterwards; these are the preimages the signatory builds its script from when that input is signed. Signing never changes them. Recomputing the preimages from the finished transaction, completed or partial, after any signing history and for any list of flags gives back the same preimages, and recomputing always succeeds when the coins spent are known. A made-up reference panics exactly when there is no such input, or when a single preimage is asked for of an input with none. With flags other than ANYONECANPAY, NONE and SINGLE the digest of a preimage shown fixes the transaction: if the digests of preimages shown for any inputs of any two builds are equal, the two finished transactions agree in everything but the input scripts, or a collision of the hash function was found.", "quantifier": "every builder history, unsigned transaction, signing history, flag list and reference", "why_tests_cant": "Ranges over all builder and signing histories and over all later recomputations.", "anchors": ["bitcoin-cash/src/tx_builder.rs: UnsignedTx::{input_preimages,preimages}, InputReference::{new,input_idx}, SignatoryKind::make_tx_preimages", "bitcoin-cash/src/tx.rs: UnhashedTx::preimages"]}
{"id": "C68", "title": "SLP tokens arrive at the outputs they are meant for", "statement": "If the SEND message is the first output asked of a builder and the receivers' outputs follow it in the order of the amounts (at most 19), then whatever inputs are added and whatever is asked for after them (change included), an SLP indexer reading the bytes of any finished transaction, completed or partial, finds each amount at its receiver's output, no tokens at any other output, and none lost. Likewise GENESIS: the whole quantity at the output asked for next and the right to mint at the output named, if there is one. The message of a SEND built with the hash of a finished transaction names that transaction as the network does (its id), and, barring a hash collision, no other. Exception: a change (leftover) output asked for before a receiver's output is left out when too little is left over, and then amounts go to the wrong outputs or are lost.", "quantifier": "every list of builder calls, signing history, receiver list and genesis parameters", "why_tests_cant": "Ranges over all builder histories; needs the composition of output placement, serialisation and SLP parsing.", "anchors": ["bitcoin-cash-slp/src/lib.rs: slp_send_output, slp_genesis_output", "bitcoin-cash/src/tx_builder.rs: TxBuilder::{add_output,add_outputs,add_leftover_output,build,build_without_estimation}, UnsignedTx::{partial_tx,complete_tx}"]}
