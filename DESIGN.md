# Formal model of be-cash/bitcoin-cash in Rocq (Coq 8.16.1)

## Layout

`rocq/theories/` (logical name `Verif`):

* `Base.v` – bytes, little/big-endian integers, the `outcome` type (`Ok`, `Err`, `Panic`).
* `Model_*.v` – the code, function by function; every definition cites `/repo` file:lines.
* `Spec_*.v` – small independent specifications (consensus rules, BIP143, BIP68, SLP, CashAddr...)
  that do not use the model's helpers.
* `Proofs_*.v` – lemmas.
* `Prop_*.v` – only the property theorems, each `exact`-ing a lemma, with non-vacuity `Example`s
  and `Print Assumptions`.
* `Digest.v`, `Digest_Facts.v` – SHA-256, SHA-1 and RIPEMD-160 (written from the standards) and the proof that they meet the
  contracts on digests that theorems assume (`real_hash32`, `real_hash20`).
* `Conform_*.v` – validation of the model, not proofs: every unit test of the repository (integer.rs, byte_array.rs, hash.rs,
  address.rs, deserializer.rs, script-macro/tests/test.rs) transcribed and evaluated on the model with the real digests,
  and published vectors (CashAddr specification, BIP143). All agree, with one exception: `deserializer.rs`'s `test_tx` calls
  `Tx::deser_rest` on a raw transaction, which at this commit reads a length-prefixed `raw` field instead (see C18); the vector
  is read as `UnhashedTx`.

Only the Coq standard library (ZArith, List, Lia, Bool, String, Permutation) is used.

## Modelling conventions

* A byte is a `Z`; `bytes_ok l` says that every element is in 0..255. Theorems over bytes carry
  `bytes_ok` where the Rust type `u8` guarantees it.
* Machine integers are `Z` with the Rust type's range as explicit hypothesis; wherever the Rust code
  does checked / wrapping / panicking arithmetic, the model does that explicitly. `+ - *` on Rust
  machine integers which overflow are modelled as the debug-profile panic (`Panic`), unless stated.
* `Result` = `Ok/Err`; a panic (index, `unwrap`, `expect`, slice length, arithmetic overflow in a debug
  build) is `Panic`. `io::Error` UnexpectedEof from a slice cursor = `Err EEof`.
* Memory allocation always succeeds, except `Vec::with_capacity(n)` whose capacity overflow panics.
* `Arc`, `Cow`, cloning and sharing are not modelled (values are immutable).
* SHA-256d, RIPEMD160, secp256k1 are external: theorems quantify over an arbitrary function
  (a `Section` variable discharged into a `forall`); the only thing ever assumed is the output length or,
  for commitment theorems, injectivity on the exact strings concerned, stated in the theorem.

## Properties: what is modelled and how it is proved

| id | model | method |
|----|-------|--------|
| C01 | `read_var_int`/`write_var_int` on byte lists | case split on the four forms, LE round trip lemma |
| C02 | `encode_minimally` with its trimming loop on index `i` | loop invariant; spec = sign-magnitude value and consensus minimality rule |
| C03 | `encode_int`, `vec_to_int` (i32 wrap-around in `checked_shl`) | value lemma by induction; refutation witness for 5 bytes |
| C04–C06 | `Integer::new`, `IntegerResult::op` and each operator over i32 | arithmetic (`lia`, bit lemmas); expression trees by induction |
| C07 | `ByteArray::from_int` | LE lemma, sign-bit lemma |
| C08, C09 | the provenance tree as nested inductive; `concat`, `split` (structural recursion) | custom induction principle; invariant over op sequences |
| C10–C13 | `serialize_ops`, both parsers (fuel = input length, shown never exhausted) | induction over ops / strong induction over bytes; declarative grammar as spec |
| C14 | `to_script_code*` | induction on op list |
| C15–C18 | `BitcoinCode` combinators and derived codecs | generic codec predicate "reader inverts writer on every suffix", closed under combinators |
| C19–C21 | base32, 5/8-bit regrouping, 40-bit polymod | bit-stream lemma; GF(2)-linearity; injectivity of the polymod step |
| C22, C23 | script patterns | case analysis on op lists |
| C24, C25 | `build_preimages` vs. a per-input BIP143 message | list lemmas; codec injectivity |
| C26–C29 | `TxBuilder::build` loops | loop invariants over lists |
| C30, C31 | `UnsignedTx` as a state machine | induction over operation histories |
| C32, C33 | intern tables; fuelled reader | prefix-monotone table invariant, custom tree induction |
| C34 | hex codec and reversal | induction |
| C35 | SLP output builders vs independent SLP parser over bytes | push lemma |
| C36 | `SequenceNumber` constructors vs BIP68 reading | bit lemmas |
| C37 | `parse_op_if` token loop vs. grammar tree | refutation witness; induction for the shapes which work |
| C38 | `VariantPredicate::holds` | induction on formulas |
| C39 | `StackItem` bookkeeping vs a concrete script-stack machine | simulation |
| C40 | opcode enum as byte table (generated by `tools/gen_opcode.py` from opcode.rs) | exhaustive finite sweep lifted with `forallb_forall` |
| C41 | `Op::to_integer` | script-number lemmas; refutation witness for long pushes |
| C42 | the codecs of C15 against a declarative wire format (`Spec_Wire`) | codec laws relative to a wire relation |
| C43 | hex/serde text forms of hashes, arrays, public keys | hex lemmas |
| C44 | `derive(BitcoinCode)`: attribute rules, generated `ser`/`deser`, as an interpreter over struct descriptions | induction over the field list with a heterogeneous codec environment |
| C45 | `DataType::to_pushop/to_data/from` | case analysis, minimal-push lemmas |
| C46 | `==` on ops, tagged ops, scripts | induction; refutation witnesses for the byte level |
| C47 | `Address` constructors, `==`, serde | CashAddr lemmas of C19 |
| C48 | `From`/`TryFrom` between Rust integers and script integers, mixed operators, serde | range arithmetic |
| C49 | every operation above run on two inputs differing in annotations | logical relation ("twins", `Spec_Twin`) preserved by every function |
| C50 | the network's side (`Spec_Network`: transaction bytes, signature-hash message, script interpreter, spending rule) against the whole builder | byte encoding proved prefix-free, so the reading is unique; the builder's preimages proved equal to the network's messages for the finished transaction; the interpreter run symbolically on the standard scripts |
| C51 | Integer / ByteArray / digest expressions (`off_*`) and their postfix scripts (`script_*`, Spec_OffChain) run on the interpreter of `Spec_Network` | straight-line scripts reduced to a stack function; forward and backward agreement by mutual induction on expressions; NUM2BIN via uniqueness of sign-magnitude encodings; two refuted corner cases of NUM2BIN |
| C52 | `Opcode::behavior`, `is_disabled`, `retains_input` (Model_Behavior, Model_Opcode) against the network's interpreter `step` of Spec_Network: types of items, order and deltas in Spec_Behavior.v | case analysis over all opcodes for arbitrary stacks: effect, missing inputs, wrong types, totality, disabled opcodes, constants, conditionals and alt stack; wrong rows of the table refuted |
| C53 | Script macro (Model_Macro) + serialisation (Model_Script) run on the network's interpreter (Spec_Network); Spec_MacroRun relates machine states to labelled configurations | each network step of an emitted op lifts to a step of C39's labelled machine (case analysis over all emitted opcodes), induction over executions, then C39_tracks |
| C54 | Front end of the script macro (parse.rs) over syn's tree (Model_MacroParse); independent grammar in Spec_MacroParse: lines, grouped conditionals, acceptance, attribute arguments, parameters, doc sections | mutual induction over expressions and statements both ways; composition with C39_emits for source order |
| C55 | Output of the script macro: items, fields, tags, method, `ops()` (Model_MacroOut: statements with texts, tagging, fields; rustfmt, texts and positions are parameters); Spec_MacroOut: source lines with texts, which input belongs to a variant, tagged/untagged | erasure of texts relates the two parsers; induction over groups for the order of texts; composition with C39, C53, C54; the two library functions computed symbolically |
| C56 | `Model_Ecc`: both back-ends over records of curve functions; `Spec_Ecc`: DER, low-S, the crates' contracts, the network's signature rule | case analysis on the wrappers; length bound from DER minimality; composed with C50 (network validity) and C29 (size estimate) |
| C57 | `Model_Mock` (generated table of the mock functions' signatures), `Model_MacroType` (the macro's tracker with the variables of the generated code, the generated lines, rustc's check); `Spec_MacroType`: types as sets of stack items, signatures, conditions | erasure to `Model_Macro`; opcode by opcode preservation of types; simulation of the network's steps by an invariant through nested conditionals (`Proofs_MacroType`–`8`) |
| C58 | `Model_Serde` (derived readers and writers walking a JSON tree in document order, `Script`'s own serde); `Spec_Serde`: which documents describe which transactions, sameness including off-wire fields | per type: writes a document / reads every document / reads only documents / panics only on odd hashes; congruence of serialization, hashing and sighash messages under "same code" |
| C59 | `Model_Text` (Display and Debug implementations producing character lists); `Spec_Text`: numerals and words as relations, what an error should show | decimal numerals unique; words contain no space, so a script's text splits uniquely; per-op injectivity |
| C60 | `Model_GenSource` (the program given to rustfmt, its configuration, regex split and dedent on characters); `Spec_GenSource`: statements as blocks of lines, what rustfmt writes for them | a separator match starts only at a marker; splitting inverts the rendering; dedenting inverts indenting; composition with C55 |
| C61 | `Model_Binary`: formats as records of primitive writers and readers, the derived and hand-written serde implementations over them, bincode as an instance; `Spec_Binary`: the contract of a format, round trips, bincode's layout | each type's round trip from those of its fields, for any rest of the input; no panics by the same composition, scripts by C16 |
| C62 | the error values with their payloads (`Base.err`, `cash_addr_err`, `json_err`) in all models; `Spec_Errors`: the cause of each error, stated about the input | both directions where the error is unique; for the consensus encodings one law per type (only short input, or exactly the left-over bytes) composed along the fields; for JSON, errors traced through the entry cache to an entry the transaction uses |
| C63 | programs of builder calls run on `Model_TxBuilder`; `Spec_Calls`, `Spec_Asked`: the version, coins, outputs, bounds and rate the calls ask for | induction over the calls relates the builder's state to what was asked; then C27, C28, C29 |
| C64 | provenance trees built by the codecs of `Model_Code`, `serialize_op` and `build_preimages`; `Spec_Labels`: the named parts of each kind of value | concat and from_parts keep parts (C09), naming changes only atoms; induction over scripts, lists and the three accumulation loops |
| C65 | `Model_ErrorText`: the Display of every error type; `Spec_ErrorText`: payloads, when a text shows a number, which errors share a message | case analysis over pairs of errors; decimal numerals are uniquely readable up to the next separator (C59) |
| C66 | `Model_Equality`: derived PartialEq/Hash/Ord of the data types; `Spec_Equality`: equivalence, total order, re-reading | equivalences compose over fields; re-reading: each op of a parsed script is written with its shortest prefix and parsed back to an equal op, lifted through the codec combinators of C15/C16 |
| C67 | `Model_InputRef`: preimage accessors of UnsignedTx and references; `Spec_InputRef` | the preimages of a build are a function of the builder alone; input by input they agree with those of the finished transaction by the dependence lemma of C25 |
| C68 | `Spec_SlpTx`: what an SLP indexer credits to each output of a network transaction; no new model | composition of C28 (order of outputs), C50 (bytes are the network transaction), C35 (the message parses) and C18 (the hash a token is named by is the id of the transaction that made it) |

Refuted statements carry the suffix `_refuted` and a concrete witness; the corresponding property text names
the exception. Partial statements would carry `_partial` (there are none at present).

C39 in more detail: the tracker (`Model_Macro`, generate.rs/state.rs/ir.rs) is compared with a stack machine that runs
a statement list on a main and an alt stack of symbolic items for one variant assignment. The simulation holds for
statement lists satisfying side conditions stated in the theorem (`script_clean`, `coherent`, ... in `Spec_Macro.v`); each excluded shape has a `_refuted`
theorem.

## What is modelled

| crate / file | model | not modelled there |
|---|---|---|
| base/encoding_utils.rs | `Model_Encoding` (all) | – |
| base/integer.rs | `Model_Integer`, `Model_IntConv` (all operators, conversions, serde), texts in `Model_Text` | – |
| base/byte_array.rs | `Model_ByteArray` (default feature), `Debug` in `Model_Text` | feature `simple-bytearray` (does not compile, see findings) |
| base/op.rs, script.rs, tagged_op.rs | `Model_Script`, texts in `Model_Text` | – |
| base/opcode.rs | `Model_Opcode` (enum, names, disabled, retains), `Model_Behavior` (behaviour table), `Model_Mock` (signatures of the mock functions) | the bodies of the mock functions, which only panic |
| base/data_type.rs | `Model_DataType` | – |
| bitcoin-cash/bitcoin_code.rs, tx.rs, serializer.rs | `Model_Code`; equality and hashing in `Model_Equality`; serde forms (also of script.rs, tx_builder.rs, tx_preimage.rs flags) in `Model_Serde` (JSON) and `Model_Binary` | self-describing formats other than JSON |
| bitcoin-cash/tx_preimage.rs | `Model_Preimage` | – |
| bitcoin-cash/address.rs | `Model_Address`, `Model_AddressApi` | – |
| bitcoin-cash/destination.rs, scripts.rs | `Model_Destination` | source tags of macro-generated scripts |
| bitcoin-cash/tx_builder.rs | `Model_TxBuilder` (release and debug arithmetic), `Model_InputRef` (preimage accessors) | – |
| bitcoin-cash/serialize_json.rs | `Model_Json` (JSON as a tree) | JSON text (serde_json) |
| bitcoin-cash/hash.rs, pubkey.rs, sequence.rs | `Model_Hash` | hash functions themselves (arbitrary functions) |
| bitcoin-cash/ops.rs | equality and list views via `Model_Script` | – |
| bitcoin-cash/error.rs | the error constructors with their payloads (`Base.err`), their messages (`Model_ErrorText`) | the texts of errors of other crates, the serde_json and base64 library errors inside `JsonError` |
| bitcoin-cash-code/lib.rs | `Model_Derive` | syn parsing of the attribute text |
| bitcoin-cash-slp/lib.rs | `Model_Slp`, serde forms in `Model_Serde` (JSON) and `Model_Binary` | self-describing formats other than JSON |
| bitcoin-cash-script-macro | `Model_Macro` (ir.rs, parse.rs brackets/predicates, state.rs, generate.rs checks), `Model_MacroParse` (the rest of parse.rs, from syn's tree), `Model_MacroOut` (generated items and tags), `Model_GenSource` (gen_source.rs) | rustfmt, syn's own parsing, the Rust tokens of the generated items |
| bitcoin-cash-ecc, bitcoin-cash/ecc.rs | `Model_Ecc` (both back-ends) | the crates secp256k1 and libsecp256k1: arbitrary functions, constrained by the contracts in `Spec_Ecc.v` |

Simplifications are stated in the comment of each definition. The ones that matter most:

* user code passed to the builder (signatories) is an arbitrary function returning a script, an error or a panic; signature
  values of dynamic type (`dyn Any`) are a pair of a type id and a value of that type;
* `HashMap`/`HashSet` iteration order in the script macro is a parameter of the model where it can matter;
* recursion in the JSON reader and in `decode_all` has fuel; theorems state the result for every sufficient fuel, or that no
  fuel suffices;
* debug and release arithmetic differ only where the code uses `+ - *` on unsigned integers or `sum`; there a
  `release : bool` parameter selects wrap-around.

## Trusted base

* Coq 8.16.1's kernel (including `vm_compute`, used for finite sweeps and examples).
* `Print Assumptions` reports "Closed under the global context" for every theorem in `MANIFEST.json`:
  the generated table is `ASSUMPTIONS.md` (`tools/gen_assumptions.py`). The axioms a loader-level scan sees are those of
  `Coq.ssr.ssrunder` (module-type fields of the standard library, loaded through Lia); no theorem depends on them.
* No axioms, no `Admitted`, no functors/module types, no kernel flags. Sections' variables are discharged into `forall`s.
* The reading of `/repo` recorded by the citations, in particular: Rust semantics of slices, cursors, integer casts,
  iterator adaptors and serde's data model as described in the comments.
* `Spec_*.v`: the specifications (consensus script numbers, push rules, wire format, BIP143 with BCH fork-id flags, BIP68,
  CashAddr, SLP token type 1) are transcribed from the public documents from memory.

## Seeded bugs

`seeded/LOG.jsonl` has one line per edit of the model in a scratch copy. The harness replaces `coqc` by a wrapper
which, when a lemma fails, admits it and goes on, then asks `Print Assumptions` which property theorems now
depend on an admitted lemma ("theorems failed"). As a broken proof script does not prove that the statement became
false, each line was also judged by reading; the claim named in the line is the one the edit falsifies.

## Findings (each is a theorem with suffix `_refuted` unless marked "by reading")

Encoding, numbers, scripts
* over-long var-ints are accepted (C01); `vec_to_int`/`to_integer` are wrong for some vectors of 5 or more bytes (C03, C41);
  `<<` is not exact (C06); `from_int` panics for lengths of 2^28 and more (C07);
* splitting arrays made by a signing function breaks provenance (C09);
* re-serialising a parsed script rewrites non-shortest PUSHDATA prefixes, so a parsed transaction's id can change (C11, C18);
  `Op::Code(OP_PUSHDATAn)` swallows the following bytes (C10); `to_script_code(Some(0))` keeps the separator that
  `to_script_code_first` drops (C14); byte 0xbd is accepted as an opcode without being one (C40);
* equal scripts can have different bytes and scripts with the same bytes can be unequal (C46);
  `to_pushop`/`to_data` panic on failed `IntegerResult`s and i32::MIN, `StackItemData::from` on non-push ops (C45).

Wire codecs
* 13 bytes announcing 2^64-1 inputs make `UnhashedTx::deser` panic (C16); `Tx::deser` leaves hash and unhashed
  transaction at their defaults (C18); `decode_all(encode_all([]))` is an error, and `decode_all` diverges for zero-size items (C17).

Addresses and destinations
* prefixes with upper-case letters or a colon do not round-trip; errors in the prefix can go undetected; the parser panics on texts with a
  valid checksum and a payload of other than 42/43 letters, and accepts 43 letters and non-zero padding (C19–C21);
* `==` on addresses compares the text, so the upper- and lower-case readings of one address differ, and a binary serde
  round trip changes equality (C47);
* `script_destination` panics on templates whose hash push is not 20 bytes and reports `a9 4c14 h 87` as a P2SH address (C22);
  `script_p2pkh_spend` rejects flag bit 0x20 and empty signatures (C23).

Signing and the builder
* preimages panic for inputs without value or lock script (C24);
* in release builds the sums wrap and money can be created; `build_without_estimation` does not compare sums (C26); a fee below the
  requested rate is not reported when no leftover output is placed (C27); imported unsigned inputs are estimated with an empty script (C29);
  `TxBuilder::default()` has version 0 and a fee rate of 0 (C63);
  `sign_input` on an imported unsigned input stores an empty script and succeeds; a missing value is signed as 0 (C31).

JSON, hashes, SLP
* missing array indices panic, cyclic references recurse forever, n entries can expand to 2^n nodes (C33);
* text forms of the wrong length panic for fixed arrays/hashes, `Pubkey::from_slice` panics on lengths other than 33 (C43);
* the SLP constructors do not check the SLP limits (C35).

Script macro and derive
* the bracket parser misplaces statements after nested conditionals, puts statements into an else nobody wrote and loses a second ELSE (C37);
  a contradictory conjunction `a && !a` holds until decided; predicate text with a non-ASCII first character panics (C38);
* tracker (C39): PICK/ROLL with a number not from depth_of are treated as depth 0; depth_of_offset is tracked without
  its offset; OP_SIZE without output names labels the size with the array's name; unbalanced branches go undetected; variants with
  differing depth numbers depend on hash-map order; naming a generated item defeats the variants' name check; OP_DEPTH
  without output name panics; OP_NOTIF is always refused;
* `derive(BitcoinCode)` (C44): the attribute path is not checked, so `#[serde(skip)]` drops a field from the wire; doc comments on fields are
  compile errors; a field named `data` never compiles;
* serde of transactions (C58): a hash text of the wrong length panics instead of failing; `Tx` takes `hash` and `raw` from the document
  unchecked; the serde JSON and the `serialize_json` format are mutually unreadable;
* texts (C59): the messages of `SubOverflow`, `MulOverflow` and `ShrOverflow` show `+`, `/` and `<<`; the displayed text of a script
  does not tell minimal from non-minimal pushes; the debugging text of a pushed array has an unbalanced `)`;
* source texts (C60): a string literal over several lines is shown with its continuation lines dedented; a statement naming the separator
  function is cut in two, shifting all later texts; with CRLF line ends every text starts with a carriage return;
* binary serde (C61): byte arrays, `Tx` and addresses are read as borrowed data, so nothing that contains them can be read from a
  stream (`bincode::deserialize_from`), although it can be written;
* errors (C62): the index in `InvalidBase32Letter` counts from after the colon and the letter is lower-cased; the message
  of `InsufficientInputAmount` is "Script serialize error: .." and that of `InvalidStringIdx` says "Invalid data_idx".
- Names given to composite parts are lost: `ByteArray::concat` merges the parts of plain concatenations, so `outpoint_N`, `output_N`, `prev_out`, `inputs`, … never appear in a recorded origin, and an array pushed by a single opcode (`OP_0`, `OP_1`…`OP_16`, `OP_1NEGATE`) leaves neither its name nor its origin; under SIGHASH_SINGLE `hashOutputs` has no name (C64).
- `SigHashFlags::default()` is 0, not `SigHashFlags::DEFAULT` (C24); the Debug text of `Op::PushByteArray` has an unmatched `)` (C59); `Error::InvalidCashAddr` hides its cause, `InvalidStringIdx` reads like `InvalidDataIdx` and `InsufficientInputAmount` like a script serialisation error (C65).
- Two `UnhashedTx` that compare equal can have different ids (the minimality flag of a push is ignored by `==`), and a built transaction is in general not `==` to the one read back from its bytes (C66).
- A leftover output placed before an SLP receiver's output shifts the token amounts when it is left out: tokens go to the wrong output or are burnt (C68).

By reading only: the feature `simple-bytearray` does not compile (`split` returns a String error, `named_option` is
missing).
