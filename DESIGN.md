# Formal model of fivebinaries/go-cardano-serialization in Rocq (Coq 8.16.1)

This file says what is modelled, how each property is stated and proved, and what has to be trusted.

## 1. Layout

* `rocq/theories/Model/*.v` – executable Gallina model, one file per Go package or file. No proofs. Every definition cites file and lines in `/repo`.
* `rocq/theories/Spec/*.v` – small independent specifications (about 800 lines): BIP-173 text, CIP-19 layout, base-128 naturals, hex, Base58, CRC-32, CBOR items and their encoding, the ledger's transaction format, Byron addresses, the Edwards curve with its addition law, BIP32-Ed25519 and the RFC 8032 verification equation. They use at most the model's data types, none of its functions. Two files say which values and program states the theorems range over and do mention the model: `Values.v` (address bytes, through C04) and `World.v` (states reached by running operations, the minimum fee of a builder).
* `rocq/theories/Proofs/*.v` – lemmas.
* `rocq/theories/Props/*.v` – the property theorems, each followed by `Print Assumptions` and an `Example` showing that a concrete, non-trivial case meets the hypotheses. Theorem names start with the property's id. `_partial` marks a theorem whose property is not proved in full (the comment says what is missing), `_refuted` a counterexample to the property as stated.
* `rocq/theories/Tests/*.v` – checks of the model against vectors in the repository's own tests and golden files. They are tests, not proofs, and no claim rests on them. `GoldenTx.v` runs the repository's end-to-end test (entropy, derivation, address, builder, change, signature, serialisation) and obtains both golden files bit for bit, except that the output of the 4096 PBKDF2 rounds is given as a literal.

| Go code | Model | Spec | Theorems |
|---|---|---|---|
| internal/bech32 | Bech32.v, Strings.v | Bech32Spec, BchSpec, CaseSpec | Props/Bech32.v, Props/UnicodeText.v |
| address, stake_credential, network | Address.v, Network.v | Cip19, AddressSpec, VarNatSpec, ByronSpec | Props/Shelley.v, Props/ShelleyExact.v, Props/Byron.v, Props/Text.v |
| sharing of byte arrays in address and bip32 | Memory.v | AddressSpec | Props/Memory.v |
| pointers kept by the callers of package tx | Pointers.v | Pointers, World | Props/Pointers.v |
| metadata maps shared with the callers of package tx | SharedMeta.v | World | Props/SharedMeta.v |
| transactions with nil pointers and missing addresses | NilTx.v | TxSpec | Props/NilTx.v |
| encoding/hex, btcutil base58, hash/crc32 | Hex.v, Base58.v, Crc32.v | HexSpec, Base58Spec, CrcSpec | Props/Shelley.v, Props/Byron.v |
| fxamacker/cbor | Cbor.v | CborSpec | Props/Byron.v, Props/Tx.v |
| tx, fees | Tx.v | TxSpec, MdSpec, MetadataSpec | Props/Tx.v, Props/Metadata.v, Props/Destination.v, Props/Spend.v |
| tx/tx_builder.go | Builder.v | TxSpec, WitnessSpec, CountSpec | Props/Builder.v, Props/Monotone.v, Props/BuilderExact.v, Props/Orders.v, Props/Twice.v, Props/FeeErrors.v, Props/Ledger.v, Props/Witnesses.v |
| crypto/crypto.go | Crypto.v, Bip32.v | – | Props/Node.v, Props/Bip32.v, Props/Digests.v |
| crypto/edwards25519 | Limb.v, EdwardsCode.v, EdwardsTable.v, Edwards.v | EdSpec, WindowSpec | Props/Edwards.v, Props/Window.v |
| bip32 | Bip32.v, Keys.v | Bip32Spec, WindowSpec | Props/Bip32.v, Props/ScalarExact.v, Props/Signatures.v, Props/Roots.v, Props/Leaks.v, Props/Verifier.v |
| node, protocol | Node.v, Queries.v, Submit.v | NodeSpec, FieldsSpec, QuerySpec, FsSpec | Props/Node.v, Props/Queries.v, Props/Submit.v |
| encoding/json as used by protocol.LoadProtocol and node/cardano-cli.go | Json.v | JsonSpec | Props/Json.v |
| examples (wallet recipes) | Wallet.v | WalletSpec | Props/Wallet.v |
| examples/address/simple_decode | Decode.v | AddressSpec | Props/Decode.v |
| examples/address/generate, examples/address/restore, go-bip39 | Mnemonic.v | Bip39Spec, FieldsSpec, RestoreSpec | Props/Mnemonic.v |
| tx/tx.go, tx/tx_builder.go (several goroutines) | Concurrent.v, Goroutines.v | RaceSpec, RegionSpec, World | Props/Concurrent.v, Props/Goroutines.v |
| bip32/bip32.go, crypto/edwards25519 (what they show through branches and accesses) | Leak.v | none: event lists are given in closed form | Props/Leak.v |
| examples/transactions/txbuilder (the payment) | Payment.v | TxSpec, WalletSpec | Props/Payment.v |
| crypto/sha256, sha512, hmac, x/crypto pbkdf2, blake2b | HashFns.v | – | Proofs/HashFacts.v |

## 2. Representation choices

* A Go `byte`/`uintN`/`intN` is a `Z`; wrap-around is written explicitly (`u8`, `u16`, `u32`, `u64`, `i8`, `i32`, `i64`) after every operation that can wrap. `uint` and `int` have 64 bits.
* A byte slice or string is a `list Z`; `bytes_ok`/`all_bytes` say every element is in 0..255. nil and empty slices are distinguished only where the CBOR encoder does.
* A function that may fail returns `result A := Ok a | Err e | Panic`. A panic (index or slice out of range) is a value, so "does not panic" is a theorem, and so is "panics".
* A Go slice expression is bounded by the capacity, not the length. Where a length check comes first this cannot be observed. In address.go:156 it can; there the bytes between length and capacity are an argument (`spare`), and the class `Runtime` says what the Go runtime leaves there. Theorems hold for every `Runtime`; the refutations of C13 and C64 use the layout of Go 1.17 (`go117`). The slice expressions of bip32.go on keys that are too short are in Model/Memory.v (C90); Model/Bip32.v takes capacity and length of a key as equal.
* strings.ToLower/ToUpper outside ASCII are the parameters `Unicode`. Model/Strings.v instantiates them with strings.Map over two case tables (`case_functions lo up`); C61_exact, C63_exact, C15_all, C64_bech32_all and C87_all hold for all byte strings and all tables that satisfy `case_tables` (Spec/CaseSpec.v). That the tables of package unicode satisfy it is trusted: they map ASCII as usual, and outside ASCII only U+212A and U+0130 have a lower-case form in ASCII. The other theorems about bech32 text hold for ASCII text and any `Unicode`.
* Pointers are plain values, except in the builder: Model/Builder.v has a heap of transactions, bodies, witness sets and key arrays, because C24, C29, C30, C34 and C35 are about sharing. `reachable w` means: some finite list of valid operations leads from the empty heap to `w`. All builder theorems quantify over reachable heaps. Model/Pointers.v adds the pointers to inputs, outputs and keys that the caller keeps (C91, C92); `C91_values` shows that it agrees with Builder.v as long as nobody writes through them. Model/SharedMeta.v adds the metadata maps the caller keeps (C100); `C100_states` shows that every state it reaches is one of Builder.v. Model/Memory.v has byte arrays and slices for the functions of packages address and bip32 whose results share memory with their arguments (C88–C90); `C88_parse`, `C89_exact` and `C90_exact` show that it agrees with Address.v and Bip32.v.
* Go's map iteration order is the class `MapOrder`: the n-th marshalling of a metadata value visits its maps in the order `map_order n`. `runtime_order` says only that this is a permutation at every level.
* BLAKE2b-256, public keys and signatures used by package tx are the class `TxCrypto`; theorems that need sizes assume `hash_ok` (32 bytes) and `key_sizes` (32 and 64 bytes). `tx_crypto H` (Model/Keys.v) instantiates the class with the modelled package bip32, and `tx_crypto_hash`, `tx_crypto_sizes` (Proofs/KeyFacts.v) prove these assumptions for it.
* SHA-256, SHA-512, HMAC-SHA-512, PBKDF2 and BLAKE2b are the class `Hashes`. Theorems hold for all functions that return byte strings of the declared length (`hashes_ok`). No theorem assumes collision resistance: where it would be needed, the conclusion offers the collision of two named encodings as an alternative (C22, C23, C24, C32). Model/HashFns.v defines the actual functions from their standards, and `real_hashes_ok` (Proofs/HashFacts.v) shows that they satisfy `hashes_ok`; Tests/HashVectors.v has known answers.
* The field, scalar and point code of edwards25519 is transcribed statement by statement into a small straight-line language (Limb.v) whose semantics wraps at int32/int64 after each operation. Theorems about it say that no operation wraps under the stated bounds and what is computed.

## 3. Proof structure of the larger parts

* **Bech32.** Regrouping is given a bit-list meaning (ConvertBits). The checksum register is GF(2)-linear (Polymod); detection of one or two substitutions and of bursts follows from linearity and a finite sweep of the 5-bit symbols, for texts of any length (two substitutions: within the period of the polynomial, see the theorem). `BchFacts` shows that the register is the residue over GF(32) of BIP-173, and bounds the code's minimum distance: four up to 1023 symbols and five up to 89, by two sweeps over all positions and symbol ratios with a set stored in a trie.
* **CBOR.** `CborSpec.item` is a data type of data items with its canonical encoding; the encoder of the model is shown equal to it, the encoding is uniquely readable, and the reader of the model accepts exactly the well-formed encodings (C67).
* **JSON.** The scanner is shown to accept exactly the grammar of RFC 8259 (JsonFacts); keys are unquoted to code points, UTF-8, escapes and surrogate pairs included, and compared under case folding (JsonKeys); the decoded struct is the one the document states (JsonDecode).
* **Builder.** An invariant over heaps (`Inv`), preserved by every operation, gives ownership of bodies and witness sets; histories are lists of operations.
* **Field arithmetic.** `Fermat`, `Primes`: Pocklington certificates for 2^255-19 (and, in PrimeOrder, for the group order); `FieldFacts` builds the field, `LimbFacts` proves by interval arithmetic that the Go semantics and exact arithmetic agree, `RadixFacts`/`FieldEl`/`FieldBytes` give the values.
* **Curve.** `CurveFacts`, `GroupFacts`: completeness, associativity and the other group laws of the affine addition law. `PointFacts`: every formula of the Go code implements it for extended, projective, completed, cached and precomputed coordinates (`repr_ext e P` reads: the coordinates `e` are within the code's bounds and denote the affine point `P`).
* **Tables.** `TableCert`, `TableFacts`: all 32x8 entries of the base table and the 8 entries of `bi` denote the right multiples of the base point, by a certificate checked by computation in the kernel.
* **Scalar multiplication.** `ScalarMult` computes, for every 32-byte scalar, the multiple actually produced (`effective`); it is the scalar itself exactly up to `digit_limit` = 0x8777…7 (C41_exact). `SlideFacts` does the sliding-window recoding.
* **Order.** `PrimeOrder`: the base point has exactly the prime order l, so multiples are equal iff the scalars agree modulo l.

## 4. Properties

`properties.jsonl` has the English statements, `MANIFEST.json` the status and the theorems. A property that is false of the code as stated is listed as `partial`, with its refutation and the strongest true version that was proved. These are defects of the code or of the statement; the ones with practical weight are:

* C07 pointer addresses have no text form; C17 reward addresses cannot be marshalled; C21 Byron outputs are embedded as arrays, so the ledger cannot read them; C60 Byron addresses of test networks are rejected.
* C09, C12, C14 non-canonical inputs are silently normalised; C13, C64 truncated base addresses read memory behind the slice; C15 the prefix of a text is not compared with its content.
* C26 fees are too low with two or more keys; C27 change wraps around when inputs do not suffice; C28 zero change outputs; C29 a placeholder witness stays in the transaction; C33 a stale auxiliary data hash; C34 built transactions share their body with the builder; C35 builders made from one slice share keys.
* C74 `harden` returns soft indices from 2^31 on.
* C75 the payment example's fee is too low when the change lies just above 2^32 lovelace.
* C76 the payment example spends the last sufficient output, not the first, and builds a transaction from nothing when there is none.
* C88 an address parsed from a byte slice changes when the slice is written to; C89 NormalizeBytesForce3rd writes to its argument; C90 keys cut short sign with the memory behind them; C91 a built transaction changes when the caller writes to an output it was given; C92 a key wiped before Build signs with its new bytes.
* C72 four mistyped characters can turn a base address into another valid one.
* C23, C24, C32 with metadata maps of two or more entries, hash and bytes may disagree.
* C41, C51, C53 scalars with the top bits set (never produced by derivation from a root key, C39) give wrong points.
* C55 mainnet and testnet flags are swapped, C56 the UTXO listing always panics or returns nothing, C57, C68 silent truncation.
* C77 pointer addresses of other test networks get the prefix of the main network; C86 the magic in a Byron address's network attribute is ignored by NetworkInfo; C80 missing protocol parameters load as 0 without an error, so fees are 0; C82 the submitted envelope has an empty type; C83 options and values are passed to cardano-cli as one argument; C84 the blockfrost backend returns the quoted answer instead of the transaction id.

### Per property: what is modelled and how it is proved

| | Modelled | Proof | Theorems |
|---|---|---|---|
| C01 | Bech32.v encode, decode; regrouping as bit lists, checksum by linearity | induction on the text | C01_roundtrip |
| C02 | decode; converse of C01 for ASCII text: what decode accepts is what encode prints | ConvertBits (padding unique), DecodeFacts | C02_canonical, C02_injective, C02_alphabet |
| C03 | polymod; the register's difference after one or two changed symbols is not 0 | linearity + finite sweep of symbols and of the period | C03_one_substitution, C03_two_substitutions |
| C04 | addr_bytes against Cip19.v | case analysis, bit arithmetic of the header | C04_layout, C04_constructors |
| C05 | NewAddressFromBytes after addr_bytes | header case analysis, VarNat round trip | C05_bytes_roundtrip |
| C06 | NewAddress after addr_string | C01 + C05; prefix dispatch | C06_string_roundtrip, C06_bip173 |
| C07 | pointer String: btcutil's 5-bit encoder given 8-bit data | refuted for every pointer address: the header byte exceeds 31 | C07_refuted, C07_partial |
| C08 | NewAddressFromBytes with spare capacity; panic as a value | exact case analysis on header and length | C08_panic, C08_panic_hex |
| C09 | NewAddressFromBytes, then addr_bytes | exact condition proved; three families of counterexamples | C09_exact, C09_valid, C09_exact_partial, C09_base_trailing_refuted, C09_nibble_refuted, C09_overlong_refuted, C19_trailing_refuted |
| C10 | addr_bytes, addr_string | from the round trips C05, C06 | C10_bytes_injective, C10_text_injective |
| C11 | VariableNatEncode, VariableNatDecode against VarNatSpec | induction on base-128 digits | C11_varnat_roundtrip, C11_varnat_minimal |
| C12 | VariableNatDecode | induction; counterexamples for overlong and overflowing items | C12_decode_partial, C12_overlong_refuted, C12_overflow_refuted |
| C13 | NewAddressFromHex; hex.DecodeString's buffer is the spare capacity | HexFacts; counterexample for short base addresses | C13_exact, C13_go117, C13_hex_partial, C13_refuted |
| C14 | network table of NewAddressFromBytes and the prefixes | case analysis; every nibble 2..15 is a counterexample | C14_exact, C14_network_partial, C14_text_partial, C14_no_rejection, C14_unknown_network_refuted |
| C15 | NewAddress's HasPrefix tests | counterexample family | C15_all, C15_exact, C15_any_prefix, C15_refuted, C15_partial |
| C16 | ToEnterprise, ToReward | equations of the layouts | C16_projections, C16_fields |
| C17 | MarshalCBOR of each kind | CBOR head lemma; reward marshals a function value | C17_exact, C17_marshal_partial, C17_reward_refuted |
| C18 | byron_bytes, byron_unmarshal, Base58 text | CBOR round trip, C20 | C18_layout, C18_bytes_roundtrip, C18_string_roundtrip |
| C19 | byron_unmarshal with every leniency of the decoder (tags, null, bignums, arrays as strings, keys as text) | exact acceptance set against ByronSpec; counterexamples for other CBOR forms | C19_wrong_checksum, C19_exact, C19_trailing_refuted, C19_forms_refuted |
| C20 | Base58.v | positional values, leading zeros | C20_roundtrip, C20_text |
| C21 | tx_Bytes against TxSpec.v | encoder equals the canonical encoding of the specified item; unique readability | C21_partial, C21_new, C21_fields_unique, C21_byron_refuted, C21_reward_error |
| C22 | body bytes and hash | injectivity of the CBOR encoding; collision as alternative | C22_bytes, C22_hash |
| C23 | Hash, Bytes under a map-order policy | definitional for witnesses; two-entry map as counterexample | C23_no_witness, C23_hash_of_bytes_partial, C23_refuted, C32_orders |
| C24 | Builder.v heap, Build | heap invariant over all histories | C24_build, C24_hash_partial, C24_rebuild_partial, C24_keys_partial, C24_order_exact, C24_order_refuted, C24_orders, C24_next_refuted |
| C25 | Fee | unfolding, effect on the heap record | C25_formula, C25_any_order, C25_effect |
| C26 | MinFee, AddChangeIfNeeded, Build | sizes of CBOR heads (FeeFacts); three counterexample families | C26_all, C26_enough, C26_exact, C26_partial, C26_keys_refuted, C26_boundary_refuted, C26_equal_refuted, C26_placeholder |
| C27 | AddChangeIfNeeded | sums modulo 2^64 | C27_exact, C27_refuted |
| C28 | AddChangeIfNeeded | frame statement over the heap | C28_exact, C28_partial, C28_zero_refuted |
| C29 | MinFee | frame statement; placeholder witness as counterexample | C29_exact, C29_bytes, C29_partial, C29_refuted |
| C30 | Build after any history | heap invariant | C30_only_own_keys |
| C31 | all builder operations | induction over histories, ghost lists of added inputs and outputs | C31_accumulate, C31_added |
| C32 | CalculateAuxiliaryDataHash, Bytes | as C23 | C32_exact, C32_partial, C32_refuted, C32_orders |
| C33 | CalculateAuxiliaryDataHash; histories of calls that set, write and clear metadata | counterexample for every transaction and history; exact hash by induction over histories | C33_partial, C33_refuted, C33_exact, C33_never, C33_history_refuted |
| C34 | Build, later operations | frame; shared body as counterexample | C34_exact, C34_partial, C34_refuted, C34_bytes_refuted |
| C35 | two builders in one heap | ownership invariant; shared key array as counterexample | C35_keys_exact, C35_transactions, C35_owner, C35_keys_partial, C35_unshared, C35_keys_refuted |
| C36 | NewTxInput | HexFacts | C36_valid, C36_exact, C36_malformed_refuted |
| C37 | NewXPrv, FromBip39Entropy | bit arithmetic of the clamped bytes | C37_NewXPrv, C37_error, C37_FromBip39Entropy |
| C38 | Derive, add28mul8, add256bits against Bip32Spec | carry chains = addition modulo 2^256 | C38_derive, C38_parts, C38_short |
| C39 | iterated Derive | invariant on the scalar with an explicit budget | C39_paths, C39_total |
| C40 | HMAC messages of Derive | lengths and tags | C40_messages, C40_domains, C40_soft |
| C41 | Public, Hash | C49's general form (`effective`) | C41_public_partial, C41_exact, C41_refuted, C41_hash, C41_all |
| C42 | *FromBytes | case analysis | C42_constructors |
| C43 | ScReduce (straight-line code, 64-bit wrap) | interval analysis + residues modulo l | C43_ScReduce |
| C44 | ScMulAdd | as C43 | C44_ScMulAdd |
| C45 | ScMinimal | lexicographic comparison of limbs | C45_ScMinimal |
| C46 | Fe operations (int32/int64 code) | interval analysis + ring identities modulo p | C46_linear, C46_products, C46_no_overflow, C46_invert |
| C47 | FeToBytes, FeFromBytes | carry chain = reduction modulo p | C47_encode, C47_canonical, C47_decode, C47_roundtrip, C47_tests |
| C48 | point formulas | field identities; completeness of the addition law | C48_formulas, C48_group, C48_complete, C48_functional |
| C49 | GeScalarMultBase, tables | recoding, table certificate, group laws | C49_scalarmult, C49_base, C49_tables, C49_order, C49_exact |
| C50 | Sign | C43, C44, C49 and the group laws | C50_sign, C50_derived, C50_deterministic, C50_exact |
| C51 | Derive, Public for soft indices | order of the base point (PrimeOrder); counterexample above 2^255 | C51_follow_partial, C51_same_partial, C51_derived, C51_refuted, C51_exact, C51_same_exact |
| C52 | FromBytes, ToBytes of points | square roots modulo p | C52_roundtrip, C52_decode, C52_injective |
| C53 | slide, GeDoubleScalarMultVartime | window invariant; lost carry as counterexample | C53_exact, C53_base, C53_partial, C53_mod, C53_carry_refuted, C53_refuted |
| C54 | FeCMove, selectPoint, equal, negative | xor masks | C54_cmove, C54_select, C54_point, C54_tests |
| C55 | execCommand | case analysis; swapped flag as counterexample | C55_refuted, C55_partial |
| C56 | UTXOs of the command line backend | row loop by induction; panic proved for every non-trivial output | C56_panic_refuted, C56_empty_refuted, C56_rows_partial |
| C57 | UTXOs of blockfrost | induction on the list; truncations as counterexamples | C57_partial, C57_exact, C57_error, C57_refuted |
| C58 | getNetwork, NewBlockfrostClient | case analysis | C58_network |
| C59 | NewCardanoCliNode | case analysis | C59_partial, C59_refuted |
| C60 | byron_unmarshal on Cardano's layout | computed on the general layout | C60_refuted, C60_mainnet_partial |
| C61 | decode, strings.Map with case tables | exact set of panicking byte strings; Kelvin sign as counterexample | C61_exact, C61_refuted, C61_no_panic, C61_non_ascii_refuted |
| C62 | polymod | linearity + rank of six consecutive symbols | C62_burst |
| C63 | decode, strings.Map with case tables | exact set of accepted byte strings; Kelvin sign as counterexample | C63_exact, C63_refuted, C02_non_ascii_refuted, C02_canonical |
| C64 | text and hex entry points, spare capacity | counterexample; panic with exact capacity | C64_bech32_all, C64_exact, C64_bech32_exact, C64_hex_exact, C64_text_refuted, C64_hex_refuted, C64_exact_capacity_partial |
| C65 | Base58.v decoding | positional values | C65_decode_exact, C65_decode_injective, C65_decode_bad |
| C66 | Crc32.v against the polynomial definition | table = eight shifts; linearity for bursts | C66_crc, C66_burst |
| C67 | Cbor.v reader against CborSpec | structural induction with fuel | C67_reader, C67_unique, C67_canonical, C67_limits |
| C68 | ProtocolParameters of blockfrost | case analysis on strconv | C68_parameters, C68_error, C68_refuted |
| C69 | Build with Keys.v | C24 + C50 | C69_signed, C69_total, C69_hash_partial, C69_exact |
| C70 | encode, decode against BchSpec (GF(32)) | field isomorphism of register and residue | C70_decode_exact, C70_encode |
| C71 | decode | minimum distance 4 up to 1023 symbols, by certificate | C71_three_substitutions |
| C72 | decode | minimum distance 5 up to 89 symbols, by certificate; explicit pair beyond | C72_four_substitutions_partial, C72_base_refuted |
| C73 | Wallet.v recipes | C37–C41, C16, C06, C69 | C73_paths, C73_base_address, C73_restore, C73_text, C73_spend, real_hashes_ok |
| C74 | harden | modular arithmetic | C74_harden_partial, C74_exact, C74_refuted, C74_value |
| C75 | Payment.v main | C26's exact sizes specialised to the example | C75_payment, C75_fee_exact, C75_fee_refuted |
| C76 | Payment.v selection loop | induction on the list; counterexamples | C76_last_partial, C76_first_refuted, C76_nothing_refuted |
| C77 | Prefix of each kind | case analysis; counterexample for pointers | C77_prefix, C77_pointer_partial, C77_pointer_refuted |
| C78 | Json.v scanner against JsonSpec | induction on grammar and on fuel | C78_syntax, C78_unambiguous |
| C79 | LoadProtocol | field-by-field fold over the members | C79_load, C79_cli, C79_failure, C79_ranges |
| C80 | LoadProtocol | counterexample; converse for non-zero parameters | C80_refuted, C80_partial |
| C81 | QueryTip | as C79 | C81_cli, C81_blockfrost |
| C82 | SubmitTx's file | JSON grammar + HexFacts | C82_file, C82_type_refuted |
| C83 | argument lists | computed; counterexample | C83_refuted, C83_partial |
| C84 | bf_submit with the server as a function | computed; counterexample for every id | C84_partial, C84_refuted |
| C85 | tx_hex, body_hex | HexFacts | C85_hex, C85_valid, C85_body |
| C86 | addr_network, MainNet, TestNet | case analysis against literals; counterexample for every Byron address with an attribute | C86_network_partial, C86_constructors, C86_magic_refuted |
| C87 | NewAddress on text, base58 and bech32 | equivalence with BIP-173 and base58 texts; panic exactly for no bytes or a short base address | C87_all, C87_exact, C87_typo_refuted |
| C88 | Memory.v: arrays and slices, the parser over them, text entry points | refinement of the parser; bytes of an address in any later state of memory | C88_exact, C88_refuted, C88_reuse_refuted, C88_parse, C88_text, C88_hex, C88_derived |
| C89 | Memory.v: NormalizeBytesForce3rd with its writes, parts of keys | exact memory after the call, also after a panic | C89_exact, C89_panic_refuted, C89_parts |
| C90 | Memory.v: Sign and PublicKey bounded by capacity | equality with Sign on the bytes reachable | C90_exact, C90_cut_refuted, C90_public_refuted |
| C91 | pointers to TxInput and TxOutput structs held by bodies, writes through them (Model/Pointers.v) | simulation by the value model without writes; exact effect of a write; body injectivity for the signed transaction | C91_values, C91_pointers, C91_exact, C91_refuted |
| C92 | key slices held by builders, writes to their bytes | Build reads the bytes of that moment; witnesses are copies | C92_exact, C92_refuted, C92_after |
| C93 | tx_bytes with metadata that is nil inside the interface | exact condition from the CDDL items; counterexample family | C93_exact, C93_nil_refuted, C33_refuted |
| C94 | tx_bytes, tx_hex, tx_hash, tx_fee on all transactions | induction over outputs and metadata; permutation invariance | C94_exact |
| C95 | tx_bytes, metadata values | metadata format as an inductive predicate on CBOR items; counterexample family | C95_exact, C95_refuted |
| C96 | XPrv.Sign, Public | verification equation on multiples of the base point; primality of l | C96_message, C96_unique, C96_derived |
| C97 | XPrv.Sign | injectivity of multiples of the base point modulo l | C97_nonce, C97_leak |
| C98 | Derive, publicKey | 8 zL stays below l, so that multiples of the base point tell HMAC values apart | C98_siblings, C98_derived |
| C99 | Derive along paths | scalars are multiples of 8 in [2^254, 2^255), so no multiples of the prime l | C99_order |
| C100 | transactions and caller sharing metadata maps (SharedMeta.v) | invariant: every transaction shows its map; write as a sequence of assignments; counterexample family | C100_states, C100_build, C100_exact, C100_refuted |
| C101 | AddChangeIfNeeded, MinFee | sizes of what the two calls of MinFee measure, compared part by part | C101_exact, C101_refuted |
| C102 | Build, Sign, Hash | C24 and C96 for each witness; C22 for the encodings | C102_witness |
| C103 | transactions with nil pointers (NilTx.v) | encodings as CBOR items with null; unique readability; agreement with Tx.v | C103_values, C103_panic, C103_exact, C103_refuted |
| C104 | MinFee, AddChangeIfNeeded | C94 for the measured transaction | C104_exact, C104_refuted, C104_built_refuted |
| C105 | AddChangeIfNeeded, Build, tx bytes; the limits are quantities of the statement since the code never reads them | C28's form of the body after change; size formula of Proofs/FeeFacts.v bounds the number of outputs | C105_change, C105_refuted, C105_size_refuted |
| C106 | AddChangeIfNeeded over Inputs; the ledger's reading of inputs as a set is spec (ledger_value) | induction on the list of references; C27_exact | C106_exact, C106_refuted |
| C107 | the query of blockfrost.go:36-63 (Queries.v); a service with pages is spec (QuerySpec.v) | C57_exact on the first page | C107_exact, C107_refuted, C107_pointer_refuted, C107_answered |
| C108 | the conversion of the answer | the loop over amounts keeps only the lovelace entries | C108_refuted |
| C109 | NewXPrv, FromBip39Entropy; HMAC and PBKDF2 as in HashFns.v for the refutation | bits of normalised keys (Proofs/Bip32Facts.v); padding of HMAC keys | C109_exact, C109_passphrase, C109_refuted |
| C110 | Derive, Public of bip32.go; the attacker's function is spec (Bip32Spec.v) | C38_parts solved for the parent; for hardened indices two keys that hash functions of a certain form cannot tell apart | C110_refuted, C110_path, C110_hardened, C110_hardened_none |
| C111 | SubmitTx and execCommand of cardano-cli.go with every call to the operating system (Submit.v); what a list of calls leaves behind is spec (FsSpec.v) | case analysis of the return statements; inductive predicates over the list of calls | C111_removed, C111_command, C111_file, C111_result, C111_closed, C111_refuted, C111_error_refuted |
| C112 | go-bip39's NewMnemonic and EntropyFromMnemonic with the word list as a parameter, the two mains around the wallet recipes | sentences as numbers in base 2048 and 256; bits of the specification by uniqueness of digits | C112_sentence, C112_entropy, C112_roundtrip, C112_generate, C112_restore, C112_prints, C112_rejects, C112_words_refuted, C112_type_refuted |
| C113 | as C112 | for the last word, division of the number by the checksum's range gives one word for each value of the leading bits | C113_refuted, C113_last, C113_detected, C113_distinct |
| C114 | Model/Leak.v: the functions that handle private keys with a list of events (branches, indices, table entries, hash lengths, calls) | The instrumented functions return what the plain ones return; their event lists are computed in closed form by induction on the digits and the loops and mention no byte of the key | C114_faithful, C114_sign, C114_derive, C114_public, C114_indistinguishable, C114_vartime |
| C115 | Build of Model/Builder.v with real keys; owners of the inputs are an argument (Spec/WitnessSpec.v), since inputs carry no address | C69_signed gives the witnesses key by key; public keys agree exactly when scalars agree modulo the order of the group | C115_exact, C115_keys, C115_wallet_partial, C115_missing_refuted, C115_twice_refuted |
| C116 | every read and write of a field by each call of tx.go and tx_builder.go, as programs over locations, run alone or interleaved | faithfulness by running each program against the sequential model; ownership of every location a call touches; commutation of interleavings without races; logs of the looking calls computed | C116_faithful, C116_builders, C116_goroutines, C116_program, C116_looks_exact, C116_min_fee_look_exact, C116_min_fee_exact, C116_refuted, C116_min_fee_refuted, C116_keys_refuted, C116_sequence |
| C117 | MinFee of Model/Tx.v on states of Model/Builder.v; what is counted is spelled out in Spec/CountSpec.v | the two passes of MinFee are monotone in the counted size; the sizes of inputs, outputs and placeholder are computed | C117_exact, C117_partial, C117_refuted |
| C118 | Verify of crypto/ed25519 (Go up to 1.16) as a client of Model/Edwards.v, in Props/Verifier.v | FromBytes_spec, C43, C45, C53 and the encoding of projective points give the exact set of accepted signatures; compared with verifies of Bip32Spec by group arithmetic | C118_exact, C118_subgroup_partial, C118_library, C118_built, C118_unique, C118_reduced, C118_encoding_refuted, C118_torsion_refuted |
| C119 | Blake2b224 and Blake2b256 of Model/Bip32.v, BLAKE2b of Model/HashFns.v | slices and copies of the right length computed; transaction id unfolded | C119_whole, C119_blake2b, C119_uses |
| C120 | Model/Decode.v: main of examples/address/simple_decode with any text | C06, C15, C18 and uniqueness of what a bech32 text carries; the literal is computed | C120_own, C120_byron, C120_exact, C120_refuted, C120_main |
| C121 | NewAddress of Model/Address.v and tx_bytes of Model/Tx.v; Props/Destination.v says which bytes an output of the item pays to | C09, C15 and C21 composed | C121_exact, C121_own, C121_refuted |
| C122 | generate_main and restore_main of Model/Mnemonic.v, NewAddress, tx_bytes and build; Props/Spend.v says which bytes are paid and which witness spends them | C112, C21, C73 and C69 composed | C122_generated, C122_restored |

## 5. What is not modelled

* Process execution, HTTP, temporary files and logging (node/*.go): their results are inputs of the modelled functions. For SubmitTx of the command-line backend the order of the calls to the operating system is modelled (Submit.v), the kernel behind them is not. The blockfrost client's own JSON decoding is outside.
* bip32: XPrv.String/XPub.String and the bech32 rendering of keys (there are none in the pinned commit beyond the functions listed in Model/Bip32.v). Timing behaviour of the constant-time code.
* cbor: the choice of a struct's fields and keys from its tags (MdStruct lists the fields that are written), time.Time, RawMessage and types with their own MarshalCBOR in metadata (the reader for Byron addresses has the limits on nesting and elements and the validation of text keys).
* Concurrent use of anything but the transaction and its builder (Model/Concurrent.v and Model/Goroutines.v have locations the size of a field and sequentially consistent memory; weak memory effects of racy programs are outside, so C116 says nothing of a racy program beyond that it is one), keys that overlap in one array, and writes by the caller to Body.Inputs and Body.Outputs beyond their length.
* The examples directory, apart from the wallet recipes (Model/Wallet.v), the three address programs (Model/Mnemonic.v, Model/Decode.v) and the payment (Model/Payment.v), and the tests. go-bip39 v1.1.0 is modelled from its source, which is not in /repo; its word list is an argument, its random source is not modelled. The payment's calls to the node are arguments of the model.
* Side channels other than branches, indices and lengths (C114): instruction timing, cache lines within a table entry, what the hash functions and the compiler do. Straight-line functions are single events.

## 6. Trusted base

* Coq 8.16.1's kernel with its virtual machine (`vm_compute` is used for table, certificate and finite-sweep checks; `coqchk` re-checks them without it).
* `Print Assumptions` of every property theorem prints "Closed under the global context": no axioms, neither of ours nor of the standard library. (coqchk also lists the seven `ssrunder` declarations of Coq's own ssreflect files, loaded by the standard library's tactics; no theorem depends on them.)
* The reading of the Go code: each definition cites its lines. Section 2 lists the simplifications.
* Third-party code that is not in `/repo`, modelled from its documented behaviour: fxamacker/cbor v2.4.0 (encoder with default options; decoder into the Go types used, trailing bytes ignored), btcutil v1.0.2 base58 and bech32.Encode, Go's encoding/hex, encoding/json (Go 1.17), hash/crc32, strconv, strings.
* The specifications in `Spec/`.

## 7. Tests of the theorems

`seeded/LOG.jsonl` records edits of the model that imitate realistic bugs (made in a scratch copy), the claim each one breaks, and the theorems that stopped being provable. An edit counts as caught by a theorem when its proof, or the proof of something it depends on, no longer goes through (found by admitting each failing proof in the scratch copy and printing the assumptions of every claimed theorem). For the later entries only the first failing proof of each file was found, and the theorems listed are those that use it according to the `.glob` files; such a theorem rests on a proof that broke, which is weaker than its statement being shown false of the edited program. Some runs covered only the files of the claim concerned, and the last ones checked each file's proofs on their own (`-vos`, then `-vok`).
