{
 "claims": [
  {
   "property": "C01",
   "status": "proved",
   "theorems": [
    "C01_roundtrip"
   ],
   "note": ""
  },
  {
   "property": "C02",
   "status": "proved",
   "theorems": [
    "C02_canonical",
    "C02_injective",
    "C02_alphabet"
   ],
   "note": ""
  },
  {
   "property": "C03",
   "status": "proved",
   "theorems": [
    "C03_one_substitution",
    "C03_two_substitutions"
   ],
   "note": "When the replacement character has the other letter case the error is the mixed-case one instead of the checksum one; both outcomes are in the theorem."
  },
  {
   "property": "C04",
   "status": "proved",
   "theorems": [
    "C04_layout",
    "C04_constructors"
   ],
   "note": "Bytes() of base, enterprise, reward and pointer addresses against an independent CIP-19 layout, network ids 0..15; also starting from the constructors' arguments."
  },
  {
   "property": "C05",
   "status": "proved",
   "theorems": [
    "C05_bytes_roundtrip"
   ],
   "note": "For every spare capacity."
  },
  {
   "property": "C06",
   "status": "proved",
   "theorems": [
    "C06_string_roundtrip",
    "C06_bip173"
   ],
   "note": "For every Unicode table and every slice-growth policy."
  },
  {
   "property": "C07",
   "status": "partial",
   "theorems": [
    "C07_refuted",
    "C07_partial"
   ],
   "note": "Refuted: String() of every pointer address is the empty string (pointer.go:79 passes 8-bit data to a 5-bit encoder) and NewAddress(\"\") panics. C07_partial: NewAddress reads the text String() should give."
  },
  {
   "property": "C08",
   "status": "proved",
   "theorems": [
    "C08_panic",
    "C08_panic_hex"
   ],
   "note": "Exact characterisation, including the spare capacity of the slice."
  },
  {
   "property": "C09",
   "status": "partial",
   "theorems": [
    "C09_exact",
    "C09_valid",
    "C09_exact_partial",
    "C09_base_trailing_refuted",
    "C09_nibble_refuted",
    "C09_overlong_refuted",
    "C19_trailing_refuted"
   ],
   "note": "Refuted: trailing bytes of base addresses, network nibbles 2..15, overlong or overflowing naturals and non-canonical Byron encodings are normalised. C09_exact says exactly when the bytes are kept."
  },
  {
   "property": "C10",
   "status": "proved",
   "theorems": [
    "C10_bytes_injective",
    "C10_text_injective"
   ],
   "note": ""
  },
  {
   "property": "C11",
   "status": "proved",
   "theorems": [
    "C11_varnat_roundtrip",
    "C11_varnat_minimal"
   ],
   "note": ""
  },
  {
   "property": "C12",
   "status": "partial",
   "theorems": [
    "C12_decode_partial",
    "C12_overlong_refuted",
    "C12_overflow_refuted"
   ],
   "note": "Refuted: re-encoding gives back the bytes exactly for minimal items below 2^64 (C12_decode_partial is exact for every input); otherwise overlong items are accepted and large ones wrap."
  },
  {
   "property": "C13",
   "status": "partial",
   "theorems": [
    "C13_exact",
    "C13_go117",
    "C13_hex_partial",
    "C13_refuted"
   ],
   "note": "Refuted: for base headers with fewer than 57 bytes the hex entry point reads what hex.DecodeString left behind the slice. C13_exact and C13_go117 say exactly for which texts the two entry points differ (25 to 56 bytes in Go 1.17)."
  },
  {
   "property": "C14",
   "status": "partial",
   "theorems": [
    "C14_exact",
    "C14_network_partial",
    "C14_text_partial",
    "C14_no_rejection",
    "C14_unknown_network_refuted"
   ],
   "note": "First two sentences proved; the third is refuted for every nibble 2..15: the nibble plays no part in acceptance (C14_no_rejection). C14_exact gives the network and the printed prefix for every accepted address."
  },
  {
   "property": "C15",
   "status": "partial",
   "theorems": [
    "C15_all",
    "C15_exact",
    "C15_any_prefix",
    "C15_refuted",
    "C15_partial"
   ],
   "note": "Refuted: any human-readable part starting with addr or stake is accepted for any address. C15_exact says exactly which ASCII texts are accepted, C15_any_prefix that the prefix is ignored; C15_partial: a text is the address's own exactly when its human-readable part is the right one. C15_all: the same for all byte strings, with Unicode case tables."
  },
  {
   "property": "C16",
   "status": "proved",
   "theorems": [
    "C16_projections",
    "C16_fields"
   ],
   "note": ""
  },
  {
   "property": "C17",
   "status": "partial",
   "theorems": [
    "C17_exact",
    "C17_marshal_partial",
    "C17_reward_refuted"
   ],
   "note": "Refuted for reward addresses (reward.go:33 marshals the method value); C17_exact: these are the only ones."
  },
  {
   "property": "C18",
   "status": "proved",
   "theorems": [
    "C18_layout",
    "C18_bytes_roundtrip",
    "C18_string_roundtrip"
   ],
   "note": "String round trip for payloads of at most 512 bytes (wallet payloads have about 30); bytes round trip for every payload below 2^32 bytes."
  },
  {
   "property": "C19",
   "status": "partial",
   "theorems": [
    "C19_wrong_checksum",
    "C19_exact",
    "C19_trailing_refuted",
    "C19_forms_refuted"
   ],
   "note": "Refuted as stated: bytes after the pair are ignored and numbers, byte strings and attribute keys in other CBOR forms are accepted. Proved: a wrong checksum is always rejected with the checksum error, and exactly which inputs are accepted, with which result."
  },
  {
   "property": "C20",
   "status": "proved",
   "theorems": [
    "C20_roundtrip",
    "C20_text"
   ],
   "note": ""
  },
  {
   "property": "C21",
   "status": "partial",
   "theorems": [
    "C21_partial",
    "C21_new",
    "C21_fields_unique",
    "C21_byron_refuted",
    "C21_reward_error"
   ],
   "note": "Refuted for Byron outputs: the address is embedded as a CBOR array instead of a byte string, so the bytes never have the ledger form. Reward-address outputs make Bytes fail. Proved for all other outputs, with unique readability of every field. Assumes BLAKE2b-256 yields 32 bytes (hash_ok) and that Go lists each map entry once (runtime_order)."
  },
  {
   "property": "C22",
   "status": "proved",
   "theorems": [
    "C22_bytes",
    "C22_hash"
   ],
   "note": "Bodies with equal encodings have equal fields; equal hashes give equal fields unless the two body encodings, or the two metadata encodings, themselves collide under BLAKE2b-256."
  },
  {
   "property": "C23",
   "status": "partial",
   "theorems": [
    "C23_no_witness",
    "C23_hash_of_bytes_partial",
    "C23_refuted",
    "C32_orders"
   ],
   "note": "First half proved for all transactions. Second half refuted for every transaction whose metadata are met in two orders with different encodings, which the runtime may do exactly when some map has two entries (C32_orders); proved when no map has two entries."
  },
  {
   "property": "C24",
   "status": "partial",
   "theorems": [
    "C24_build",
    "C24_hash_partial",
    "C24_rebuild_partial",
    "C24_keys_partial",
    "C24_order_exact",
    "C24_order_refuted",
    "C24_orders",
    "C24_next_refuted"
   ],
   "note": "One witness per key, in order, over the body hash, for all histories. C24_order_exact: the signed hash and every later Hash() with metadata, so they differ when the maps are met in another order (C24_order_refuted), already in the first Hash() after Build (C24_next_refuted, C24_orders); equal when no map has two entries. The keys are the supplied ones when slices are not shared between builders."
  },
  {
   "property": "C25",
   "status": "proved",
   "theorems": [
    "C25_formula",
    "C25_any_order",
    "C25_effect"
   ],
   "note": ""
  },
  {
   "property": "C26",
   "status": "partial",
   "theorems": [
    "C26_all",
    "C26_enough",
    "C26_exact",
    "C26_partial",
    "C26_keys_refuted",
    "C26_boundary_refuted",
    "C26_equal_refuted",
    "C26_placeholder"
   ],
   "note": "Refuted: every transaction with two or more keys underpays; so do all transactions whose inputs equal their outputs, and one-key transactions at a width boundary of the change amount or of the fee itself. C26_all gives the fee for all fee parameters, sums (also beyond 64 bits), metadata, change addresses and numbers of keys; C26_enough the difference to the linear fee and exactly when the fee suffices, whenever the second pass does not overflow; C26_exact is the same for ordinary fee parameters."
  },
  {
   "property": "C27",
   "status": "partial",
   "theorems": [
    "C27_exact",
    "C27_refuted"
   ],
   "note": "Refuted when inputs do not cover outputs and fee: the change wraps around by 2^64. C27_exact gives the difference for all amounts and the exact condition under which value is conserved."
  },
  {
   "property": "C28",
   "status": "partial",
   "theorems": [
    "C28_exact",
    "C28_partial",
    "C28_zero_refuted"
   ],
   "note": "Everything but the last clause proved; a zero-amount output is added when inputs equal outputs plus fee. C28_exact gives the whole transaction afterwards."
  },
  {
   "property": "C29",
   "status": "partial",
   "theorems": [
    "C29_exact",
    "C29_bytes",
    "C29_partial",
    "C29_refuted"
   ],
   "note": "Refuted: a zero placeholder witness is left in the transaction. C29_exact gives the whole transaction afterwards; it and its bytes are the same exactly when there was a witness before."
  },
  {
   "property": "C30",
   "status": "proved",
   "theorems": [
    "C30_only_own_keys"
   ],
   "note": ""
  },
  {
   "property": "C31",
   "status": "proved",
   "theorems": [
    "C31_accumulate",
    "C31_added"
   ],
   "note": ""
  },
  {
   "property": "C32",
   "status": "partial",
   "theorems": [
    "C32_exact",
    "C32_partial",
    "C32_refuted",
    "C32_orders"
   ],
   "note": "Refuted whenever the two marshallings meet the metadata in orders with different encodings, for every transaction; the runtime may do so exactly when some map has two entries (C32_orders). C32_exact says which hash and which metadata are serialised for every pair of orders, and so exactly when they fit."
  },
  {
   "property": "C33",
   "status": "partial",
   "theorems": [
    "C33_partial",
    "C33_refuted",
    "C33_exact",
    "C33_never",
    "C33_history_refuted"
   ],
   "note": "Refuted: the hash stays in the body for every transaction that was serialised with metadata (C33_refuted for a transaction, C33_history_refuted for a history of calls). C33_exact gives the hash after every history: that of the metadata present when the body was last serialised with metadata; C33_never: none if metadata were never assigned."
  },
  {
   "property": "C34",
   "status": "partial",
   "theorems": [
    "C34_exact",
    "C34_partial",
    "C34_refuted",
    "C34_bytes_refuted"
   ],
   "note": "Refuted: the returned transaction shares its body with the builder. C34_exact says what every part of it is after any later calls; C34_partial that bytes and hash stay for the calls that leave the body alone."
  },
  {
   "property": "C35",
   "status": "partial",
   "theorems": [
    "C35_keys_exact",
    "C35_transactions",
    "C35_owner",
    "C35_keys_partial",
    "C35_unshared",
    "C35_keys_refuted"
   ],
   "note": "Transactions are isolated. Keys are isolated unless two builders were made from one slice with spare capacity. C35_keys_exact: exactly which key of which builder is replaced by a Sign of another."
  },
  {
   "property": "C36",
   "status": "partial",
   "theorems": [
    "C36_valid",
    "C36_exact",
    "C36_malformed_refuted"
   ],
   "note": "Valid hashes stored exactly. Refuted: malformed text is never reported; C36_exact gives the stored hash for every text: the bytes of its longest prefix of pairs of hexadecimal digits."
  },
  {
   "property": "C37",
   "status": "proved",
   "theorems": [
    "C37_NewXPrv",
    "C37_error",
    "C37_FromBip39Entropy"
   ],
   "note": "Hash functions are parameters returning byte strings of their declared length (hashes_ok)."
  },
  {
   "property": "C38",
   "status": "proved",
   "theorems": [
    "C38_derive",
    "C38_parts",
    "C38_short"
   ],
   "note": ""
  },
  {
   "property": "C39",
   "status": "proved",
   "theorems": [
    "C39_paths",
    "C39_total"
   ],
   "note": ""
  },
  {
   "property": "C40",
   "status": "proved",
   "theorems": [
    "C40_messages",
    "C40_domains",
    "C40_soft"
   ],
   "note": ""
  },
  {
   "property": "C41",
   "status": "partial",
   "theorems": [
    "C41_public_partial",
    "C41_exact",
    "C41_refuted",
    "C41_hash",
    "C41_all"
   ],
   "note": "Refuted: the encoded point is [kL]B exactly for the scalars up to digit_limit (0x8777...7, above 2^255) and another point above, because the radix-16 recoding gets a top digit above 8. Shape, chain code, splitting and hash length hold for all keys. C41_all gives the point for every key."
  },
  {
   "property": "C42",
   "status": "proved",
   "theorems": [
    "C42_constructors"
   ],
   "note": ""
  },
  {
   "property": "C43",
   "status": "proved",
   "theorems": [
    "C43_ScReduce"
   ],
   "note": ""
  },
  {
   "property": "C44",
   "status": "proved",
   "theorems": [
    "C44_ScMulAdd"
   ],
   "note": ""
  },
  {
   "property": "C45",
   "status": "proved",
   "theorems": [
    "C45_ScMinimal"
   ],
   "note": ""
  },
  {
   "property": "C46",
   "status": "proved",
   "theorems": [
    "C46_linear",
    "C46_products",
    "C46_no_overflow",
    "C46_invert"
   ],
   "note": "Documented input bounds are bounded 110/220/330; outputs are bounded 101, inside the documented 110."
  },
  {
   "property": "C47",
   "status": "proved",
   "theorems": [
    "C47_encode",
    "C47_canonical",
    "C47_decode",
    "C47_roundtrip",
    "C47_tests"
   ],
   "note": ""
  },
  {
   "property": "C48",
   "status": "proved",
   "theorems": [
    "C48_formulas",
    "C48_group",
    "C48_complete",
    "C48_functional"
   ],
   "note": ""
  },
  {
   "property": "C49",
   "status": "proved",
   "theorems": [
    "C49_scalarmult",
    "C49_base",
    "C49_tables",
    "C49_order",
    "C49_exact"
   ],
   "note": ""
  },
  {
   "property": "C50",
   "status": "proved",
   "theorems": [
    "C50_sign",
    "C50_derived",
    "C50_deterministic",
    "C50_exact"
   ],
   "note": ""
  },
  {
   "property": "C51",
   "status": "partial",
   "theorems": [
    "C51_follow_partial",
    "C51_same_partial",
    "C51_derived",
    "C51_refuted",
    "C51_exact",
    "C51_same_exact"
   ],
   "note": "Refuted for scalars above 2^255: for every chain code and soft index there are two keys with the same Public() whose children differ, unless HMAC returns 28 zero bytes. Proved for scalars below 2^255, in particular for all keys derived from root keys. C51_exact: for every key, the child follows exactly when adding 8 zL does not change what the recoding of the scalar loses. C51_same_exact: for any two keys with one Public(), when the children have one."
  },
  {
   "property": "C52",
   "status": "proved",
   "theorems": [
    "C52_roundtrip",
    "C52_decode",
    "C52_injective"
   ],
   "note": ""
  },
  {
   "property": "C53",
   "status": "partial",
   "theorems": [
    "C53_exact",
    "C53_base",
    "C53_partial",
    "C53_mod",
    "C53_carry_refuted",
    "C53_refuted"
   ],
   "note": "Refuted: the recoding of scalars above 2^255 drops a carry out of bit 255. C53_exact: the result for all scalars and points, and exactly when it is the claimed one; C53_base: for multiples of the base point exactly when the recoding leaves nothing over."
  },
  {
   "property": "C54",
   "status": "proved",
   "theorems": [
    "C54_cmove",
    "C54_select",
    "C54_point",
    "C54_tests"
   ],
   "note": ""
  },
  {
   "property": "C55",
   "status": "partial",
   "theorems": [
    "C55_refuted",
    "C55_partial"
   ],
   "note": "Refuted: --mainnet is passed exactly for network id 0 (the test network); the main network gets a test network magic. The exact behaviour is proved."
  },
  {
   "property": "C56",
   "status": "partial",
   "theorems": [
    "C56_panic_refuted",
    "C56_empty_refuted",
    "C56_rows_partial"
   ],
   "note": "Refuted: every command output with three printable characters panics (byte count used as line count), and no output ever yields an input. The row loop itself is proved right."
  },
  {
   "property": "C57",
   "status": "partial",
   "theorems": [
    "C57_partial",
    "C57_exact",
    "C57_error",
    "C57_refuted"
   ],
   "note": "Faithful for one lovelace entry per output in range; C57_exact gives the result for every answer of the service, including when there is an error. Refuted outside: negative quantities wrap, indices are truncated to 16 bits, malformed hashes are cut silently."
  },
  {
   "property": "C58",
   "status": "proved",
   "theorems": [
    "C58_network"
   ],
   "note": ""
  },
  {
   "property": "C59",
   "status": "partial",
   "theorems": [
    "C59_partial",
    "C59_refuted"
   ],
   "note": "Refuted for an explicitly given empty path, which stays empty."
  },
  {
   "property": "C60",
   "status": "partial",
   "theorems": [
    "C60_refuted",
    "C60_mainnet_partial"
   ],
   "note": "Refuted: every Byron address with a network magic in Cardano's layout is rejected with a CBOR error. Mainnet addresses are accepted."
  },
  {
   "property": "C61",
   "status": "partial",
   "theorems": [
    "C61_exact",
    "C61_refuted",
    "C61_no_panic",
    "C61_non_ascii_refuted"
   ],
   "note": "Refuted: the KELVIN SIGN shrinks when lower-cased and the final slice is out of range. C61_exact: exactly which byte strings make Decode panic, with strings.ToLower/ToUpper modelled as strings.Map over any case tables that agree with Unicode where case_tables says. No panic for ASCII text and for text equal to its own lower-case form, whatever the tables (C61_no_panic)."
  },
  {
   "property": "C62",
   "status": "proved",
   "theorems": [
    "C62_burst"
   ],
   "note": ""
  },
  {
   "property": "C63",
   "status": "partial",
   "theorems": [
    "C63_exact",
    "C63_refuted",
    "C02_non_ascii_refuted",
    "C02_canonical"
   ],
   "note": "Refuted: U+212A in place of K is accepted. C63_exact: exactly what Decode accepts, for every byte string: a BIP-173 text, or an upper-case one with some letters K of the data part replaced by U+212A. Case tables as in C61."
  },
  {
   "property": "C64",
   "status": "partial",
   "theorems": [
    "C64_bech32_all",
    "C64_exact",
    "C64_bech32_exact",
    "C64_hex_exact",
    "C64_text_refuted",
    "C64_hex_refuted",
    "C64_exact_capacity_partial"
   ],
   "note": "Refuted: truncated base addresses are accepted because a slice expression is bounded by the capacity. C64_exact says exactly when a base address is read; in Go 1.17 that is from 33 bytes on in bech32 and from 25 bytes on in hexadecimal. With exact capacity truncated ones panic. C64_bech32_all: the same for all byte strings, with Unicode case tables."
  },
  {
   "property": "C65",
   "status": "proved",
   "theorems": [
    "C65_decode_exact",
    "C65_decode_injective",
    "C65_decode_bad"
   ],
   "note": ""
  },
  {
   "property": "C66",
   "status": "proved",
   "theorems": [
    "C66_crc",
    "C66_burst"
   ],
   "note": ""
  },
  {
   "property": "C67",
   "status": "proved",
   "theorems": [
    "C67_reader",
    "C67_unique",
    "C67_canonical",
    "C67_limits"
   ],
   "note": ""
  },
  {
   "property": "C68",
   "status": "partial",
   "theorems": [
    "C68_parameters",
    "C68_error",
    "C68_refuted"
   ],
   "note": "Faithful within the ranges of the result's fields; refuted outside them (reduction modulo 2^64 or 256)."
  },
  {
   "property": "C69",
   "status": "proved",
   "theorems": [
    "C69_signed",
    "C69_total",
    "C69_hash_partial",
    "C69_exact"
   ],
   "note": "C69_hash_partial: the signed hash is the transaction's own Hash() when no metadata map has two entries (otherwise false, see C24)."
  },
  {
   "property": "C70",
   "status": "proved",
   "theorems": [
    "C70_decode_exact",
    "C70_encode"
   ],
   "note": "Against Spec/BchSpec.v: bit regrouping, GF(32) arithmetic and the generator polynomial written from BIP-173. ASCII strings (C02 treats the rest)."
  },
  {
   "property": "C71",
   "status": "proved",
   "theorems": [
    "C71_three_substitutions"
   ],
   "note": "The separator is not moved (hypothesis). Covers substitutions in the prefix, counted twice."
  },
  {
   "property": "C72",
   "status": "partial",
   "theorems": [
    "C72_four_substitutions_partial",
    "C72_base_refuted"
   ],
   "note": "Refuted: two accepted texts of base address length differ in four characters. Proved for texts of at most 89 checksummed symbols, i.e. enterprise and reward addresses."
  },
  {
   "property": "C73",
   "status": "proved",
   "theorems": [
    "C73_paths",
    "C73_base_address",
    "C73_restore",
    "C73_text",
    "C73_spend",
    "real_hashes_ok"
   ],
   "note": "For all hash functions with outputs of the declared sizes; real_hashes_ok shows that SHA-2, HMAC, PBKDF2 and BLAKE2b as written in Model/HashFns.v are such functions. C73_paths holds for every derivation path of up to 2^26 steps. With these functions the model reproduces the repository's two golden transactions (Tests/GoldenTx.v)."
  },
  {
   "property": "C74",
   "status": "partial",
   "theorems": [
    "C74_harden_partial",
    "C74_exact",
    "C74_refuted",
    "C74_value"
   ],
   "note": "Refuted: from 2^31 on the sum wraps in the conversion to uint32, and harden returns a soft index. Exactly the arguments with bit 31 clear give a hardened index; below 2^31 the claim holds."
  },
  {
   "property": "C75",
   "status": "partial",
   "theorems": [
    "C75_payment",
    "C75_fee_exact",
    "C75_fee_refuted"
   ],
   "note": "C75_payment proves everything but the last clause, with the exact fee. C75_fee_exact: the fee is enough exactly unless the change is at least 2^32 lovelace and the input minus 5.2 ada is below; there it is refuted: with the main network's fees an output of 2^32 + 5180000 lovelace gives a fee below the linear fee (C75_fee_refuted)."
  },
  {
   "property": "C76",
   "status": "partial",
   "theorems": [
    "C76_last_partial",
    "C76_first_refuted",
    "C76_nothing_refuted"
   ],
   "note": "Refuted: the loop has no break, so the last sufficient output is taken (C76_last_partial, C76_first_refuted); without a sufficient output a transaction is built that spends the zero input and whose outputs and fee add up to a positive multiple of 2^64 (C76_nothing_refuted)."
  },
  {
   "property": "C77",
   "status": "partial",
   "theorems": [
    "C77_prefix",
    "C77_pointer_partial",
    "C77_pointer_refuted"
   ],
   "note": "Holds for base, enterprise, reward and Byron addresses on every network. Refuted: a pointer address on a test network other than the predefined one has the prefix addr, because the whole network struct is compared. C77_pointer_partial says exactly when a pointer address has the right prefix."
  },
  {
   "property": "C78",
   "status": "proved",
   "theorems": [
    "C78_syntax",
    "C78_unambiguous"
   ],
   "note": ""
  },
  {
   "property": "C79",
   "status": "proved",
   "theorems": [
    "C79_load",
    "C79_cli",
    "C79_failure",
    "C79_ranges"
   ],
   "note": "Go's case-insensitive matching of names, including the long s and the Kelvin sign, is part of the specification."
  },
  {
   "property": "C80",
   "status": "partial",
   "theorems": [
    "C80_refuted",
    "C80_partial"
   ],
   "note": "Refuted: a document without any of the parameters loads as all zeros without an error. C80_partial: a parameter that is not 0 comes from a member with its name."
  },
  {
   "property": "C81",
   "status": "proved",
   "theorems": [
    "C81_cli",
    "C81_blockfrost"
   ],
   "note": ""
  },
  {
   "property": "C82",
   "status": "partial",
   "theorems": [
    "C82_file",
    "C82_type_refuted"
   ],
   "note": "C82_file: the file is JSON with the three members, and cborHex decodes to the transaction's bytes. Refuted: the type is always empty."
  },
  {
   "property": "C83",
   "status": "partial",
   "theorems": [
    "C83_refuted",
    "C83_partial"
   ],
   "note": "Refuted: each option is one argument together with its value. C83_partial gives the exact argument lists."
  },
  {
   "property": "C84",
   "status": "partial",
   "theorems": [
    "C84_partial",
    "C84_refuted"
   ],
   "note": "Refuted: the returned string is the body of the answer, quotation marks included, never the id. C84_partial: the request carries the transaction's bytes to the configured network and decides the outcome; no error exactly for status 200."
  },
  {
   "property": "C85",
   "status": "proved",
   "theorems": [
    "C85_hex",
    "C85_valid",
    "C85_body"
   ],
   "note": ""
  },
  {
   "property": "C86",
   "status": "partial",
   "theorems": [
    "C86_network_partial",
    "C86_constructors",
    "C86_magic_refuted"
   ],
   "note": "Refuted: the magic in a Byron address's network attribute is ignored, so no Byron address with an attribute reports its own magic; everything else is proved."
  },
  {
   "property": "C87",
   "status": "partial",
   "theorems": [
    "C87_all",
    "C87_exact",
    "C87_typo_refuted"
   ],
   "note": "Refuted: text that is not valid base58 (and does not start with addr or stake) is decoded to no bytes, whose first byte is then read: mistyping one character of a Byron address as 0, O, I or l panics. C87_exact: exactly which texts panic. C87_all: the same for all byte strings, with Unicode case tables."
  },
  {
   "property": "C88",
   "status": "partial",
   "theorems": [
    "C88_exact",
    "C88_refuted",
    "C88_reuse_refuted",
    "C88_parse",
    "C88_text",
    "C88_hex",
    "C88_derived"
   ],
   "note": "Refuted: hashes of a Shelley address parsed from a slice are slices of it. C88_exact: its bytes in every later state of memory, unchanged exactly when the hash bytes of the buffer are; C88_reuse_refuted: a buffer used twice turns the first address into the second. True for addresses read from text or hex (C88_text, C88_hex)."
  },
  {
   "property": "C89",
   "status": "partial",
   "theorems": [
    "C89_exact",
    "C89_panic_refuted",
    "C89_parts"
   ],
   "note": "Refuted: C89_exact gives the memory after NormalizeBytesForce3rd, unchanged exactly when the key was normal before; C89_panic_refuted: too short an argument is changed before the panic; C89_parts: chain code, extended key and public key are parts of the key they come from."
  },
  {
   "property": "C90",
   "status": "partial",
   "theorems": [
    "C90_exact",
    "C90_cut_refuted",
    "C90_public_refuted"
   ],
   "note": "Refuted: Sign reads the 64 bytes from the start of the slice on, wherever the slice ends; a key cut by a slice expression signs as the whole key. Panics exactly when the array ends before (C90_exact)."
  },
  {
   "property": "C91",
   "status": "partial",
   "theorems": [
    "C91_values",
    "C91_pointers",
    "C91_exact",
    "C91_refuted"
   ],
   "note": "Refuted: transactions hold pointers, so a later write changes them even when they are built and signed. C91_exact gives the effect of every write; C91_values shows that without writes the value model of C24-C35 is exact."
  },
  {
   "property": "C92",
   "status": "partial",
   "theorems": [
    "C92_exact",
    "C92_refuted",
    "C92_after"
   ],
   "note": "Refuted: a key overwritten before Build signs with the new bytes. Proved after Build: no write to a key changes any transaction."
  },
  {
   "property": "C93",
   "status": "partial",
   "theorems": [
    "C93_exact",
    "C93_nil_refuted",
    "C33_refuted"
   ],
   "note": "Refuted: a nil map, slice or pointer assigned to Metadata is hashed but written as null, and a hash is left over when metadata are removed (C33_refuted). C93_exact: exactly when the two agree."
  },
  {
   "property": "C94",
   "status": "proved",
   "theorems": [
    "C94_exact"
   ],
   "note": "For all transactions, without any hypothesis on their fields."
  },
  {
   "property": "C95",
   "status": "partial",
   "theorems": [
    "C95_exact",
    "C95_refuted"
   ],
   "note": "Refuted: nothing is checked, so texts of more than 64 bytes or outside UTF-8 are written. C95_exact: what is written is ledger metadata exactly when the value assigned is."
  },
  {
   "property": "C96",
   "status": "proved",
   "theorems": [
    "C96_message",
    "C96_unique",
    "C96_derived"
   ],
   "note": "For every key on a derivation path, and for every scalar up to the recoding limit that is no multiple of l. The SHA-512 values appear in the statement; nothing is assumed about them."
  },
  {
   "property": "C97",
   "status": "proved",
   "theorems": [
    "C97_nonce",
    "C97_leak"
   ],
   "note": "For all keys and messages."
  },
  {
   "property": "C98",
   "status": "proved",
   "theorems": [
    "C98_siblings",
    "C98_derived"
   ],
   "note": "For scalars below 2^255, in particular on derivation paths."
  },
  {
   "property": "C99",
   "status": "proved",
   "theorems": [
    "C99_order"
   ],
   "note": "Every public key on a derivation path has order exactly l."
  },
  {
   "property": "C100",
   "status": "partial",
   "theorems": [
    "C100_states",
    "C100_build",
    "C100_exact",
    "C100_refuted"
   ],
   "note": "Refuted: the map is shared with the built transaction, and Hash and Bytes recompute the auxiliary data hash, so that after a write the witnesses are those for another body unless the two contents have one hash. C100_exact gives the effect of every write; C100_states shows that every state with shared maps is a state of the value model, so that C24-C35 hold there too."
  },
  {
   "property": "C101",
   "status": "partial",
   "theorems": [
    "C101_exact",
    "C101_refuted"
   ],
   "note": "Refuted whenever bytes cost anything: the second fee also pays for the first change output and is larger, so that the second change output gets 2^64 minus the difference. C101_exact gives the second output for all states and exactly when the balance stays."
  },
  {
   "property": "C102",
   "status": "proved",
   "theorems": [
    "C102_witness"
   ],
   "note": "For every witness of every built transaction and every other body."
  },
  {
   "property": "C103",
   "status": "partial",
   "theorems": [
    "C103_values",
    "C103_panic",
    "C103_exact",
    "C103_refuted"
   ],
   "note": "Refuted: null is written in place of whatever is missing, and Build signs it; the bytes are then no ledger body (for all transactions with something missing). MinFee and AddChangeIfNeeded panic exactly for nil pointers; a missing address never shows. C103_values: the model agrees with that of the other properties where nothing is nil."
  },
  {
   "property": "C104",
   "status": "partial",
   "theorems": [
    "C104_exact",
    "C104_refuted",
    "C104_built_refuted"
   ],
   "note": "Refuted: the fee is 0 for every transaction that cannot be serialised, and AddChangeIfNeeded gives everything back as change; when the cause is removed before Build, a transaction without a fee is signed. C104_exact gives the fee for all transactions."
  },
  {
   "property": "C105",
   "status": "partial",
   "theorems": [
    "C105_change",
    "C105_refuted",
    "C105_size_refuted"
   ],
   "note": "Refuted: the builder keeps the protocol parameters but reads only the two fee parameters. C105_size_refuted: for every bound, and whatever has been done to the builder before, outputs can be added so that Build succeeds with a transaction longer than the bound. C105_refuted: with the fees of the main network a change output of less than 1 ada is added and signed. C105_change says exactly when all outputs reach a minimum."
  },
  {
   "property": "C106",
   "status": "partial",
   "theorems": [
    "C106_exact",
    "C106_refuted"
   ],
   "note": "Refuted: an input that is added again is counted again. C106_exact: with truthful positive amounts that cover the outputs, the ledger sees the transaction balanced exactly if no output is spent twice, and otherwise sees more paid out than taken in. C106_refuted: adding any input of a builder again makes the next transaction with change unbalanced."
  },
  {
   "property": "C107",
   "status": "partial",
   "theorems": [
    "C107_exact",
    "C107_refuted",
    "C107_pointer_refuted",
    "C107_answered"
   ],
   "note": "Refuted: only the first page is asked for, so outputs on later pages are left out without an error (C107_refuted, for every page size, address and listing). C107_exact: what is returned, and that it is complete exactly if everything fits on one page. For pointer addresses the service is asked for the empty text."
  },
  {
   "property": "C108",
   "status": "partial",
   "theorems": [
    "C108_refuted"
   ],
   "note": "Refuted, for every answer: the result depends only on hashes, indices and lovelace entries, so nothing in it tells outputs with tokens from outputs without."
  },
  {
   "property": "C109",
   "status": "partial",
   "theorems": [
    "C109_exact",
    "C109_passphrase",
    "C109_refuted"
   ],
   "note": "Refuted for passphrases: PBKDF2 takes the passphrase as HMAC key, so that zero bytes at its end make no difference and one of more than 128 bytes counts as its SHA-512 value (for the hash functions as their standards define them, all entropies). C109_passphrase: among passphrases of at most 128 bytes these are the only ones with one HMAC key. C109_exact, for any hash functions: two seeds, or two pairs of entropy and passphrase, give one root key exactly when the hash values agree but for the six bits that are fixed."
  },
  {
   "property": "C110",
   "status": "partial",
   "theorems": [
    "C110_refuted",
    "C110_path",
    "C110_hardened",
    "C110_hardened_none"
   ],
   "note": "Refuted: for every key and every soft index the parent's whole private key (scalar, nonce half, chain code) is the function `undo` of its extended public key and the child's private key; along a path of soft indices the ancestor follows, and with it all its children, hardened ones too. For hardened indices no function of that data gives the parent for every choice of hash functions (C110_hardened: two keys with the same extended public key and the same hardened children)."
  },
  {
   "property": "C111",
   "status": "partial",
   "theorems": [
    "C111_removed",
    "C111_command",
    "C111_file",
    "C111_result",
    "C111_closed",
    "C111_refuted",
    "C111_error_refuted"
   ],
   "note": "The file is always removed and no other file is touched; the command runs once, exactly when the transaction serialises and the file is made and written, and then finds the whole envelope. Refuted: when the write or the command fails the descriptor stays open (C111_closed is the exact condition), and when closing fails an error is returned although the command has succeeded (C111_result, C111_error_refuted). Without an error the command's standard output is returned as it is."
  },
  {
   "property": "C112",
   "status": "partial",
   "theorems": [
    "C112_sentence",
    "C112_entropy",
    "C112_roundtrip",
    "C112_generate",
    "C112_restore",
    "C112_prints",
    "C112_rejects",
    "C112_words_refuted",
    "C112_type_refuted"
   ],
   "note": "Refuted: restore counts spaces and not words, so a phrase of 12 words followed by 12 spaces is restored and a valid phrase of 24 words with a doubled space is refused; an address type other than 0 and 1 prints nothing and reports nothing. Everything else proved: generate logs the BIP-39 sentence and the CIP-1852 address, restore prints that address, and the exact set of phrases accepted."
  },
  {
   "property": "C113",
   "status": "partial",
   "theorems": [
    "C113_refuted",
    "C113_last",
    "C113_detected",
    "C113_distinct"
   ],
   "note": "Refuted for every phrase: given the other words exactly 8 last words of 24 (128 of 12) are accepted, so 7 wrong last words restore another wallet. Exact count proved for all lengths and hash functions, and which changes of the last word are always detected."
  },
  {
   "property": "C114",
   "status": "proved",
   "theorems": [
    "C114_faithful",
    "C114_sign",
    "C114_derive",
    "C114_public",
    "C114_indistinguishable",
    "C114_vartime"
   ],
   "note": "Traces of the instrumented functions, whose results are those of the plain model (C114_faithful), are given exactly and depend on the lengths and the index only. Straight-line functions count as one event each; instruction timing, caches within a table entry and the hash functions' own behaviour are outside the model. C114_vartime shows that the trace model is not blind: the trace of GeDoubleScalarMultVartime, unused on private data, determines both scalars."
  },
  {
   "property": "C115",
   "status": "partial",
   "theorems": [
    "C115_exact",
    "C115_keys",
    "C115_wallet_partial",
    "C115_missing_refuted",
    "C115_twice_refuted"
   ],
   "note": "Refuted: without keys Build returns an unsigned transaction whoever owns the inputs, and a key given twice signs twice, for every builder. Exact: the witnesses are the public keys of the given keys in order, so each of the three demands holds exactly when it holds of the keys (repetition: of their scalars modulo the group order). With the wallet's own key the witnesses are exactly those needed."
  },
  {
   "property": "C116",
   "status": "partial",
   "theorems": [
    "C116_faithful",
    "C116_builders",
    "C116_goroutines",
    "C116_program",
    "C116_looks_exact",
    "C116_min_fee_look_exact",
    "C116_min_fee_exact",
    "C116_refuted",
    "C116_min_fee_refuted",
    "C116_keys_refuted",
    "C116_sequence"
   ],
   "note": "Refuted: Bytes, Hash and Fee store the auxiliary data hash in the body, and MinFee stores a placeholder witness, so two goroutines that only look at one transaction race (C116_refuted, C116_min_fee_refuted); builders over one key slice with spare capacity race in Sign (C116_keys_refuted). Proved: the access sequences are faithful to the model of the calls (C116_faithful); two calls about different builders that share no keys never race and every interleaving gives the replies and the memory of running them one after the other (C116_builders); any number of goroutines that make any calls on builders of their own each get the replies and the memory they get alone, whatever the interleaving (C116_goroutines, C116_program); for the looking calls, exactly when they race (the three _exact theorems)."
  },
  {
   "property": "C117",
   "status": "partial",
   "theorems": [
    "C117_exact",
    "C117_partial",
    "C117_refuted"
   ],
   "note": "Refuted: MinFee counts an output for change only while inputs and outputs differ, so an input that makes them equal lowers the fee, in every state (C117_refuted). C117_exact: the fee does not fall exactly when what is counted for inputs and outputs does not shrink; C117_partial: so it never falls unless the transaction becomes balanced."
  },
  {
   "property": "C118",
   "status": "partial",
   "theorems": [
    "C118_exact",
    "C118_subgroup_partial",
    "C118_library",
    "C118_built",
    "C118_unique",
    "C118_reduced",
    "C118_encoding_refuted",
    "C118_torsion_refuted"
   ],
   "note": "Refuted: a key that is not encoded canonically (p + 1 for the neutral element) is accepted with one signature for every message (C118_encoding_refuted), and for the point of order two there are hash functions with which a signature outside RFC 8032 is accepted (C118_torsion_refuted). C118_exact says for every key and signature what is accepted, C118_unique that no second half of a signature can be changed; for keys in the group of prime order that is RFC 8032 (C118_subgroup_partial), in particular what Sign makes is accepted (C118_library), and every witness of a built transaction (C118_built); for other keys the two differ exactly when the dropped multiple of the group order does not vanish at the key (C118_reduced)."
  },
  {
   "property": "C119",
   "status": "proved",
   "theorems": [
    "C119_whole",
    "C119_blake2b",
    "C119_uses"
   ],
   "note": "For all hash functions with the right output lengths, and for the model of BLAKE2b."
  },
  {
   "property": "C120",
   "status": "partial",
   "theorems": [
    "C120_own",
    "C120_byron",
    "C120_exact",
    "C120_refuted",
    "C120_main"
   ],
   "note": "Refuted: every base and enterprise address has a text with another prefix that is accepted and printed differently (C120_refuted). Proved for every address's own text (C120_own, C120_byron); C120_exact: the text is printed back exactly when its prefix and bytes are those of the address. C120_main: the program as it stands."
  },
  {
   "property": "C121",
   "status": "partial",
   "theorems": [
    "C121_exact",
    "C121_own",
    "C121_refuted"
   ],
   "note": "Refuted: a text that carries the network number 5 is accepted and every transaction with an output to it pays to other bytes (C121_refuted). C121_exact: for every text, the amount goes to the carried bytes exactly when the network number is 0 or 1 and the bytes have the length (base) or the minimal numbers (pointer) of the address; C121_own: so for every address's own text."
  },
  {
   "property": "C122",
   "status": "proved",
   "theorems": [
    "C122_generated",
    "C122_restored"
   ],
   "note": "From the mnemonic through the printed text and the payer's bytes to the witness. paid_to and spent_with in Props/Spend.v spell out the two sides; the library's Byron outputs are outside (C21_byron_refuted)."
  }
 ]
}
