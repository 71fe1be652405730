{"id": "C01", "title": "Bech32 round trip", "statement": "For every human-readable part that Encode accepts (1 or more characters in 33..126, not mixed case) and every byte payload, Encode succeeds and Decode of the resulting string succeeds and returns exactly that human-readable part and that payload.", "quantifier": "all HRPs of any length, all byte payloads of any length", "why_tests_cant": "payloads and HRPs are unbounded; the regrouping of 8-bit into 5-bit groups behaves differently for each length mod 5 and the 6-symbol checksum has 2^30 values", "anchors": ["internal/bech32/bech32.go: Encode, Decode, convertBits, createChecksum, verifyChecksum, polymod"]}
{"id": "C02", "title": "Bech32 has no malleability", "statement": "If Decode accepts a string and returns (hrp, data), then that string is, up to the letter case of the whole string, exactly the one Encode produces for (hrp, data): no two distinct lower-case strings decode to the same result, and Decode never accepts non-zero or over-long padding, a wrong checksum, mixed case, or characters outside the alphabet.", "quantifier": "all ASCII strings, and all byte strings equal to their own lower-case form (every text NewAddress treats as bech32); C63 is the same claim for all byte strings", "why_tests_cant": "acceptance has to be excluded for every string that is not an encoding", "anchors": ["internal/bech32/bech32.go: Decode, convertBits, verifyChecksum"]}
{"id": "C03", "title": "Bech32 detects substituted characters", "statement": "Replacing any one character of the data part (payload or checksum) of an accepted bech32 string by a different bech32 character makes Decode fail with the checksum error, whatever the length of the string; the same holds for any two replaced characters whose positions are less than 1023 apart.", "quantifier": "all accepted strings of any length, all positions, all replacement characters", "why_tests_cant": "the set of (string, position, replacement) triples is unbounded; the guarantee is algebraic (BCH code over GF(32))", "anchors": ["internal/bech32/bech32.go: polymod, verifyChecksum, Decode"]}
{"id": "C04", "title": "Shelley address bytes follow CIP-19", "statement": "Bytes() of a base, enterprise, reward or pointer address is the CIP-19 header byte (address type in the high nibble, with the script/key bits of its credentials, and network id in the low nibble) followed by the 28-byte credential(s) and, for a pointer, the three variable-length naturals, and nothing else.", "quantifier": "all networks ids 0..15, all credential kinds, all 28-byte hashes, all pointers", "why_tests_cant": "the header is a bit-packing of three independent inputs and the payload domain is 2^448", "anchors": ["address/base.go: Bytes", "address/enterprise.go: Bytes", "address/reward.go: Bytes", "address/pointer.go: Bytes"]}
{"id": "C05", "title": "Shelley address bytes round trip", "statement": "For every base, enterprise, reward and pointer address on the main or test network with 28-byte credentials, NewAddressFromBytes(a.Bytes()) succeeds and returns an address equal to a (same kind, same network id and magic, same credentials, same pointer).", "quantifier": "all such addresses, including all uint64 pointers", "why_tests_cant": "2^224..2^448 payloads and 2^192 pointers; the parser slices by position and the pointer fields have variable width", "anchors": ["address/address.go: NewAddressFromBytes, readAddrCred", "address/pointer.go: VariableNatEncode, VariableNatDecode"]}
{"id": "C06", "title": "Shelley address string round trip", "statement": "For every base, enterprise and reward address on the main or test network with 28-byte credentials, NewAddress(a.String()) succeeds and returns an address equal to a.", "quantifier": "all such addresses", "why_tests_cant": "2^448 addresses", "anchors": ["address/address.go: NewAddress", "address/base.go: String", "address/enterprise.go: String", "address/reward.go: String"]}
{"id": "C07", "title": "Pointer address string round trip", "statement": "For every pointer address on the main or test network with a 28-byte credential, String() is its bech32 text and NewAddress(a.String()) returns an address equal to a.", "quantifier": "all pointer addresses", "why_tests_cant": "that every pointer address fails (the method uses a bech32 encoder that expects 5-bit groups) is a statement about all of them", "anchors": ["address/pointer.go: String (btcutil bech32.Encode)"]}
{"id": "C08", "title": "Exactly which inputs make address parsing panic", "statement": "NewAddressFromBytes and NewAddressFromHex return an address or an error, and do not panic, for every input, except (the code's actual behaviour) exactly when the input is empty, or the header announces a base address and the slice holding the bytes has a capacity below 57.", "quantifier": "all byte slices with any spare capacity and all strings", "why_tests_cant": "Panics on short input depend on the length, the header and the spare capacity of the slice, which a test of a few truncated addresses does not vary together.", "anchors": ["address/address.go:57-153", "address/address.go:155-166"]}
{"id": "C09", "title": "Address parsing is exact", "statement": "If NewAddressFromBytes accepts bytes and returns address a then a.Bytes() returns the same bytes: nothing in the input is ignored or normalised.", "quantifier": "all byte slices", "why_tests_cant": "needs every accepted input; the exceptions (trailing bytes of base addresses, network nibbles 2..15, padded or overflowing pointer numbers, non-canonical Byron CBOR) must be shown to be the only ones", "anchors": ["address/address.go: NewAddressFromBytes"]}
{"id": "C10", "title": "Distinct addresses have distinct bytes and distinct text", "statement": "Two addresses (base, enterprise, reward; main or test network; 28-byte credentials) with equal Bytes(), or with equal String(), are the same address; for pointer addresses equal Bytes() implies the same address.", "quantifier": "all pairs of addresses", "why_tests_cant": "quantifies over pairs of 2^448 addresses, across kinds", "anchors": ["address/base.go", "address/enterprise.go", "address/reward.go", "address/pointer.go"]}
{"id": "C11", "title": "Variable-length naturals round trip", "statement": "For every uint64 n and every following bytes r, VariableNatDecode(VariableNatEncode(n) ++ r) returns n, the number of bytes of VariableNatEncode(n), and no error; VariableNatEncode(n) has the minimal number of 7-bit groups (between 1 and 10 bytes).", "quantifier": "all uint64 values, all trailing bytes", "why_tests_cant": "2^64 values with unbounded suffixes", "anchors": ["address/pointer.go: VariableNatEncode, VariableNatDecode, reverseAny"]}
{"id": "C12", "title": "Variable-length natural decoding is exact", "statement": "VariableNatDecode fails exactly when no byte of the input has its top bit clear; when it succeeds it returns the big-endian base-128 value of the bytes read, and re-encoding that value gives back the bytes read.", "quantifier": "all byte slices", "why_tests_cant": "the input is unbounded; values wrap at 2^64 and leading zero groups are accepted, so exactness only holds for minimal encodings below 2^64", "anchors": ["address/pointer.go: VariableNatDecode"]}
{"id": "C13", "title": "Hex entry point agrees with the byte entry point", "statement": "NewAddressFromHex of the hexadecimal text (either case) of some bytes behaves exactly as NewAddressFromBytes of those bytes; text of odd length or with a non-hex character yields an error and no address.", "quantifier": "all byte slices, all strings", "why_tests_cant": "unbounded strings", "anchors": ["address/address.go: NewAddressFromHex"]}
{"id": "C14", "title": "Network of a parsed Shelley address", "statement": "The network reported by NetworkInfo() of a parsed Shelley address is MainNet for header nibble 1 and TestNet for nibble 0, and String() of a main-network address starts with addr1 / stake1 and of a test-network address with addr_test1 / stake_test1. A header nibble naming neither network is rejected.", "quantifier": "all byte slices the parser accepts", "why_tests_cant": "for all inputs; the rejection clause fails for 14 of the 16 nibbles", "anchors": ["address/address.go: NewAddressFromBytes (networks map)", "address/base.go: Prefix", "address/enterprise.go: Prefix", "address/reward.go: Prefix", "network/network.go: MainNet, TestNet"]}
{"id": "C15", "title": "Address text names its own network", "statement": "NewAddress accepts a bech32 text only if its human-readable part is the one the decoded address itself would print (addr/addr_test/stake/stake_test as the header says).", "quantifier": "all strings", "why_tests_cant": "acceptance of mismatched prefixes must be excluded for all strings; the code ignores the decoded prefix", "anchors": ["address/address.go: NewAddress"]}
{"id": "C16", "title": "Base address projections keep credentials and network", "statement": "ToEnterprise() keeps the network and the payment credential of a base address and ToReward() keeps the network and the stake credential: their bytes are the corresponding header followed by bytes 1..28, respectively 29..56, of the base address.", "quantifier": "all base addresses", "why_tests_cant": "2^448 addresses", "anchors": ["address/base.go: ToEnterprise, ToReward"]}
{"id": "C17", "title": "Addresses serialise as CBOR byte strings", "statement": "MarshalCBOR of every Shelley address (base, enterprise, pointer, reward) succeeds and is the definite-length CBOR byte string of Bytes().", "quantifier": "all addresses", "why_tests_cant": "all addresses; it fails for every reward address because the method value rather than its result is marshalled", "anchors": ["address/base.go: MarshalCBOR", "address/enterprise.go: MarshalCBOR", "address/pointer.go: MarshalCBOR", "address/reward.go: MarshalCBOR"]}
{"id": "C18", "title": "Byron address round trip", "statement": "For every Byron address with a 28-byte hash, tag 0, any derivation payload (absent or of at least one byte) and any network attribute, NewAddressFromBytes(b.Bytes()) returns an address equal to b, and so does NewAddress(b.String()) for the payload sizes wallets use.", "quantifier": "all hashes, all payloads, all attributes", "why_tests_cant": "unbounded payloads; nested CBOR with a CRC; base58 is a radix conversion of the whole number", "anchors": ["address/byron.go: MarshalCBOR, UnmarshalCBOR, String, Bytes", "address/address.go: NewAddress, NewAddressFromBytes"]}
{"id": "C19", "title": "Byron parsing checks its checksum", "statement": "NewAddressFromBytes accepts an input as a Byron address only if it is a two-element CBOR array of a tag-24 byte string and an unsigned integer equal to the CRC-32 of that byte string, whose content is a three-element array with a 28-byte hash and tag 0; any other checksum is rejected with the checksum error.", "quantifier": "all byte slices", "why_tests_cant": "acceptance must be excluded for all other inputs", "anchors": ["address/byron.go: UnmarshalCBOR"]}
{"id": "C20", "title": "Base58 round trip", "statement": "Decoding the base58 text of any byte string, including leading zero bytes, gives back that byte string.", "quantifier": "all byte strings of any length", "why_tests_cant": "whole-number radix conversion, unbounded", "anchors": ["address/byron.go: String", "address/address.go: NewAddress (btcutil base58)"]}
{"id": "C21", "title": "Transaction bytes follow the ledger CDDL", "statement": "Tx.Bytes() is the CBOR array of four elements [body, witness set, valid flag, auxiliary data or null], the body being the CBOR map with keys 0 (inputs), 1 (outputs), 2 (fee), 3 (ttl, only when non-zero) and 7 (auxiliary data hash, only when present), inputs being [hash, index] and outputs [address bytes, amount], all with shortest-form definite-length heads; a standard CBOR decoder recovers every field.", "quantifier": "all transactions (any number of inputs, outputs, witnesses; all amounts, ttl and fees)", "why_tests_cant": "unbounded lists and all integer width classes (0..23, 1, 2, 4, 8 bytes)", "anchors": ["tx/tx.go: Bytes", "tx/tx_body.go: TxBody", "tx/tx_input_output.go: MarshalCBOR, TxOutput", "tx/tx_witness_set.go"]}
{"id": "C22", "title": "The transaction hash commits to every body field", "statement": "If two transaction bodies serialise to the same bytes (equivalently, up to collisions of BLAKE2b-256, have the same Hash()), they have the same inputs in the same order (hash and index), the same outputs (address bytes and amounts), fee, ttl and auxiliary data hash.", "quantifier": "all pairs of bodies", "why_tests_cant": "injectivity over pairs of unbounded structures", "anchors": ["tx/tx.go: Hash", "tx/tx_body.go: Bytes"]}
{"id": "C23", "title": "The transaction hash ignores witnesses", "statement": "Hash() depends only on the body and the metadata: adding, replacing or removing witnesses or changing the valid flag never changes it, and Hash() equals BLAKE2b-256 of the body bytes contained in Bytes().", "quantifier": "all transactions, all witness sets", "why_tests_cant": "all transactions", "anchors": ["tx/tx.go: Hash, Bytes"]}
{"id": "C24", "title": "Build signs exactly the transaction it returns", "statement": "After any history of builder calls, a successful Build returns a transaction with one key witness per signing key, in the order the keys were supplied, each holding that key's public key and that key's signature of the returned transaction's own Hash(); rebuilding without changes returns the same transaction.", "quantifier": "all histories of builder operations, all key lists", "why_tests_cant": "arbitrary interleavings of AddInputs, AddOutputs, SetTTL, Sign, MinFee, AddChangeIfNeeded, Build", "anchors": ["tx/tx_builder.go: Build, Sign"]}
{"id": "C25", "title": "Linear fee formula", "statement": "Fee(l) returns l.TxFeeFixed + l.TxFeePerByte * len(Bytes()) (modulo 2^64, hence exactly when that is below 2^64) and leaves the inputs, outputs, fee, ttl and witnesses unchanged.", "quantifier": "all transactions and all fee parameters", "why_tests_cant": "all sizes and parameters, including wrap-around", "anchors": ["tx/tx.go: Fee", "fees/linear.go: NewLinearFee"]}
{"id": "C26", "title": "A built transaction pays at least its minimum fee", "statement": "If AddChangeIfNeeded is called last and the transaction is then built and signed, its declared fee is at least TxFeeFixed + TxFeePerByte * size of the built transaction.", "quantifier": "all inputs, outputs, change addresses, parameters and numbers of signing keys", "why_tests_cant": "depends on CBOR width classes of fee and change and on the number of keys; sufficient conditions hold for all values, and the excess cases are exactly those where a size estimate is too small (several signers, change width, long change address)", "anchors": ["tx/tx_builder.go: MinFee, AddChangeIfNeeded, Build", "tx/tx.go: Fee"]}
{"id": "C27", "title": "Value is conserved by AddChangeIfNeeded", "statement": "After AddChangeIfNeeded the sum of inputs equals the sum of outputs plus the fee.", "quantifier": "all amounts, all histories", "why_tests_cant": "all 64-bit amounts; it holds modulo 2^64 always and over the integers exactly when the inputs cover outputs plus fee; otherwise the change wraps around to a value near 2^64", "anchors": ["tx/tx_builder.go: AddChangeIfNeeded, getTotalInputOutputs"]}
{"id": "C28", "title": "AddChangeIfNeeded changes nothing else", "statement": "AddChangeIfNeeded sets the fee to MinFee() and adds at most one output, paying the given address; existing inputs, outputs, ttl and metadata keep their values and order, and when inputs equal outputs plus fee no output is added.", "quantifier": "all builder states", "why_tests_cant": "all states; the last clause is false (a zero-value output is appended)", "anchors": ["tx/tx_builder.go: AddChangeIfNeeded"]}
{"id": "C29", "title": "Asking for the minimum fee does not change the transaction", "statement": "MinFee() leaves the transaction as it was: Tx().Bytes() is the same before and after.", "quantifier": "all builder states", "why_tests_cant": "all states and histories; MinFee writes a placeholder witness through the shared witness pointer", "anchors": ["tx/tx_builder.go: MinFee"]}
{"id": "C30", "title": "Placeholder witnesses never reach a built transaction", "statement": "Whatever MinFee or AddChangeIfNeeded calls happened before, a transaction returned by Build contains only witnesses made from the builder's signing keys.", "quantifier": "all histories of builder operations", "why_tests_cant": "all interleavings", "anchors": ["tx/tx_builder.go: Build, MinFee"]}
{"id": "C31", "title": "Inputs and outputs accumulate in order", "statement": "After any sequence of builder calls the transaction's inputs are exactly those added, in order, and its outputs exactly those added (including change outputs), in order; ttl is the last one set and fee the last one computed.", "quantifier": "all operation sequences", "why_tests_cant": "unbounded histories", "anchors": ["tx/tx_builder.go", "tx/tx.go: AddInputs, AddOutputs"]}
{"id": "C32", "title": "Auxiliary data hash matches the auxiliary data", "statement": "Whenever a transaction with metadata is serialised by Bytes(), the auxiliary data hash in its body is BLAKE2b-256 of the very metadata bytes that are serialised next to it, and the hash signed by Build is the hash of the body that is later serialised.", "quantifier": "all metadata values and all map iteration orders of the Go runtime", "why_tests_cant": "Go randomises map iteration per call and the encoder does not sort, so the claim ranges over schedules: it holds for metadata without multi-entry maps and is false otherwise", "anchors": ["tx/tx.go: CalculateAuxiliaryDataHash, Bytes, Hash"]}
{"id": "C33", "title": "Removing metadata removes its hash", "statement": "After Metadata is set, serialised, and set back to nil, the transaction serialises without an auxiliary data hash.", "quantifier": "all transactions and histories", "why_tests_cant": "histories; the stale hash is never cleared", "anchors": ["tx/tx.go: CalculateAuxiliaryDataHash"]}
{"id": "C34", "title": "A built transaction is not changed by later builder calls", "statement": "The transaction value returned by Build keeps its bytes and hash whatever is done to the builder afterwards.", "quantifier": "all histories after Build", "why_tests_cant": "all later histories; body pointer is shared, so the claim holds only for calls that do not touch the body", "anchors": ["tx/tx_builder.go: Build"]}
{"id": "C35", "title": "Builders are isolated from each other", "statement": "Operations on one builder never change another builder's transaction or signing keys.", "quantifier": "all interleavings of operations on any number of builders", "why_tests_cant": "all interleavings; key slices passed with spare capacity share their backing array", "anchors": ["tx/tx_builder.go: NewTxBuilder, Sign"]}
{"id": "C36", "title": "Transaction inputs take the hash they are given", "statement": "NewTxInput with a 64-digit hexadecimal hash stores the 32 bytes it denotes; malformed text is reported.", "quantifier": "all strings", "why_tests_cant": "all strings; malformed text is silently truncated at the first bad digit", "anchors": ["tx/tx_input_output.go: NewTxInput"]}
{"id": "C37", "title": "Root keys are clamped", "statement": "For every 32-byte seed NewXPrv returns a 96-byte key whose scalar half has its lowest three bits clear, highest bit clear, second-highest set and third-highest clear, followed by the unmodified rest of SHA-512 and the SHA-256 chain code; other lengths give an error. FromBip39Entropy yields keys with the same bits for every entropy and password.", "quantifier": "all seeds, entropies and passwords", "why_tests_cant": "2^256 seeds; the property must hold for any hash output", "anchors": ["bip32/bip32.go: NewXPrv, FromBip39Entropy, NormalizeBytesForce3rd"]}
{"id": "C38", "title": "Derivation arithmetic is exact", "statement": "The scalar half of Derive(i) is (kL + 8 * (first 28 bytes of Z)) mod 2^256 and the second half (kR + last 32 bytes of Z) mod 2^256, little-endian, with Z and the chain code taken from HMAC-SHA-512 keyed by the chain code over the BIP32-Ed25519 message for the index (0x00/0x01 with the private key when i >= 2^31, 0x02/0x03 with the public key otherwise).", "quantifier": "all 96-byte keys and all 2^32 indices", "why_tests_cant": "carry propagation over 32 bytes for all operands", "anchors": ["bip32/bip32.go: Derive, add28mul8, add256bits, isHardened"]}
{"id": "C39", "title": "Derived keys stay valid scalars along every path", "statement": "Every key obtained from a root key by any sequence of fewer than 2^26 Derive calls is 96 bytes long and has a scalar half that is a multiple of 8, at least 2^254 and below 2^255, so it never wraps and satisfies the precondition of the public-key computation.", "quantifier": "all root keys, all derivation paths of length below 2^26", "why_tests_cant": "all paths (sequences of 32-bit indices)", "anchors": ["bip32/bip32.go: Derive, add28mul8"]}
{"id": "C40", "title": "Derivation messages are unambiguous", "statement": "The byte strings fed to HMAC by Derive for distinct indices, for hardened and soft indices, and for key material and chain code, are pairwise distinct for any key; soft derivation reads the private key only through the public key.", "quantifier": "all keys, all pairs of indices", "why_tests_cant": "2^64 pairs of indices for every key", "anchors": ["bip32/bip32.go: Derive"]}
{"id": "C41", "title": "Public keys and key hashes have the right shape", "statement": "For every 96-byte key Public() is 64 bytes: the 32-byte encoded point [kL]B followed by the unchanged 32-byte chain code, so parent and public key share the chain code; PublicKey() and ChainCode() split it without overlap; Hash() is a 28-byte value.", "quantifier": "all keys", "why_tests_cant": "all keys", "anchors": ["bip32/bip32.go: Public, PublicKey, ChainCode, Hash, MakePublicKey", "crypto/crypto.go: Blake2b224"]}
{"id": "C42", "title": "Hash constructors accept exactly their length", "statement": "Each *FromBytes constructor returns the given bytes unchanged when their number is the declared one (28 or 32) and an error otherwise.", "quantifier": "all byte slices", "why_tests_cant": "all lengths", "anchors": ["crypto/crypto.go: Ed25519KeyHashFromBytes .. KESVKeyFromBytes"]}
{"id": "C43", "title": "Scalar reduction is exact and canonical", "statement": "ScReduce of any 64 bytes is the 32-byte little-endian encoding of their value modulo the group order l, in canonical form (below l).", "quantifier": "all 2^512 inputs", "why_tests_cant": "limb arithmetic with signed carries; overflow and canonicity must hold for every input", "anchors": ["crypto/edwards25519/edwards25519.go: ScReduce, load3, load4"]}
{"id": "C44", "title": "Scalar multiply-add is exact and canonical", "statement": "ScMulAdd(a, b, c) is the 32-byte little-endian encoding of (a*b + c) mod l, below l.", "quantifier": "all 2^768 inputs", "why_tests_cant": "limb arithmetic with signed carries", "anchors": ["crypto/edwards25519/edwards25519.go: ScMulAdd"]}
{"id": "C45", "title": "ScMinimal decides canonicity", "statement": "ScMinimal returns true exactly for 32-byte little-endian values below l.", "quantifier": "all 32-byte inputs", "why_tests_cant": "2^256 inputs; word-wise comparison loop", "anchors": ["crypto/edwards25519/edwards25519.go: ScMinimal, order"]}
{"id": "C46", "title": "Field arithmetic is exact modulo 2^255-19", "statement": "On field elements within their documented limb bounds, FeAdd, FeSub, FeNeg, FeMul, FeSquare, FeSquare2 return an element whose value is the sum, difference, negation, product, square, doubled square modulo 2^255-19, no intermediate 32- or 64-bit value overflows, and the result is within the documented output bounds; FeInvert returns the inverse (0 for 0).", "quantifier": "all field elements within bounds", "why_tests_cant": "2^250+ operands; overflow freedom is a bound over all of them", "anchors": ["crypto/edwards25519/edwards25519.go: FeAdd, FeSub, FeNeg, FeMul, FeCombine, FeSquare, FeSquare2, FeInvert"]}
{"id": "C47", "title": "Field encoding is canonical and round trips", "statement": "FeToBytes of any in-bounds element is the 32-byte little-endian encoding of the unique representative in [0, 2^255-19) of its value, so equal values have equal bytes; FeFromBytes of 32 bytes has the value of the low 255 bits; FeIsNegative and FeIsNonZero decide parity and non-zeroness of that representative.", "quantifier": "all field elements within bounds, all 32-byte strings", "why_tests_cant": "quotient estimate must be right for every element", "anchors": ["crypto/edwards25519/edwards25519.go: FeToBytes, FeFromBytes, FeIsNegative, FeIsNonZero"]}
{"id": "C48", "title": "Point formulas implement the Edwards addition law", "statement": "The doubling, addition, subtraction and mixed-addition formulas, with the representation changes between extended, projective, completed and cached forms, compute the twisted Edwards addition law of -x^2+y^2=1+d x^2 y^2 on the represented affine points, and results lie on the curve.", "quantifier": "all pairs of represented curve points", "why_tests_cant": "polynomial identities over all points; exceptional cases must be excluded", "anchors": ["crypto/edwards25519/edwards25519.go: Double, geAdd, geSub, geMixedAdd, geMixedSub, ToCached, ToProjective, ToExtended"]}
{"id": "C49", "title": "Fixed-base scalar multiplication is exact", "statement": "For every 32-byte scalar a with a[31] <= 127, GeScalarMultBase computes [a]B for the Ed25519 base point B.", "quantifier": "all 2^255 scalars", "why_tests_cant": "2^255 scalars; relies on the signed radix-16 recoding and on 256 precomputed table entries", "anchors": ["crypto/edwards25519/edwards25519.go: GeScalarMultBase, selectPoint, equal, negative, FeCMove", "crypto/edwards25519/const.go: base"]}
{"id": "C50", "title": "Signatures verify", "statement": "For every key whose scalar half is below 2^255 and every message, Sign returns 64 bytes R||S with S < l such that [S]B = R + [H(R||A||M)]A for A the public key given by Public(): the signature is accepted by an RFC 8032 Ed25519 verifier. Sign is deterministic.", "quantifier": "all keys, all messages of any length", "why_tests_cant": "all keys and messages; requires the group law", "anchors": ["bip32/bip32.go: Sign, Public, MakePublicKey"]}
{"id": "C51", "title": "Soft derivation commutes with taking the public key", "statement": "Two private keys with the same Public() value have, for every soft index, children with the same Public() value: a watch-only wallet can follow soft derivation.", "quantifier": "all keys, all indices below 2^31", "why_tests_cant": "all keys; requires that scalar multiplication is a homomorphism", "anchors": ["bip32/bip32.go: Derive, Public"]}
{"id": "C52", "title": "Point decoding inverts point encoding", "statement": "ExtendedGroupElement.FromBytes(ToBytes(P)) succeeds and represents P for every curve point P; FromBytes fails exactly when no curve point has the given y coordinate.", "quantifier": "all curve points, all 32-byte strings", "why_tests_cant": "square-root extraction must be right for every field element", "anchors": ["crypto/edwards25519/edwards25519.go: FromBytes, ToBytes, fePow22523"]}
{"id": "C53", "title": "Sliding-window recoding and double scalar multiplication are exact", "statement": "GeDoubleScalarMultVartime(a, A, b) computes [a]A + [b]B for all scalars a, b and curve points A.", "quantifier": "all 32-byte scalars, all curve points", "why_tests_cant": "recoding must preserve the value for all 2^256 scalars", "anchors": ["crypto/edwards25519/edwards25519.go: slide, GeDoubleScalarMultVartime"]}
{"id": "C54", "title": "Constant-time selection selects", "statement": "FeCMove(f, g, b) replaces f by g when b = 1 and leaves it when b = 0, limb by limb, and the table lookup returns entry |b| negated when b < 0 and the neutral element when b = 0.", "quantifier": "all int32 limbs, all digits -8..8, all table rows", "why_tests_cant": "bit masks over all 32-bit values", "anchors": ["crypto/edwards25519/edwards25519.go: FeCMove, equal, negative, selectPoint, PreComputedGroupElementCMove"]}
{"id": "C55", "title": "Command-line backend queries the configured network", "statement": "The cardano-cli backend passes --mainnet exactly when the node was configured for the main network and the configured magic otherwise.", "quantifier": "all networks", "why_tests_cant": "decision rule for every network value; the branches are swapped", "anchors": ["node/cardano-cli.go: execCommand"]}
{"id": "C56", "title": "Command-line UTXO listing is complete", "statement": "UTXOs of the cardano-cli backend returns one input per listed unspent output, in order, for every well-formed table of any number of rows.", "quantifier": "all tables", "why_tests_cant": "unbounded tables; the slice bound uses the byte length, so every table panics", "anchors": ["node/cardano-cli.go: UTXOs"]}
{"id": "C57", "title": "Blockfrost UTXO conversion is faithful", "statement": "Each unspent output reported by the API becomes one input, in order, with the reported hash, index and lovelace quantity; an unparsable quantity is reported as an error and no partial result.", "quantifier": "all API responses", "why_tests_cant": "unbounded lists; indices at or above 65536 are truncated", "anchors": ["node/blockfrost.go: UTXOs"]}
{"id": "C58", "title": "Backends address the configured network", "statement": "Blockfrost queries and submissions go to the test network server exactly when the network id is 0 and both clients (query and submit) agree.", "quantifier": "all network values", "why_tests_cant": "decision rule for all network values", "anchors": ["node/blockfrost.go: getNetwork, NewBlockfrostClient"]}
{"id": "C59", "title": "Command-line client path", "statement": "NewCardanoCliNode uses the given path when a non-empty one is supplied and cardano-cli otherwise.", "quantifier": "all argument lists", "why_tests_cant": "all variadic lists; an explicit empty path yields an empty command", "anchors": ["node/cardano-cli.go: NewCardanoCliNode"]}
{"id": "C60", "title": "Byron addresses of every network are readable", "statement": "Every Byron address laid out as Cardano does is accepted by NewAddressFromBytes: mainnet addresses without network attribute, and addresses of other networks, whose attribute 2 is a CBOR byte string holding the CBOR encoding of the protocol magic.", "quantifier": "all hashes, payloads and protocol magics", "why_tests_cant": "The tests contain mainnet Byron addresses only; that every testnet address fails is a statement about all of them.", "anchors": ["address/byron.go:17-26", "address/byron.go:60-105"]}
{"id": "C61", "title": "Bech32 decoding never panics", "statement": "Decode returns a result or an error for every input string and never panics.", "quantifier": "all byte strings", "why_tests_cant": "a panic hides behind one combination of length, separator position, letter case and checksum", "anchors": ["internal/bech32/bech32.go: Decode"]}
{"id": "C62", "title": "Bech32 detects every burst of substitutions", "statement": "Replacing any characters of the data part of an accepted string by other bech32 characters, as long as all the changes lie within six consecutive positions, makes Decode fail.", "quantifier": "all accepted strings of any length, all windows, all replacement characters", "why_tests_cant": "about 2^30 error patterns for every window of every string", "anchors": ["internal/bech32/bech32.go: Decode, polymod, verifyChecksum"]}
{"id": "C63", "title": "Bech32 has no malleability on arbitrary bytes", "statement": "C02 for every byte string, including strings with non-ASCII characters.", "quantifier": "all byte strings", "why_tests_cant": "depends on the Unicode case tables", "anchors": ["internal/bech32/bech32.go: Decode"]}
{"id": "C64", "title": "Truncated base addresses are rejected", "statement": "A bech32 text or a hexadecimal text whose payload has a base-address header but fewer than 57 bytes is never accepted as an address.", "quantifier": "all truncations of all base addresses", "why_tests_cant": "Whether the parser panics or silently fills the missing credential depends on the capacity of the decoded slice, so each entry point and each length behaves differently.", "anchors": ["address/address.go:32-55", "address/address.go:155-166", "internal/bech32/bech32.go:55-77"]}
{"id": "C65", "title": "Base58 decoding is exact and injective", "statement": "Two different strings of base58 characters never decode to the same bytes: every such string is the base58 text of what it decodes to; a string with any other character decodes to the empty byte string.", "quantifier": "all strings", "why_tests_cant": "Tests decode a few strings; injectivity is about all pairs.", "anchors": ["address/address.go:31-41", "address/byron.go:35"]}
{"id": "C66", "title": "The Byron checksum is CRC-32 and catches short bursts", "statement": "The checksum is the reflected CRC-32 remainder of the polynomial definition, and an input that differs from a valid one in at most four consecutive payload bytes is rejected with the checksum error.", "quantifier": "all payloads, positions and changes of up to four bytes", "why_tests_cant": "The number of corruptions is far beyond enumeration.", "anchors": ["address/byron.go:48-57", "address/byron.go:85-92"]}
{"id": "C67", "title": "The CBOR reader used for addresses accepts exactly the well-formed encodings", "statement": "The model of the CBOR reader accepts an input if and only if it starts with a well-formed encoding (RFC 8949) of an item, definite or indefinite in length and with any argument width, and the item is unique.", "quantifier": "all byte strings", "why_tests_cant": "The set of encodings is infinite and recursive.", "anchors": ["address/byron.go:60-105"]}
{"id": "C68", "title": "Protocol parameters are converted faithfully", "statement": "The blockfrost backend's ProtocolParameters returns the reported fee coefficients, maximum transaction size, protocol version and minimum UTXO value unchanged; an unparsable minimum UTXO value is reported as an error.", "quantifier": "All API answers", "why_tests_cant": "The answer's numbers are machine integers of other widths than the result's fields; tests use a handful of current values", "anchors": ["node/blockfrost.go:66-87", "protocol/protocol.go:14-30"]}
{"id": "C69", "title": "Built transactions carry valid signatures", "statement": "For every history of builder calls, every transaction returned by Build carries one witness per builder key, in order: the public key [kL]B of that key and a 64-byte Ed25519 signature (RFC 8032 equation) of the BLAKE2b-256 hash of the returned transaction's serialised body. With 96-byte keys and a well-formed transaction Build succeeds.", "quantifier": "all histories of calls, all transactions, all keys with scalar half below 2^255", "why_tests_cant": "all histories, transactions and keys; needs the group law", "anchors": ["tx/tx_builder.go: Build", "tx/tx.go: Hash", "bip32/bip32.go: Sign, Public"]}
{"id": "C70", "title": "Bech32 texts conform to BIP-173", "statement": "Decode accepts an ASCII string exactly when it is a BIP-173 text (valid prefix, one case, separator, data part over the alphabet, zero padding of fewer than five bits, residue 1 of the BCH code over GF(32) with the published generator polynomial) and returns the prefix and bytes of that text; Encode produces such a text for every valid prefix and all bytes. The length limit of 90 characters of BIP-173 is not imposed.", "quantifier": "all ASCII strings; all prefixes and byte strings", "why_tests_cant": "a round trip passes with any self-consistent checksum; conformance quantifies over all strings", "anchors": ["internal/bech32/bech32.go: Encode, Decode, polymod, hrpExpand, verifyChecksum, createChecksum, convertBits"]}
{"id": "C71", "title": "Three mistyped characters are always detected", "statement": "Decode rejects every string obtained from an accepted ASCII string by substituting up to three characters of the data part, or one character of the prefix and at most one of the data part (a prefix character enters the checksum as two symbols), in texts of up to 1023 checksummed symbols.", "quantifier": "all accepted strings and all substitutions", "why_tests_cant": "the number of strings and of substitution patterns is astronomical", "anchors": ["internal/bech32/bech32.go: Decode, polymod"]}
{"id": "C72", "title": "Four mistyped characters are always detected", "statement": "Decode rejects every string obtained from an accepted address by substituting up to four characters of the data part.", "quantifier": "all accepted strings and all substitutions", "why_tests_cant": "the number of strings and of substitution patterns is astronomical; an undetected pattern is a needle in a haystack", "anchors": ["internal/bech32/bech32.go: Decode, polymod"]}
{"id": "C73", "title": "A wallet's address belongs to its keys", "statement": "For every entropy and network: FromBip39Entropy gives a root key; the address recipe of the examples (CIP-1852 paths 1852'/1815'/0'/0/0 and 1852'/1815'/0'/2/0) returns, without panic, a base address whose credentials are the BLAKE2b-224 hashes of the public keys at these paths; restoring from the same entropy gives the same base address and its enterprise form; its text is a BIP-173 text that NewAddress reads back; and every transaction Build makes with the returned key carries a witness whose public key hashes to the payment credential and whose signature of the body hash verifies.", "quantifier": "all entropies, root keys, networks, builder histories with that key", "why_tests_cant": "tests fix one entropy and compare one golden transaction; here the chain from entropy to valid witness holds for all", "anchors": ["examples/transactions/txbuilder/main.go: generateBaseAddress", "examples/address/restore/main.go: generateEnterprise, generateBaseAddress", "bip32/bip32.go: FromBip39Entropy, Derive, Public, Sign", "tx/tx_builder.go: Build"]}
{"id": "C74", "title": "harden gives hardened indices", "statement": "harden(num) is the hardened index num + 2^31 for every uint argument.", "quantifier": "all 64-bit arguments", "why_tests_cant": "wrong only for arguments from 2^31 on, where the conversion to uint32 wraps silently", "anchors": ["examples/address/generate/main.go: harden", "examples/transactions/txbuilder/main.go: harden"]}
{"id": "C75", "title": "The payment example submits a valid transaction", "statement": "For every root key, receiver (a Shelley payment address or none), list of unspent outputs with one of at least 6.2 ada, tip and fee parameters: the example ends without error; the submitted bytes are the CBOR of a transaction that spends exactly the chosen output, pays 5 ada to the receiver and the rest minus the fee to the source address, with TTL tip + 300, and carries one witness that verifies under the payment key; inputs equal outputs plus fee; and the fee is at least the linear fee of the submitted bytes.", "quantifier": "all root keys, receivers, unspent outputs, tips, fee parameters up to 1.2 ada for 600 bytes", "why_tests_cant": "the example needs a node; the fee is too low only when the change lies just above 2^32 lovelace", "anchors": ["examples/transactions/txbuilder/main.go: main", "tx/tx_builder.go: AddChangeIfNeeded, MinFee, Build"]}
{"id": "C76", "title": "The payment example spends the first sufficient output", "statement": "The example spends the first unspent output of at least 6.2 ada, and builds no transaction if there is none.", "quantifier": "all lists of unspent outputs", "why_tests_cant": "needs several sufficient outputs, or none", "anchors": ["examples/transactions/txbuilder/main.go: main"]}
{"id": "C77", "title": "Prefix names the network of an address", "statement": "Prefix() of every address is the human-readable part CIP-5 gives to it: addr or stake on main networks (network id not 0), addr_test or stake_test on test networks (id 0), empty for Byron addresses.", "quantifier": "all addresses, all networks (every id and magic)", "why_tests_cant": "the tests use only the two predefined networks", "anchors": ["address/base.go: Prefix", "address/enterprise.go: Prefix", "address/reward.go: Prefix", "address/pointer.go: Prefix", "address/byron.go: Prefix"]}
{"id": "C78", "title": "The JSON reader accepts exactly RFC 8259", "statement": "A byte string is read as a value exactly if it is a JSON text (RFC 8259) of that value nested at most 10000 deep; each text is read in one way.", "quantifier": "all byte strings", "why_tests_cant": "infinitely many texts; malformed ones are hardly tested", "anchors": ["protocol/protocol.go: loadProtocolFromBytes", "node/cardano-cli.go: ProtocolParameters, QueryTip"]}
{"id": "C79", "title": "Protocol parameters are read as the document states them", "statement": "LoadProtocol (and the command line backend) returns a protocol without error exactly if the text is JSON whose object gives, for each parameter, an unsigned number in range or null or nothing; the value is that of the last non-null member whose name matches up to case folding, whatever the order, whitespace, escapes and further members; versions come from the nested objects. An unreadable file or a failing command is an error.", "quantifier": "all byte strings, all protocols", "why_tests_cant": "one file is tested", "anchors": ["protocol/protocol.go: LoadProtocol, loadProtocolFromBytes", "node/cardano-cli.go: ProtocolParameters"]}
{"id": "C80", "title": "Missing protocol parameters are reported", "statement": "A document that lacks a protocol parameter is rejected.", "quantifier": "all documents", "why_tests_cant": "the tested file has all parameters", "anchors": ["protocol/protocol.go: LoadProtocol"]}
{"id": "C81", "title": "The network tip is read as stated", "statement": "QueryTip returns slot, epoch and block of the document the command prints (as in C79), and those of the latest block of the API when they are not negative.", "quantifier": "all documents, all API answers with non-negative numbers", "why_tests_cant": "needs a node", "anchors": ["node/cardano-cli.go: QueryTip", "node/blockfrost.go: QueryTip"]}
{"id": "C82", "title": "The submitted file is a text envelope of the transaction", "statement": "For every serialisable transaction SubmitTx writes JSON with a type naming the era, a description, and cborHex, whose hexadecimal text decodes to the transaction's bytes.", "quantifier": "all transactions within CBOR ranges, all map orders", "why_tests_cant": "needs cardano-cli", "anchors": ["node/cardano-cli.go: SubmitTx"]}
{"id": "C83", "title": "Options and their values are separate arguments", "statement": "Each option with a value (--tx-file, --address, --testnet-magic) is passed to cardano-cli as two arguments.", "quantifier": "all networks, file names and addresses", "why_tests_cant": "needs cardano-cli", "anchors": ["node/cardano-cli.go: execCommand, UTXOs, SubmitTx"]}
{"id": "C84", "title": "Submission returns the transaction id", "statement": "SubmitTx of the blockfrost backend posts exactly the transaction's bytes to the configured network and returns the transaction id the API reports (a JSON string), or the error it reports.", "quantifier": "all transactions, networks, servers", "why_tests_cant": "a test would need a server; the answer's form is never checked", "anchors": ["node/blockfrost.go: SubmitTx, getNetwork"]}
{"id": "C85", "title": "Hex is the hexadecimal text of Bytes", "statement": "Tx.Hex() is the lower-case hexadecimal text of Tx.Bytes(), so it determines the bytes, and it fails exactly when Bytes fails. The same holds for TxBody.Hex() and TxBody.Bytes().", "quantifier": "all transactions, bodies and metadata orders", "why_tests_cant": "tests compare one golden transaction", "anchors": ["tx/tx.go: Hex", "tx/tx_body.go: Bytes, Hex"]}
{"id": "C86", "title": "NetworkInfo reports an address's network", "statement": "NetworkInfo() of an address made with a network is that network; MainNet() is id 1 with magic 764824073 and TestNet() is id 0 with magic 1097911063; a Byron address is on the main network exactly when it has no network attribute, and otherwise on the test network with the magic its attribute holds.", "quantifier": "all addresses and networks", "why_tests_cant": "tests look at a handful of addresses on the two known networks", "anchors": ["address/byron.go: NetworkInfo", "address/base.go: NetworkInfo", "address/enterprise.go: NetworkInfo", "address/pointer.go: NetworkInfo", "address/reward.go: NetworkInfo", "network/network.go: MainNet, TestNet"]}
{"id": "C87", "title": "Reading address text never panics", "statement": "NewAddress returns an address or an error, and does not panic, for every text.", "quantifier": "all ASCII texts (and all memory layouts of the runtime)", "why_tests_cant": "the panicking texts are an infinite family (any base58 text with one wrong character); tests only use valid addresses", "anchors": ["address/address.go:32-46", "address/address.go:57-166"]}
{"id": "C88", "title": "Parsed addresses own their bytes", "statement": "An address returned by NewAddressFromBytes, NewAddressFromHex or NewAddress does not change when memory the caller holds, in particular the buffer it was parsed from, is written to later.", "quantifier": "all buffers, all addresses, all later contents of the memory", "why_tests_cant": "Sharing shows only when the buffer is reused after parsing; tests parse fresh literals.", "anchors": ["address/address.go:57-166", "address/stake_credential.go:15-27", "address/base.go:53-68"]}
{"id": "C89", "title": "Normalising a key leaves the argument alone", "statement": "NormalizeBytesForce3rd returns a normalised copy and does not write to its argument; the parts of a key returned by ChainCode and PublicKey are copies.", "quantifier": "all byte slices in all states of memory", "why_tests_cant": "A test compares the result; it does not look at the argument again, or at an argument of a call that panicked.", "anchors": ["bip32/bip32.go:61-67", "bip32/bip32.go:148-169"]}
{"id": "C90", "title": "Keys of the wrong length do not sign", "statement": "Sign panics or fails for a private key of fewer than 64 bytes, and PublicKey for a public key of fewer than 32.", "quantifier": "all key slices of all lengths and capacities", "why_tests_cant": "Slice expressions are bounded by the capacity, which no value passed in a test literal exceeds.", "anchors": ["bip32/bip32.go:148-150", "bip32/bip32.go:174-184", "bip32/bip32.go:198-236"]}
{"id": "C91", "title": "Inputs and outputs are fixed when they are added", "statement": "A TxInput or TxOutput given to AddInputs or AddOutputs is part of the transaction as it was then; what the caller does with it later does not change the transaction.", "quantifier": "all programs that add, share, build and write through the pointers they kept, in any order", "why_tests_cant": "needs every program with every pattern of shared pointers; the claim fails for every built transaction and every other amount, and holds exactly when nobody writes", "anchors": ["tx/tx.go: AddInputs, AddOutputs", "tx/tx_builder.go: AddInputs, AddOutputs, AddChangeIfNeeded, Build", "tx/tx_input_output.go: NewTxInput, NewTxOutput"]}
{"id": "C92", "title": "A key may be wiped once it has been given to Sign", "statement": "After Sign the caller can overwrite the key bytes; Build still signs with the key that was given.", "quantifier": "all programs, all keys, all overwritings", "why_tests_cant": "depends on when the bytes are read, for every program; false before Build, true after it", "anchors": ["tx/tx_builder.go: Sign, NewTxBuilder, Build", "bip32/bip32.go: XPrv"]}
{"id": "C93", "title": "An auxiliary data hash is present exactly when auxiliary data are", "statement": "In the bytes written by Tx.Bytes(), the body has an auxiliary data hash (key 7) exactly when the fourth element is not null.", "quantifier": "all transactions, metadata values (nil values inside the interface included) and map orders", "why_tests_cant": "a nil map inside a non-nil interface is a case testers do not think of; the claim ranges over all metadata values", "anchors": ["tx/tx.go: CalculateAuxiliaryDataHash, Bytes"]}
{"id": "C94", "title": "Serialisation fails exactly for what CBOR cannot hold", "statement": "Bytes(), Hex(), Hash() and Fee() of a transaction return an error exactly when an output has a reward address or the metadata contain, at any depth, a value CBOR cannot represent; otherwise they succeed, and they never panic.", "quantifier": "all transactions and metadata values", "why_tests_cant": "unbounded nesting and lists; the error is in a place no fixed test reaches", "anchors": ["tx/tx.go: Bytes, Hex, Hash, Fee", "tx/tx_input_output.go: TxOutput", "address/reward.go: MarshalCBOR"]}
{"id": "C95", "title": "Metadata outside the ledger's format are reported", "statement": "Auxiliary data written by Bytes() are metadata in the sense of the ledger: a map from 64-bit labels to metadata values whose byte and text strings have at most 64 bytes, the text being UTF-8. Other metadata are reported as an error.", "quantifier": "all transactions and metadata values", "why_tests_cant": "the limit is a property of all nested values", "anchors": ["tx/tx.go: CalculateAuxiliaryDataHash, Bytes"]}
{"id": "C96", "title": "A signature fits only its message", "statement": "A signature made by Sign for one message is accepted by an RFC 8032 verifier for another message exactly when the two SHA-512 challenges are congruent modulo l, and no other signature with the same R is accepted for the same message.", "quantifier": "all keys on derivation paths (and all scalars up to the recoding limit that are no multiple of l), all pairs of messages, all 64-byte signatures", "why_tests_cant": "Tests try a few wrong messages; a cofactor, reduction or hashing mistake that lets a signature fit a second message or a second S shows on values no test will meet.", "anchors": ["bip32/bip32.go:198-236", "crypto/edwards25519/edwards25519.go"]}
{"id": "C97", "title": "Different messages get different nonces", "statement": "Two signatures have the same R exactly when SHA-512(kR, m) of the two are congruent modulo l; were the nonces of one key equal for two challenges, the scalar would follow from the two signatures.", "quantifier": "all pairs of keys and messages", "why_tests_cant": "A nonce that does not depend on all of the message or of kR leaks the key only for particular pairs of messages.", "anchors": ["bip32/bip32.go:198-236"]}
{"id": "C98", "title": "Sibling keys differ", "statement": "Two children of one key have the same public key exactly when the first 28 bytes of their HMAC values are equal, and the HMAC inputs of different indices differ.", "quantifier": "all keys with a scalar below 2^255, in particular all on derivation paths; all pairs of indices", "why_tests_cant": "A test compares a few indices; that the addition and the curve multiplication lose nothing of the HMAC value is a statement about all of them.", "anchors": ["bip32/bip32.go:69-138"]}
{"id": "C99", "title": "No derived key is degenerate", "statement": "BIP32-Ed25519 asks to discard a child whose scalar is a multiple of l. Derive does not check this; no key on a derivation path from a root key needs it: its public key is never the neutral point and has order exactly l.", "quantifier": "all root keys, all paths shorter than 2^26, all hash functions", "why_tests_cant": "The event has no known example, so that no test can exercise the missing check.", "anchors": ["bip32/bip32.go:98-138"]}
{"id": "C100", "title": "Metadata are fixed when a transaction is signed", "statement": "Once Build has returned a transaction, changes the caller makes to the map that was assigned to Metadata change neither its hash nor its bytes.", "quantifier": "all states, all transactions, all contents of the map before and after", "why_tests_cant": "Tests build and serialise at once; the effect needs a write to a shared map between Build and Bytes.", "anchors": ["tx/tx.go:12-18", "tx/tx.go:83-93", "tx/tx_builder.go:23-42"]}
{"id": "C101", "title": "AddChangeIfNeeded can be called again", "statement": "A second call of AddChangeIfNeeded after one that balanced the transaction (for instance to send the change elsewhere, or after reconsidering the inputs) leaves the transaction balanced.", "quantifier": "all builder states, addresses and fee parameters", "why_tests_cant": "the wrong amount depends on the size of the transaction and on the fees; tests call AddChangeIfNeeded once", "anchors": ["tx/tx_builder.go:49-62", "tx/tx_builder.go:80-117"]}
{"id": "C102", "title": "A witness fits only its own transaction", "statement": "A witness of a built transaction is not accepted for another transaction body: it is accepted exactly if the SHA-512 challenges of the two body hashes agree modulo the group order, and bodies that differ in an input, output, fee, ttl or auxiliary data hash have different encodings.", "quantifier": "all histories, all keys with scalars below 2^255 not divisible by the group order, all other bodies", "why_tests_cant": "a statement about all other bodies", "anchors": ["tx/tx_builder.go:23-42", "tx/tx.go:60-107", "bip32/bip32.go"]}
{"id": "C103", "title": "A missing input, output or address is reported", "statement": "If an input or output of a transaction is a nil pointer, or an output has no address (as after an ignored error of NewAddress), then Bytes, Hash, MinFee, AddChangeIfNeeded and Build report an error.", "quantifier": "all transactions, with nil at any places", "why_tests_cant": "the callers' tests use addresses that parse; the failure only shows when the ledger rejects the transaction", "anchors": ["tx/tx_input_output.go:10-53", "tx/tx_body.go:10-30", "tx/tx_builder.go:23-117"]}
{"id": "C104", "title": "A fee is set only when it could be measured", "statement": "MinFee and AddChangeIfNeeded do not return or set a fee for a transaction that cannot be serialised (an output with a reward address, metadata that CBOR cannot represent).", "quantifier": "all builder states and histories", "why_tests_cant": "Fee's error is discarded inside MinFee, so that no test of the public interface sees it", "anchors": ["tx/tx_builder.go:80-117", "tx/tx_builder.go:49-62"]}
{"id": "C105", "title": "Protocol limits on size and value are kept", "statement": "Build returns no transaction longer than the protocol's MaxTxSize, and AddChangeIfNeeded adds no change output below the protocol's MinUTXOValue.", "quantifier": "all histories, all bounds, keys and outputs", "why_tests_cant": "the ledger enforces both limits only on submission; the parameters are loaded and never read by the builder, so no unit test exercises them", "anchors": ["protocol/protocol.go:14-30", "tx/tx_builder.go:12-62", "tx/tx_builder.go:128-140", "node/blockfrost.go:70-88"]}
{"id": "C106", "title": "Change is computed from distinct inputs", "statement": "After AddChangeIfNeeded the value of the set of outputs that the transaction spends equals outputs plus fee; an output that is added as input twice counts once.", "quantifier": "all histories with truthful input amounts, all ledger states", "why_tests_cant": "a test would have to add the same output twice and know how the ledger reads inputs", "anchors": ["tx/tx_builder.go:49-78", "tx/tx_builder.go:119-127", "tx/tx.go:96-107"]}
{"id": "C107", "title": "The Blockfrost UTXO listing is complete", "statement": "UTXOs of the Blockfrost backend returns every unspent output that the service lists for the address, on whichever page.", "quantifier": "all addresses, all services with any page size and any outputs", "why_tests_cant": "tests run against mock answers of one page; a wallet reaches a second page only with many outputs", "anchors": ["node/blockfrost.go:35-63"]}
{"id": "C108", "title": "Native tokens of listed outputs are not lost", "statement": "An unspent output that holds native tokens is listed with them, or reported, so that a transaction spending it does not silently drop them.", "quantifier": "all answers of the service", "why_tests_cant": "the result is correct for the lovelace amounts that tests look at; the ledger rejects the transaction", "anchors": ["node/blockfrost.go:46-60", "tx/tx_input_output.go:10-27"]}
{"id": "C109", "title": "Different secrets give different root keys", "statement": "Different seeds, and different pairs of entropy and passphrase, give different root keys (unless the hash functions collide).", "quantifier": "all seeds of 32 bytes, all entropies and passphrases", "why_tests_cant": "the passphrases that coincide differ in ways no test vector has; for the others a test cannot try all pairs", "anchors": ["bip32/bip32.go:25-51", "bip32/bip32.go:156-169"]}
{"id": "C110", "title": "A child's private key does not give its parent's", "statement": "The private key of a child together with the extended public key of its parent does not determine the parent's private key.", "quantifier": "all 96-byte keys, all indices, all hash functions", "why_tests_cant": "A test derives forward only; whether the derivation can be run backwards is a claim about every key and about all functions of the published data.", "anchors": ["bip32/bip32.go:64-138", "bip32/bip32.go:140-146"]}
{"id": "C111", "title": "Submitting through cardano-cli leaves nothing behind", "statement": "SubmitTx of the command-line backend runs cardano-cli once, on a file that is there and holds the whole envelope of the transaction. Whatever fails, the file is removed and its descriptor closed, and an error means that the command did not succeed.", "quantifier": "all transactions, all systems (any call may fail, a write may stop after any number of bytes, the command may answer anything)", "why_tests_cant": "The failures of temporary files, writes and processes cannot be provoked at every point, and a leaked descriptor shows in no result.", "anchors": ["node/cardano-cli.go:24-46", "node/cardano-cli.go:104-147"]}
{"id": "C112", "title": "A wallet is restored from its mnemonic", "statement": "The mnemonic logged by examples/address/generate is the BIP-39 sentence of the entropy; examples/address/restore, given that mnemonic, prints the address that generate logged, and it restores exactly the BIP-39 sentences of 24 words and reports an error for every other phrase, network or address type.", "quantifier": "all word lists of 2048 distinct words, all entropies, all flag texts, all address types, all hash functions", "why_tests_cant": "The programs use fresh random entropy and print; a test would check a few phrases, not that no other text is accepted or that every entropy survives (leading zero bytes included).", "anchors": ["examples/address/generate/main.go:17-50", "examples/address/restore/main.go:30-47", "examples/address/restore/main.go:106-135"]}
{"id": "C113", "title": "A mistyped word of a mnemonic is detected", "statement": "Changing one word of a mnemonic makes examples/address/restore report an error instead of printing the address of another wallet.", "quantifier": "all mnemonics of 12 to 24 words, all changes of the last word, all hash functions", "why_tests_cant": "There are 2047 wrong words for each position of each of 2^256 phrases; how many are accepted depends on the hash.", "anchors": ["examples/address/restore/main.go:106-135", "examples/address/restore/main.go:61-104"]}
{"id": "C114", "title": "Signing and deriving show nothing of the key in branches and memory accesses", "statement": "For two 96-byte private keys, signing messages of the same length takes the same branches, touches the same array elements and table entries in the same order, hashes inputs of the same lengths and makes the same calls; so does deriving the same child index, and so does computing the public key. In particular selectPoint reads the whole row of eight multiples for every digit.", "quantifier": "for all pairs of 96-byte keys, all pairs of messages of equal length, all child indices, all hash functions with the right output lengths", "why_tests_cant": "A test can compare running times of a few keys; it cannot show that no key of 2^768 takes another path.", "anchors": ["crypto/edwards25519/edwards25519.go:932-1015", "bip32/bip32.go:69-138", "bip32/bip32.go:175-236"]}
{"id": "C115", "title": "The witnesses of a built transaction are those its inputs need", "statement": "When Build returns a transaction, the public keys of its witnesses are exactly those whose hashes own the outputs it spends: every owner has signed, nobody else has, and nobody twice.", "quantifier": "for all builder histories, all keys, all lists of owners of the spent outputs, all hash functions with the right output lengths", "why_tests_cant": "A test builds one transaction with the right key; that a missing, needless or repeated key goes unnoticed for every builder is a statement about all of them.", "anchors": ["tx/tx_builder.go:18-20", "tx/tx_builder.go:22-42", "tx/tx.go:21-27"]}
{"id": "C116", "title": "Concurrent use", "statement": "Two goroutines may work with the library at once when each works on a builder of its own, and when both only look at a transaction (Bytes, Hash, Fee, MinFee): no location is accessed by both with one of them writing, and the results are those of running the calls one after the other.", "quantifier": "for every reachable state, every pair of calls, every interleaving of their reads and writes", "why_tests_cant": "Go's race detector reports only races that happen in the interleavings a test happens to run, and tests of a builder are sequential", "anchors": ["tx/tx.go:30-107", "tx/tx_builder.go:18-117"]}
{"id": "C117", "title": "The minimum fee does not fall when inputs or outputs are added", "statement": "Adding inputs or outputs to a builder's transaction never lowers what MinFee returns, so selecting inputs until outputs and fee are covered ends.", "quantifier": "for every reachable state, all inputs and outputs, all fee parameters", "why_tests_cant": "a fall needs amounts that match exactly, which tests with arbitrary amounts do not hit", "anchors": ["tx/tx_builder.go:81-117", "tx/tx.go:64-76", "tx/tx.go:96-107"]}
{"id": "C118", "title": "A signature checker made of the package's functions accepts exactly the RFC 8032 signatures", "statement": "The functions of crypto/edwards25519 that only verification needs (FromBytes, ScMinimal, GeDoubleScalarMultVartime and ToBytes of projective coordinates), put together as Verify of Go's crypto/ed25519 up to 1.16 puts them, accept a key, message and signature exactly when they satisfy RFC 8032: s below the group order and [s]B = R + [h]A.", "quantifier": "all hash functions with the right output lengths, all 32-byte keys, all messages, all byte strings as signatures", "why_tests_cant": "Bad signatures, keys outside the prime-order group and keys that are not encoded canonically are met by no test; the field and group arithmetic cannot be sampled.", "anchors": ["crypto/edwards25519/edwards25519.go:672-680", "crypto/edwards25519/edwards25519.go:718-762", "crypto/edwards25519/edwards25519.go:874-928", "crypto/edwards25519/edwards25519.go:1775-1793"]}
{"id": "C119", "title": "The digest functions return the whole digest", "statement": "Blake2b224 and Blake2b256 never fail and return the BLAKE2b digest of their argument with 28 and 32 bytes, whole and with nothing added; the hash of a public key and the id of a transaction are these digests.", "quantifier": "all byte strings, all transactions, all hash functions with the right output lengths, and BLAKE2b itself", "why_tests_cant": "Truncating a longer digest, or copying into a buffer of another size, gives plausible bytes; tests compare a few values.", "anchors": ["crypto/crypto.go:36-59", "bip32/bip32.go:171-173", "tx/tx.go:48-60"]}
{"id": "C120", "title": "The decoding example prints back the address it was given", "statement": "examples/address/simple_decode names the kind of a base or enterprise address and prints the very text it was given, and says of every other address that it is no base address.", "quantifier": "all Shelley and Byron addresses, all ASCII texts in place of the literal, all runtimes", "why_tests_cant": "The example has one literal and no test; texts with other prefixes are never tried.", "anchors": ["examples/address/simple_decode/main.go:12-28"]}
{"id": "C121", "title": "An output pays to the bytes its address text carries", "statement": "When an address is read from text and put into an output, the serialised transaction pays the amount to exactly the address bytes that the text carries.", "quantifier": "all ASCII texts of Shelley addresses, all well-formed transactions without Byron outputs, all runtimes", "why_tests_cant": "The path from text to ledger bytes goes through a parsed form that drops what it does not know; tests use a handful of canonical addresses.", "anchors": ["address/address.go:32-166", "tx/tx_input_output.go:42-53", "tx/tx_body.go:10-39"]}
{"id": "C122", "title": "What is paid to a wallet's printed address can be spent with its mnemonic", "statement": "Whatever is sent to an address that the generate or restore example prints is paid to bytes whose payment credential is the hash of a key that the mnemonic leads back to, and every transaction built with that key carries exactly one witness, for that credential, with a valid signature of its body.", "quantifier": "all 32-byte entropies, all phrases the restore example takes, both networks and both address types, all paying transactions without Byron outputs, all reachable builder states with that key", "why_tests_cant": "The claim spans the mnemonic, key derivation, the address text, the payer's serialisation and the signature; the tests look at each part alone and at fixed wallets.", "anchors": ["examples/address/generate/main.go:17-51", "examples/address/restore/main.go:61-136", "address/address.go:32-166", "tx/tx_builder.go:18-43"]}
