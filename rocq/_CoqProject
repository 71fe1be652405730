-Q theories Verif

theories/Model/Address.v
theories/Model/Base.v
theories/Model/Base58.v
theories/Model/Bech32.v
theories/Model/Bip32.v
theories/Model/Builder.v
theories/Model/Cbor.v
theories/Model/Concurrent.v
theories/Model/Crc32.v
theories/Model/Crypto.v
theories/Model/Decode.v
theories/Model/Edwards.v
theories/Model/EdwardsCode.v
theories/Model/EdwardsTable.v
theories/Model/Goroutines.v
theories/Model/HashFns.v
theories/Model/Hex.v
theories/Model/Json.v
theories/Model/Keys.v
theories/Model/Leak.v
theories/Model/Limb.v
theories/Model/Memory.v
theories/Model/Mnemonic.v
theories/Model/Network.v
theories/Model/NilTx.v
theories/Model/Node.v
theories/Model/Payment.v
theories/Model/Pointers.v
theories/Model/Queries.v
theories/Model/SharedMeta.v
theories/Model/Strings.v
theories/Model/Submit.v
theories/Model/Tx.v
theories/Model/Utf8.v
theories/Model/Wallet.v
theories/Proofs/AddressFacts.v
theories/Proofs/AddressParse.v
theories/Proofs/AddressProps.v
theories/Proofs/AuxFacts.v
theories/Proofs/Base58Facts.v
theories/Proofs/BchFacts.v
theories/Proofs/Bech32Errors.v
theories/Proofs/Bech32Facts.v
theories/Proofs/Bech32Props.v
theories/Proofs/Bip32Facts.v
theories/Proofs/ByronFacts.v
theories/Proofs/CaseFacts.v
theories/Proofs/CborFacts.v
theories/Proofs/CborParse.v
theories/Proofs/ConcurrentFacts.v
theories/Proofs/ConvertBits.v
theories/Proofs/CrcFacts.v
theories/Proofs/CrcSpecFacts.v
theories/Proofs/CurveFacts.v
theories/Proofs/DecodeFacts.v
theories/Proofs/FeeFacts.v
theories/Proofs/Fermat.v
theories/Proofs/FieldBytes.v
theories/Proofs/FieldEl.v
theories/Proofs/FieldFacts.v
theories/Proofs/FieldsFacts.v
theories/Proofs/GroupFacts.v
theories/Proofs/HashFacts.v
theories/Proofs/HeapFacts.v
theories/Proofs/HeapProps.v
theories/Proofs/HexFacts.v
theories/Proofs/JsonDecode.v
theories/Proofs/JsonFacts.v
theories/Proofs/JsonKeys.v
theories/Proofs/KeyFacts.v
theories/Proofs/LimbFacts.v
theories/Proofs/MemoryFacts.v
theories/Proofs/MnemonicFacts.v
theories/Proofs/NodeFacts.v
theories/Proofs/OrderFacts.v
theories/Proofs/PointFacts.v
theories/Proofs/PointerFacts.v
theories/Proofs/Polymod.v
theories/Proofs/PrimeOrder.v
theories/Proofs/Primes.v
theories/Proofs/RadixFacts.v
theories/Proofs/ScalarFacts.v
theories/Proofs/ScalarMult.v
theories/Proofs/SlideFacts.v
theories/Proofs/TableCert.v
theories/Proofs/TableFacts.v
theories/Proofs/TxFacts.v
theories/Proofs/Utf8Facts.v
theories/Proofs/Util.v
theories/Proofs/VarNat.v
theories/Props/Bech32.v
theories/Props/Bip32.v
theories/Props/Builder.v
theories/Props/BuilderExact.v
theories/Props/Byron.v
theories/Props/Concurrent.v
theories/Props/Decode.v
theories/Props/Destination.v
theories/Props/Digests.v
theories/Props/Edwards.v
theories/Props/FeeErrors.v
theories/Props/Goroutines.v
theories/Props/Json.v
theories/Props/Leak.v
theories/Props/Leaks.v
theories/Props/Ledger.v
theories/Props/Memory.v
theories/Props/Metadata.v
theories/Props/Mnemonic.v
theories/Props/Monotone.v
theories/Props/NilTx.v
theories/Props/Node.v
theories/Props/Orders.v
theories/Props/Payment.v
theories/Props/Pointers.v
theories/Props/Queries.v
theories/Props/Roots.v
theories/Props/ScalarExact.v
theories/Props/SharedMeta.v
theories/Props/Shelley.v
theories/Props/ShelleyExact.v
theories/Props/Signatures.v
theories/Props/Spend.v
theories/Props/Submit.v
theories/Props/Text.v
theories/Props/Twice.v
theories/Props/Tx.v
theories/Props/UnicodeText.v
theories/Props/Verifier.v
theories/Props/Wallet.v
theories/Props/Window.v
theories/Props/Witnesses.v
theories/Spec/AddressSpec.v
theories/Spec/Base58Spec.v
theories/Spec/BchSpec.v
theories/Spec/Bech32Spec.v
theories/Spec/Bip32Spec.v
theories/Spec/Bip39Spec.v
theories/Spec/ByronSpec.v
theories/Spec/CaseSpec.v
theories/Spec/CborSpec.v
theories/Spec/Cip19.v
theories/Spec/CountSpec.v
theories/Spec/CrcSpec.v
theories/Spec/EdSpec.v
theories/Spec/FieldsSpec.v
theories/Spec/FsSpec.v
theories/Spec/HexSpec.v
theories/Spec/JsonSpec.v
theories/Spec/MdSpec.v
theories/Spec/MetadataSpec.v
theories/Spec/NodeSpec.v
theories/Spec/Pointers.v
theories/Spec/QuerySpec.v
theories/Spec/RaceSpec.v
theories/Spec/RegionSpec.v
theories/Spec/RestoreSpec.v
theories/Spec/TxSpec.v
theories/Spec/Utf8Spec.v
theories/Spec/Values.v
theories/Spec/VarNatSpec.v
theories/Spec/WalletSpec.v
theories/Spec/WindowSpec.v
theories/Spec/WitnessSpec.v
theories/Spec/World.v
theories/Tests/AddressVectors.v
theories/Tests/GoldenTx.v
theories/Tests/HashVectors.v
theories/Tests/JsonVectors.v
