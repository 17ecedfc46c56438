-Q theories Verif
theories/Model/Address.v
theories/Model/Aes.v
theories/Model/Base58.v
theories/Model/Base64.v
theories/Model/Bip32.v
theories/Model/Bits.v
theories/Model/Cashaddr.v
theories/Model/Chain.v
theories/Model/Cipher.v
theories/Model/Coin.v
theories/Model/Curve.v
theories/Model/Der.v
theories/Model/Ecdsa.v
theories/Model/ElectrumSize.v
theories/Model/Floats.v
theories/Model/Hashes.v
theories/Model/IntLimit.v
theories/Model/Keys.v
theories/Model/Misc.v
theories/Model/Mnemonic.v
theories/Model/ModInverse.v
theories/Model/Nonce.v
theories/Model/Objects.v
theories/Model/OldWords.v
theories/Model/Packing.v
theories/Model/Py.v
theories/Model/Pyaes.v
theories/Model/RecursionLimit.v
theories/Model/Script.v
theories/Model/Secp256k1.v
theories/Model/Signature.v
theories/Model/Storage.v
theories/Model/Text.v
theories/Model/Tx.v
theories/Model/TxJson.v
theories/Model/Wordlists.v
theories/Model/Work.v
theories/Proofs/AddressFacts.v
theories/Proofs/AddressText.v
theories/Proofs/AsmFacts.v
theories/Proofs/Base58Facts.v
theories/Proofs/Base64Exact.v
theories/Proofs/Base64Facts.v
theories/Proofs/Bip32Facts.v
theories/Proofs/Bip32Keys.v
theories/Proofs/BitsFacts.v
theories/Proofs/CalendarFacts.v
theories/Proofs/CashaddrDecode.v
theories/Proofs/CashaddrErrors.v
theories/Proofs/CashaddrFacts.v
theories/Proofs/CashaddrFour.v
theories/Proofs/ChainFacts.v
theories/Proofs/ChainTheorems.v
theories/Proofs/ChainTheorems2.v
theories/Proofs/CipherCbc.v
theories/Proofs/CipherExact.v
theories/Proofs/CipherFacts.v
theories/Proofs/CipherField.v
theories/Proofs/CipherTheorems.v
theories/Proofs/ClashFacts.v
theories/Proofs/ClassifyFacts.v
theories/Proofs/ConvertBits.v
theories/Proofs/CurveFacts.v
theories/Proofs/DeepChains.v
theories/Proofs/DerExact.v
theories/Proofs/DerFacts.v
theories/Proofs/Digits.v
theories/Proofs/EcdsaFacts.v
theories/Proofs/EciesFacts.v
theories/Proofs/ElectrumFacts.v
theories/Proofs/ElectrumSizeFacts.v
theories/Proofs/EllipticCurve.v
theories/Proofs/FieldPrime.v
theories/Proofs/FloatFacts.v
theories/Proofs/ForestFacts.v
theories/Proofs/ForkFacts.v
theories/Proofs/FullChains.v
theories/Proofs/GroupOrder.v
theories/Proofs/HashesExact.v
theories/Proofs/HashesFacts.v
theories/Proofs/HashesFive.v
theories/Proofs/HashesSha2.v
theories/Proofs/HashesWords.v
theories/Proofs/HeadersFacts.v
theories/Proofs/HexFacts.v
theories/Proofs/HmacFacts.v
theories/Proofs/IntLimitFacts.v
theories/Proofs/KeysFacts.v
theories/Proofs/MessageFacts.v
theories/Proofs/MiscFacts.v
theories/Proofs/MnemonicFacts.v
theories/Proofs/ModInverseFacts.v
theories/Proofs/NonceFacts.v
theories/Proofs/NumbersFacts.v
theories/Proofs/ObjectsFacts.v
theories/Proofs/PackingFacts.v
theories/Proofs/PowerFacts.v
theories/Proofs/Primality.v
theories/Proofs/PyFacts.v
theories/Proofs/PyaesFacts.v
theories/Proofs/RecursionBounds.v
theories/Proofs/RecursionFacts.v
theories/Proofs/RequiredBitsFacts.v
theories/Proofs/ScriptFacts.v
theories/Proofs/ScriptTheorems.v
theories/Proofs/SecpField.v
theories/Proofs/SecpGroup.v
theories/Proofs/SecpLaws.v
theories/Proofs/SecpOrder.v
theories/Proofs/SharedFacts.v
theories/Proofs/SighashFacts.v
theories/Proofs/SignExact.v
theories/Proofs/StorageFacts.v
theories/Proofs/StorageHistory.v
theories/Proofs/TextFacts.v
theories/Proofs/TextPrefix.v
theories/Proofs/ToyCoords.v
theories/Proofs/TxFacts.v
theories/Proofs/TxJsonFacts.v
theories/Proofs/Utf8Facts.v
theories/Proofs/WifFacts.v
theories/Proofs/WordFiles.v
theories/Proofs/WordlistFacts.v
theories/Proofs/WorkFacts.v
theories/Props/AddressProps.v
theories/Props/Base58Props.v
theories/Props/Bip32Props.v
theories/Props/CashaddrProps.v
theories/Props/ChainProps.v
theories/Props/CipherProps.v
theories/Props/EcdsaProps.v
theories/Props/ElectrumSizeProps.v
theories/Props/FloatProps.v
theories/Props/FullProps.v
theories/Props/GenesisProps.v
theories/Props/HashesProps.v
theories/Props/HybridProps.v
theories/Props/IntLimitProps.v
theories/Props/KeyFormsProps.v
theories/Props/KeysProps.v
theories/Props/MiscProps.v
theories/Props/MnemonicProps.v
theories/Props/ObjectsProps.v
theories/Props/PackingProps.v
theories/Props/PowerProps.v
theories/Props/PyaesProps.v
theories/Props/RealProps.v
theories/Props/RecursionProps.v
theories/Props/ScriptProps.v
theories/Props/SecpProps.v
theories/Props/SharedProps.v
theories/Props/SighashProps.v
theories/Props/StorageProps.v
theories/Props/TextPrefixProps.v
theories/Props/TxJsonProps.v
theories/Props/TxProps.v
theories/Props/Utf8Props.v
theories/Props/WordlistProps.v
theories/Props/WorkProps.v
theories/Spec/AddressSpec.v
theories/Spec/AesSpec.v
theories/Spec/Base58Spec.v
theories/Spec/Base64Spec.v
theories/Spec/Bip32Spec.v
theories/Spec/CalendarSpec.v
theories/Spec/CashaddrSpec.v
theories/Spec/ChainSpec.v
theories/Spec/CurveSpec.v
theories/Spec/EcdsaSpec.v
theories/Spec/FloatSpec.v
theories/Spec/HashSpec.v
theories/Spec/HeadersHistory.v
theories/Spec/IntLimitSpec.v
theories/Spec/KeysSpec.v
theories/Spec/LogSpec.v
theories/Spec/MiscSpec.v
theories/Spec/MnemonicSpec.v
theories/Spec/NonceSpec.v
theories/Spec/Numbers.v
theories/Spec/ObjectsSpec.v
theories/Spec/PowerSpec.v
theories/Spec/RecursionSpec.v
theories/Spec/ScriptSpec.v
theories/Spec/SecpSpec.v
theories/Spec/SighashSpec.v
theories/Spec/StorageSpec.v
theories/Spec/TxJsonSpec.v
theories/Spec/TxSpec.v
theories/Spec/Utf8Spec.v
theories/Spec/WordlistSpec.v
theories/Spec/WorkSpec.v
