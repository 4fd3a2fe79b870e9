-Q theories Verif
theories/Base/Bytes.v
theories/Base/BytesFacts.v
theories/Base/Groups.v
theories/Model/Conversion.v
theories/Spec/Codecs.v
theories/Proof/IntVarint.v
theories/Proof/HexBin.v
theories/Proof/BaseN.v
theories/Proof/Base58.v
theories/Proof/Base64.v
theories/Proof/ConvProps.v
theories/Proof/BinAny.v
theories/Props/Conversion.v
theories/Model/Stream.v
theories/Model/Script.v
theories/Model/Tx.v
theories/Proof/StreamFacts.v
theories/Spec/StreamOps.v
theories/Proof/StreamTrace.v
theories/Spec/Wire.v
theories/Spec/Pieces.v
theories/Proof/Chunks.v
theories/Proof/Phases.v
theories/Proof/ScriptFacts.v
theories/Proof/ScriptChunks.v
theories/Proof/TxIo.v
theories/Proof/ListPhase.v
theories/Proof/TxPhases.v
theories/Proof/TxChunks.v
theories/Proof/ScriptSound.v
theories/Spec/Objects.v
theories/Proof/IoProps.v
theories/Props/Streams.v
theories/Proof/WitnessFacts.v
theories/Proof/WitnessPieces.v
theories/Proof/TxSer.v
theories/Proof/TxParse.v
theories/Proof/TxLegacy.v
theories/Model/Sign.v
theories/Spec/Sighash.v
theories/Proof/TxHash.v
theories/Proof/WireInj.v
theories/Proof/TxLimits.v
theories/Proof/TxSegwit.v
theories/Proof/TxWitCuts.v
theories/Proof/WitnessLong.v
theories/Proof/SignFacts.v
theories/Proof/TxProps.v
theories/Props/Tx.v
theories/Model/Bech32.v
theories/Spec/Bech32.v
theories/Proof/BechCode.v
theories/Proof/BechErr.v
theories/Proof/BechFacts.v
theories/Proof/BechAddr.v
theories/Proof/BechSegwit.v
theories/Props/Bech32.v
theories/Model/Networks.v
theories/Model/Address.v
theories/Spec/Address.v
theories/Proof/AddrFacts.v
theories/Proof/AddrProps.v
theories/Props/Address.v
theories/Model/Memory.v
theories/Model/Signature.v
theories/Spec/Ops.v
theories/Spec/Memory.v
theories/Spec/Signature.v
theories/Proof/PushFacts.v
theories/Proof/MemFacts.v
theories/Proof/MemWitness.v
theories/Proof/SigFacts.v
theories/Proof/SigProps.v
theories/Proof/SigPieces.v
theories/Props/Script.v
theories/Props/Signature.v
theories/Model/Keys.v
theories/Spec/Keys.v
theories/Proof/BaseDec.v
theories/Proof/KeyFacts.v
theories/Props/Keys.v
theories/Model/HD.v
theories/Spec/HD.v
theories/Proof/PathFacts.v
theories/Proof/HDFacts.v
theories/Proof/HDProps.v
theories/Proof/HDPub.v
theories/Props/HD.v
theories/Model/Hash.v
theories/Spec/Hash.v
theories/Proof/HashWords.v
theories/Proof/HashSha.v
theories/Proof/HashInst.v
theories/Proof/HashMac.v
theories/Proof/HashRmd.v
theories/Proof/HashPbkdf.v
theories/Proof/HashProps.v
theories/Props/Hash.v
theories/Model/WordList.v
theories/Model/Bip39.v
theories/Spec/Bip39.v
theories/Proof/BipBits.v
theories/Proof/BipWords.v
theories/Proof/BipProps.v
theories/Props/Bip39.v
theories/Model/Descriptor.v
theories/Spec/Descriptor.v
theories/Proof/DescFacts.v
theories/Proof/DescProps.v
theories/Props/Descriptor.v
theories/Spec/Bignum.v
theories/Spec/Scalar.v
theories/Spec/Point.v
theories/Model/Bignum.v
theories/Model/Scalar.v
theories/Proof/BnCore.v
theories/Proof/BnRed.v
theories/Proof/BnMul.v
theories/Proof/BnIo.v
theories/Proof/BnSqrt.v
theories/Proof/BnProps.v
theories/Proof/ScalarProps.v
theories/Props/Bignum.v
theories/Props/Scalar.v
theories/Base/Fermat.v
theories/Base/Primes.v
theories/Model/Inverse.v
theories/Model/Point.v
theories/Model/CurveTable.v
theories/Model/EC.v
theories/Model/ECDSA.v
theories/Model/PointOps.v
theories/Proof/InvRegs.v
theories/Proof/InvLoop.v
theories/Proof/InvFinish.v
theories/Proof/InvProps.v
theories/Proof/PointFacts.v
theories/Proof/PointProps.v
theories/Proof/PointChunks.v
theories/Proof/PointHD.v
theories/Props/Inverse.v
theories/Props/Point.v
theories/Model/PSBT.v
theories/Spec/PSBT.v
theories/Proof/PsbtFacts.v
theories/Proof/PsbtParse.v
theories/Proof/PsbtWrite.v
theories/Proof/PsbtEntries.v
theories/Proof/PsbtInv.v
theories/Proof/PsbtProps.v
theories/Proof/PsbtMore.v
theories/Proof/PsbtFee.v
theories/Proof/PsbtStrict.v
theories/Props/PSBT.v
theories/Base/Curve.v
theories/Spec/Curve.v
theories/Spec/Schemes.v
theories/Proof/CurveFacts.v
theories/Proof/EcField.v
theories/Proof/EcPoint.v
theories/Proof/EcJac.v
theories/Proof/EcGroup.v
theories/Proof/EcRecode.v
theories/Proof/EcMult.v
theories/Proof/EcHints.v
theories/Proof/EcTable.v
theories/Proof/EcOrder.v
theories/Proof/EcApi.v
theories/Proof/EcdsaFacts.v
theories/Proof/EcdsaSign.v
theories/Proof/EcInf.v
theories/Proof/PointOpsFacts.v
theories/Proof/SchemeProps.v
theories/Proof/SchnorrProps.v
theories/Proof/SchemeMain.v
theories/Proof/SignHints.v
theories/Proof/SignExample.v
theories/Proof/SchemeMore.v
theories/Proof/HDReal.v
theories/Proof/SchemeCases.v
theories/Proof/SchnorrCases.v
theories/Proof/PointCases.v
theories/Model/PSBTSign.v
theories/Spec/PSBTSign.v
theories/Proof/PsbtSign.v
theories/Proof/PsbtSignReal.v
theories/Proof/HashShape.v
theories/Proof/PsbtKnows.v
theories/Proof/PsbtSignMore.v
theories/Model/Electrum.v
theories/Spec/Electrum.v
theories/Model/Copy.v
theories/Spec/Copy.v
theories/Proof/CopyFacts.v
theories/Proof/CopyMore.v
theories/Proof/ElectrumParse.v
theories/Proof/ElectrumProps.v
theories/Proof/ElectrumChunks.v
theories/Proof/ElectrumCuts.v
theories/Proof/ElectrumPieces.v
theories/Proof/ElectrumOther.v
theories/Proof/ElectrumSign.v
theories/Proof/ElectrumReal.v
theories/Proof/ElectrumFlat.v
theories/Props/ECDSA.v
theories/Props/Schnorr.v
theories/Props/PointOps.v
theories/Props/PSBTSign.v
theories/Props/Electrum.v
theories/Props/Copy.v
theories/Model/Text.v
theories/Spec/Text.v
theories/Proof/TextFacts.v
theories/Proof/TextMore.v
theories/Proof/Base64Exact.v
theories/Proof/TextPsbt.v
theories/Props/Text.v
theories/Model/Wallet.v
theories/Spec/Wallet.v
theories/Proof/WalletFacts.v
theories/Proof/WalletProps.v
theories/Proof/WalletReal.v
theories/Props/Wallet.v
theories/Model/Rand.v
theories/Spec/Random.v
theories/Proof/RandFacts.v
theories/Proof/RandMore.v
theories/Props/Random.v
theories/Model/Strings.v
theories/Model/Make.v
theories/Spec/Make.v
theories/Proof/StringFacts.v
theories/Proof/MakeFacts.v
theories/Props/Make.v
theories/Spec/Form.v
theories/Model/KeyStrings.v
theories/Proof/FormFacts.v
theories/Props/Form.v
theories/Spec/AddrOver.v
theories/Proof/AddrOverFacts.v
theories/Spec/Standard.v
theories/Model/Account.v
theories/Proof/StandardFacts.v
theories/Proof/StandardProps.v
theories/Props/Standard.v
theories/Model/Parts.v
theories/Spec/Parts.v
theories/Proof/PartsFacts.v
theories/Props/Parts.v
theories/Spec/Template.v
theories/Proof/TemplateFacts.v
theories/Props/Template.v
theories/Spec/Base64.v
theories/Proof/Base64Flags.v
theories/Props/Base64Flags.v
theories/Model/Amount.v
theories/Spec/Amount.v
theories/Proof/AmountFacts.v
theories/Props/Amount.v
theories/Model/Unrolled.v
theories/Model/SigDer.v
theories/Proof/UnrolledFacts.v
theories/Proof/SigDerFacts.v
theories/Props/Unrolled.v
theories/Props/SigDer.v
