-Q theories Verif
theories/Res.v
theories/Words.v
theories/Mem.v
theories/MemSpec.v
theories/ListLemmas.v
theories/MemLemmas.v
theories/SpecWords.v
theories/WordsLemmas.v
theories/Ints.v
theories/Finite.v
theories/Concrete.v
theories/AeCrossProps.v
theories/AeIvProps.v
theories/AeModel.v
theories/AeProofs.v
theories/AeProps.v
theories/AeSpec.v
theories/AegisCommitProps.v
theories/AegisIo.v
theories/AegisLink.v
theories/AegisLookupModel.v
theories/AegisLookupProps.v
theories/AegisLookupSpec.v
theories/AegisModel.v
theories/AegisProofs.v
theories/AegisProps.v
theories/AegisReuseProps.v
theories/AegisSelfTestProps.v
theories/AegisSpec.v
theories/AegisTimingModel.v
theories/AegisTimingProps.v
theories/AesCarrySpec.v
theories/AesCfbCarryProps.v
theories/AesCfbLink.v
theories/AesCfbProofs.v
theories/AesCfbReuseProps.v
theories/AesCtrLink.v
theories/AesCtrProofs.v
theories/AesInj.v
theories/AesInjProps.v
theories/AesLookupModel.v
theories/AesLookupProps.v
theories/AesLookupSpec.v
theories/AesModel.v
theories/AesProofs.v
theories/AesProps.v
theories/AesSpec.v
theories/AesTables.v
theories/BitSel.v
theories/ChachaModel.v
theories/ChachaProofs.v
theories/ChachaProps.v
theories/ChachaSelfTestProps.v
theories/ChachaSpec.v
theories/DemoCipherProps.v
theories/DemoHashProps.v
theories/DemoHeModel.v
theories/DemoHeProps.v
theories/DemoHeShipProps.v
theories/DemoLegacyProps.v
theories/DemoModel.v
theories/DemoProofs.v
theories/DemoProps.v
theories/DesComplementProps.v
theories/DesFixedProps.v
theories/DesFixedSpec.v
theories/DesLink.v
theories/DesLookupModel.v
theories/DesLookupProps.v
theories/DesLookupSpec.v
theories/DesModel.v
theories/DesProofs.v
theories/DesProps.v
theories/DesRounds.v
theories/DesSpec.v
theories/DesTables.v
theories/Gmp.v
theories/HcDistinctProps.v
theories/HcLastProps.v
theories/HcLastSpec.v
theories/HcLookupModel.v
theories/HcLookupProps.v
theories/HcLookupSpec.v
theories/HcModel.v
theories/HcPeriodProps.v
theories/HcProofs.v
theories/HcProps.v
theories/HcSmallProps.v
theories/HcSmallSpec.v
theories/HcSpec.v
theories/HeAliasProps.v
theories/HeLabel.v
theories/HeLabelProps.v
theories/HeModel.v
theories/HeProofs.v
theories/HeProps.v
theories/HeRun.v
theories/HeSpec.v
theories/HexBoundProps.v
theories/HexModel.v
theories/HexProofs.v
theories/HexProps.v
theories/HexSizeProps.v
theories/HexSpec.v
theories/HmacLengthProps.v
theories/HmacModel.v
theories/HmacProofs.v
theories/HmacProps.v
theories/HmacTimingProps.v
theories/IoProofs.v
theories/JoyeMath.v
theories/JoyeModel.v
theories/JoyeParityProps.v
theories/JoyeProofs.v
theories/JoyeProps.v
theories/JoyeSpec.v
theories/LinearCycle.v
theories/LoadOrderProps.v
theories/Md5Link.v
theories/Md5Model.v
theories/Md5Proofs.v
theories/Md5Props.v
theories/Md5Spec.v
theories/Merkle.v
theories/MerklePad.v
theories/MerkleProps.v
theories/NumTheory.v
theories/Pocklington.v
theories/PolyModel.v
theories/PolyProps.v
theories/PolySpec.v
theories/RabbitCycle.v
theories/RabbitCycleProps.v
theories/RabbitModel.v
theories/RabbitProofs.v
theories/RabbitProps.v
theories/RabbitSpec.v
theories/RemainsModel.v
theories/RemainsProps.v
theories/SelfTestModel.v
theories/SelfTestProps.v
theories/SerpentInj.v
theories/SerpentModel.v
theories/SerpentProofs.v
theories/SerpentProps.v
theories/SerpentSpec.v
theories/ShaModel.v
theories/ShaProofs.v
theories/ShaProps.v
theories/ShaSpec.v
theories/ShaTests.v
theories/SosemanukCycleProps.v
theories/SosemanukLfsr.v
theories/SosemanukLookupModel.v
theories/SosemanukLookupProps.v
theories/SosemanukLookupSpec.v
theories/SosemanukModel.v
theories/SosemanukOrder.v
theories/SosemanukProofs.v
theories/SosemanukProps.v
theories/SosemanukSpec.v
theories/SosemanukTables.v
theories/StreamProofs.v
theories/StreamSpec.v
theories/SyncProofs.v
theories/SyncSpec.v
theories/TimingModel.v
theories/TimingSpec.v
theories/XorProofs.v
