-Q theories Verif
theories/Base.v
theories/Uint128Model.v
theories/SpecInt.v
theories/SpecText.v
theories/Tac.v
theories/TextProofs.v
theories/Uint128Proofs.v
theories/Uint128Div.v
theories/Uint128Div2.v
theories/Uint128Text.v
theories/PropsUint128.v
theories/UnicodeModel.v
theories/FixedStringModel.v
theories/V4Model.v
theories/V6Model.v
theories/SpecV4.v
theories/SpecAddr.v
theories/SpecStr.v
theories/V4Proofs.v
theories/BufProofs.v
theories/V4Format.v
theories/BitProofs.v
theories/StrProofs.v
theories/Utf8Proofs.v
theories/FixedStringProofs.v
theories/V4Lemmas.v
theories/UnicodeLemmas.v
theories/SpecV6.v
theories/V6Proofs.v
theories/V6Parse.v
theories/V6Grammar.v
theories/V6Full.v
theories/SpecV6Err.v
theories/ConfigModel.v
theories/V6Format.v
theories/V6Lemmas.v
theories/AddressModel.v
theories/SpecOrder.v
theories/AddressProofs.v
theories/PropsAddress.v
theories/NetworkModel.v
theories/IterModel.v
theories/SpecNet.v
theories/NetProofs.v
theories/NetProofs2.v
theories/NetProofs3.v
theories/MaskProofs.v
theories/NetText.v
theories/NetText2.v
theories/ErrProofs.v
theories/NetText3.v
theories/NetLemmas.v
theories/NetWitness.v
theories/SpecIter.v
theories/IterProofs.v
theories/IterProofs2.v
theories/IterProofs3.v
theories/IterProofs4.v
theories/IterProofs5.v
theories/IterLemmas.v
theories/ClassifyModel.v
theories/SpecClass.v
theories/ClassifyProofs.v
theories/ClassifyProofs2.v
theories/AnyModel.v
theories/SpecAny.v
theories/AnyProofs.v
theories/AnyIter.v
theories/AnyLemmas.v
theories/PropsNetwork.v
theories/PropsIter.v
theories/PropsClass.v
theories/PropsAny.v
theories/SpecCode.v
theories/CodeModel.v
theories/CodeProofs.v
theories/CodeProofs2.v
theories/CodeProofs3.v
theories/CodeLemmas.v
theories/PropsCode.v
theories/FloatModel.v
theories/SpecDouble.v
theories/FloatProofs.v
theories/FloatProofs2.v
theories/FloatProofs3.v
theories/FloatProofs4.v
theories/FloatProofs5.v
theories/FloatProofs6.v
theories/PropsFloat.v
theories/PropsV4.v
theories/PropsV6.v
theories/PropsString.v
theories/PropsUnicode.v
theories/StreamModel.v
theories/SpecStream.v
theories/StreamProofs.v
theories/StreamProofs2.v
theories/StreamProofs3.v
theories/StreamProofs4.v
theories/StreamWitness.v
theories/PropsStream.v
theories/ErrorModel.v
theories/SpecError.v
theories/RaiseProofs.v
theories/RaiseProofs2.v
theories/RaiseProofs3.v
theories/RaiseProofs4.v
theories/ErrProofs2.v
theories/RaiseProofs5.v
theories/RaiseProofs6.v
theories/PropsError.v
theories/Uint128OpsModel.v
theories/SpecOps.v
theories/OpsProofs.v
theories/PropsOps.v
theories/SpecExact.v
theories/ExactProofs.v
theories/PropsExact.v
theories/SpecCodes.v
theories/CodeListProofs.v
theories/PropsCodeList.v
theories/ContainerModel.v
theories/SpecContainer.v
theories/ContainerProofs.v
theories/PropsContainer.v
theories/ReverseModel.v
theories/SpecReverse.v
theories/ReverseProofs.v
theories/ReverseProofs2.v
theories/PropsReverse.v
theories/LiteralModel.v
theories/SpecLiteral.v
theories/LiteralProofs.v
theories/LiteralProofs2.v
theories/LiteralWitness.v
theories/PropsLiteral.v
theories/SpecLoose.v
theories/LooseProofs.v
theories/PropsLoose.v
theories/SpecConfig.v
theories/NetConfigModel.v
theories/SpecNetConfig.v
theories/ConfigProofs.v
theories/PropsConfig.v
theories/ScopeModel.v
theories/SpecScope.v
theories/ScopeProofs.v
theories/PropsScope.v
theories/RelModel.v
theories/SpecRel.v
theories/RelProofs.v
theories/PropsRel.v
theories/NoThrowModel.v
theories/SpecNoThrow.v
theories/NoThrowProofs.v
theories/PropsNoThrow.v
theories/SpecHash.v
theories/HashProofs.v
theories/PropsHash.v
theories/Utf8Model.v
theories/SpecUtf8.v
theories/InnerProofs.v
theories/CharUtf8Proofs.v
theories/CharUtf8Lemmas.v
theories/PropsUtf8.v
theories/HostModel.v
theories/SpecEndian.v
theories/EndianProofs.v
theories/EndianProofs2.v
theories/EndianProofs3.v
theories/EndianProofs4.v
theories/V6Err.v
theories/V6Err2.v
theories/V6Err3.v
theories/EndianProofs5.v
theories/EndianProofs6.v
theories/EndianProofs7.v
theories/EndianProofs8.v
theories/EndianProofs9.v
theories/EndianProofs10.v
theories/EndianProofs11.v
theories/EndianProofs12.v
theories/EndianProofs13.v
theories/EndianProofs14.v
theories/EndianLemmas.v
theories/PropsEndian.v
theories/SpecEdge.v
theories/ExcludeOne.v
theories/EdgeLemmas.v
theories/PropsEdge.v
theories/LawLemmas.v
theories/LawText.v
theories/PropsLaw.v
theories/DefaultLemmas.v
theories/PropsDefault.v
theories/ErrNumber.v
theories/V6ErrLemmas.v
theories/PropsV6Error.v
theories/SpecNoexcept.v
theories/NoexceptLemmas.v
theories/PropsNoexcept.v
theories/SpecDecode.v
theories/DecodeLemmas.v
theories/PropsDecode.v
theories/NetConfigProofs.v
theories/NetConfigProofs2.v
theories/NetConfigProofs3.v
theories/PropsNetConfig.v
theories/NetOpsConfigModel.v
theories/SpecNetOpsConfig.v
theories/NetOpsConfigProofs.v
theories/NetOpsConfigProofs2.v
theories/PropsNetOpsConfig.v
theories/MacroModel.v
theories/SpecMacro.v
theories/MacroProofs.v
theories/MacroProofs2.v
theories/MacroProofs3.v
theories/MacroProofs4.v
theories/MacroProofs5.v
theories/PropsMacro.v
theories/SpecKeys.v
theories/KeyProofs.v
theories/KeyProofs2.v
theories/PropsKeys.v
theories/SpecZone.v
theories/ZoneProofs.v
theories/PropsZone.v
theories/SpecNetErr.v
theories/NetErrProofs.v
theories/PropsNetErr.v
theories/VectorBase.v
theories/VectorsAddr4.v
theories/VectorsAddr6.v
theories/VectorsNet4.v
theories/VectorsNet6.v
theories/VectorsAnyAddr.v
theories/VectorsAnyNet.v
theories/VectorsMisc.v
theories/VectorsFixed.v
theories/SizeModel.v
theories/SpecSize.v
theories/SizeProofs.v
theories/SizeProofs2.v
theories/PropsSize.v
theories/AnyConfigModel.v
theories/SpecAnyConfig.v
theories/AnyConfigProofs.v
theories/AnyConfigProofs2.v
theories/AnyConfigProofs3.v
theories/PropsAnyConfig.v
theories/SpecStreamBuild.v
theories/StreamBuildProofs.v
theories/PropsStreamBuild.v
theories/BuildModel.v
theories/SpecBuild.v
theories/BuildProofs.v
theories/BuildProofs2.v
theories/BuildProofs3.v
theories/BuildProofs4.v
theories/PropsBuild.v
theories/QuietOpsModel.v
theories/QuietOpsProofs.v
theories/QuietOpsProofs2.v
theories/PropsQuietOps.v
theories/AnyHostModel.v
theories/SpecAnyEndian.v
theories/AnyEndianProofs.v
theories/AnyEndianProofs2.v
theories/AnyEndianProofs3.v
theories/PropsAnyEndian.v
theories/UnionModel.v
theories/SpecUnion.v
theories/UnionProofs.v
theories/UnionProofs2.v
theories/PropsUnion.v
