-Q theories Verif
theories/Prelude.v
theories/Ord.v
theories/SMap.v
theories/BaseN.v
theories/Base58.v
theories/Varint.v
theories/Utf8.v
theories/Value.v
theories/Cid.v
theories/Url.v
theories/Ext.v
theories/Json.v
theories/Caveat.v
theories/Capability.v
theories/Semantics.v
theories/Key.v
theories/Ucan.v
theories/Store.v
theories/Builder.v
theories/Chain.v
theories/Ipld.v
theories/KeySupport.v
theories/OrdFacts.v
theories/SMapFacts.v
theories/Spec.v
theories/ValueFacts.v
theories/CapFacts.v
theories/CapMapFacts.v
theories/JsonFacts.v
theories/TokenFacts.v
theories/SignFacts.v
theories/Samples.v
theories/SampleFacts.v
theories/PCapability.v
theories/TimeFacts.v
theories/PTime.v
theories/BaseNFacts.v
theories/Base58Facts.v
theories/CidFacts.v
theories/PCodec.v
theories/DidFacts.v
theories/PDid.v
theories/ChainFacts.v
theories/StoreFacts.v
theories/ReduceFacts.v
theories/PChain.v
theories/PStore.v
theories/PReduce.v
theories/PToken.v
theories/PJson.v
theories/SemanticsFacts.v
theories/PSemantics.v
theories/SpecBuilder.v
theories/BuilderFacts.v
theories/PBuilder.v
theories/SpecIpld.v
theories/IpldFacts.v
theories/PIpld.v
theories/SpecCost.v
theories/CostFacts.v
theories/PCost.v
theories/SpecChain.v
theories/ChainMoreFacts.v
theories/PChainMore.v
theories/SpecSecurity.v
theories/SpecEnd.v
theories/EndFacts.v
theories/PEnd.v
theories/IpldSerde.v
theories/Cbor.v
theories/SpecIpldSerde.v
theories/SecurityFacts.v
theories/IpldSerdeFacts.v
theories/SampleSecurity.v
theories/PSecurity.v
theories/PIpldSerde.v
theories/WebCrypto.v
theories/Der.v
theories/SpecWebCrypto.v
theories/WebCryptoFacts.v
theories/SampleWebCrypto.v
theories/PWebCrypto.v
theories/Fixtures.v
theories/FixtureFacts.v
theories/ProofSetFacts.v
theories/PFixtures.v
theories/PProofs.v
theories/SpecReport.v
theories/ReportFacts.v
theories/PReport.v
theories/SpecWire.v
theories/WireFacts.v
theories/PWire.v
theories/SpecJson.v
theories/JsonGrammarFacts.v
theories/PJsonGrammar.v
theories/SpecUrl.v
theories/UrlTextFacts.v
theories/PUrl.v
theories/Hier.v
theories/SpecHier.v
theories/HierFacts.v
theories/SampleHier.v
theories/PHier.v
theories/SpecReject.v
theories/RejectFacts.v
theories/PReject.v
theories/TestSuite.v
theories/SpecEntry.v
theories/EntryFacts.v
theories/PEntry.v
theories/SpecLine.v
theories/LineFacts.v
theories/PLine.v
theories/SpecKeys.v
theories/KeysFacts.v
theories/PKeys.v
theories/SpecCaps.v
theories/CapsFaultFacts.v
theories/PCaps.v
theories/KeyWrap.v
theories/SpecMutual.v
theories/MutualFacts.v
theories/PMutual.v
theories/Docs.v
theories/SpecDocs.v
theories/DocsFacts.v
theories/PDocs.v
theories/SpecProofText.v
theories/ProofTextFacts.v
theories/PProofText.v
theories/SpecCbor.v
theories/CborFacts.v
theories/CborUcanFacts.v
theories/PCbor.v
theories/SpecDer.v
theories/DerFacts.v
theories/SampleDer.v
theories/PDer.v
theories/SpecAlias.v
theories/AliasFacts.v
theories/SampleAlias.v
theories/PAlias.v
theories/Double.v
theories/SpecDouble.v
theories/DoubleFacts.v
theories/DoublePrintFacts.v
theories/DoubleSearchFacts.v
theories/DoubleTextFacts.v
theories/PDouble.v
theories/Sha256.v
theories/RsaSign.v
theories/SpecSha.v
theories/SpecRsa.v
theories/SpecTwin.v
theories/ShaFacts.v
theories/RsaFacts.v
theories/TwinFacts.v
theories/SampleRsa.v
theories/PRsa.v
theories/Ed25519.v
theories/SpecEd.v
theories/FastMul.v
theories/PrimeFacts.v
theories/EdwardsFacts.v
theories/EdPrimeFacts.v
theories/EdOrderFacts.v
theories/EdFieldFacts.v
theories/EdPointFacts.v
theories/EdTextFacts.v
theories/EdFacts.v
theories/SampleEd.v
theories/PEd.v
theories/Sha512.v
theories/SpecSha512.v
theories/Sha512Facts.v
theories/P256.v
theories/SpecP256.v
theories/WeierFacts.v
theories/P256PrimeFacts.v
theories/P256OrderFacts.v
theories/P256FieldFacts.v
theories/P256PointFacts.v
theories/P256ModelFacts.v
theories/P256Facts.v
theories/P256TokenFacts.v
theories/SampleP256.v
theories/PSha512.v
theories/PP256.v
theories/Blake3.v
theories/Blake2b.v
theories/Multihash.v
theories/SpecBlake3.v
theories/SpecBlake2.v
theories/SpecHash.v
theories/Blake3Facts.v
theories/Blake3TreeFacts.v
theories/Blake2Facts.v
theories/HashFacts.v
theories/SampleHash.v
theories/HashSampleFacts.v
theories/PHash.v
theories/SpecBlock.v
theories/BlockFacts.v
theories/PBlock.v
theories/Rfc6979.v
theories/SpecRfc6979.v
theories/Rfc6979Facts.v
theories/SampleTrails.v
theories/SampleRfc.v
theories/PRfc6979.v
theories/SpecStandard.v
theories/StandardFacts.v
theories/SampleStandard.v
theories/PStandard.v
theories/Multibase.v
theories/SpecMultibase.v
theories/MultibaseFacts.v
theories/SampleMultibase.v
theories/PMultibase.v
theories/Ipv6.v
theories/SpecIpv6.v
theories/Ipv6Facts.v
theories/SampleIpv6.v
theories/PIpv6.v
theories/Keccak.v
theories/SpecKeccak.v
theories/KeccakFacts.v
theories/Blake2s.v
theories/SpecBlake2s.v
theories/Blake2bFacts.v
theories/Blake2sFacts.v
theories/AllHashes.v
theories/SpecAllHashes.v
theories/AllHashesFacts.v
theories/AllSampleFacts.v
theories/PAllHashes.v
theories/SpecAddressed.v
theories/AddressedFacts.v
theories/SampleAddressed.v
theories/AddressedSampleFacts.v
theories/PAddressed.v
theories/RealTime.v
theories/SpecRealTime.v
theories/RealTimeFacts.v
theories/PRealTime.v
