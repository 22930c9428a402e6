-Q theories Verif
theories/Base.v
theories/Deps.v
theories/Hex.v
theories/Eth.v
theories/Hash.v
theories/HashTree.v
theories/RbTree.v
theories/Heap.v
theories/SigMap.v
theories/Time3339.v
theories/Settings.v
theories/Siwe.v
theories/Encode.v
theories/PrincipalText.v
theories/Delegation.v
theories/Login.v
theories/Provider.v
theories/Nib.v
theories/Sha2.v
theories/Keccak.v
theories/HashVectors.v
theories/BaseLemmas.v
theories/SpecEth.v
theories/EthProofs.v
theories/ChaCha.v
theories/SpecChaCha.v
theories/ChaChaProofs.v
theories/Asn1.v
theories/SpecAsn1.v
theories/Asn1Proofs.v
theories/Concrete.v
theories/PropertiesEth.v
theories/SpecHash.v
theories/HashProofs.v
theories/DelegationProofs.v
theories/SpecWire.v
theories/WireProofs.v
theories/PropertiesHash.v
theories/RbProofs.v
theories/HeapProofs.v
theories/SpecTree.v
theories/SigMapProofs.v
theories/MapRuns.v
theories/PropertiesMap.v
theories/SpecSiwe.v
theories/Calendar.v
theories/TimeProofs.v
theories/SiweProofs.v
theories/SpecPrincipal.v
theories/PrincipalProofs.v
theories/PrincipalTypo.v
theories/SpecInit.v
theories/SettingsProofs.v
theories/PropertiesSiwe.v
theories/SpecTrace.v
theories/LoginProofs.v
theories/ProviderProofs.v
theories/TraceProofs.v
theories/LoginTheory.v
theories/DelegationTheory.v
theories/MappingProofs.v
theories/CallProofs.v
theories/Scripts.v
theories/Demo.v
theories/PropertiesLogin.v
theories/PropertiesCalls.v
theories/PropertiesDelegation.v
theories/PropertiesMappings.v
theories/Json.v
theories/SpecJson.v
theories/JsonStrings.v
theories/JsonProofs.v
theories/Client.v
theories/ClientJson.v
theories/SpecClient.v
theories/ClientProofs.v
theories/ClientSeq.v
theories/ClientStatus.v
theories/SpecErrors.v
theories/ClientErrors.v
theories/ClientLive.v
theories/ClientDemo.v
theories/PropertiesClient.v
theories/SpecAuth.v
theories/MerkleProofs.v
theories/PropertiesRand.v
theories/PropertiesKeys.v
theories/View.v
theories/SpecView.v
theories/PropertiesView.v
theories/PropertiesAuth.v
theories/TestCanister.v
theories/PropertiesText.v
theories/Secp.v
theories/SpecEcdsa.v
theories/Pocklington.v
theories/PrimeCerts.v
theories/Fp.v
theories/CurveTower.v
theories/CurveFormulas.v
theories/CurveGroup.v
theories/CurveCert.v
theories/CurveMul.v
theories/CurveOrder.v
theories/EcdsaProofs.v
theories/EcdsaRecover.v
theories/PointCerts.v
theories/TestCerts.v
theories/EcdsaBytes.v
theories/EcdsaVector.v
theories/PropertiesEcdsa.v
theories/Url.v
theories/SpecUrl.v
theories/UrlNumbers.v
theories/UrlHosts.v
theories/UrlV6.v
theories/UrlProofs.v
theories/PropertiesUrl.v
theories/Candid.v
theories/SpecCandid.v
theories/CandidBase.v
theories/CandidHeader.v
theories/CandidProofs.v
theories/CandidMessages.v
theories/CandidSound.v
theories/CandidUnique.v
theories/Interface.v
theories/SpecInterface.v
theories/InterfaceProofs.v
theories/InterfaceReplies.v
theories/PropertiesCandid.v
theories/SiweDisplay.v
theories/SpecStored.v
theories/StoredProofs.v
theories/PropertiesJson.v
theories/RepliesFine.v
theories/PropertiesReplies.v
theories/SpecWhole.v
theories/PropertiesWhole.v
theories/SpecGrammar.v
theories/GrammarProofs.v
theories/PropertiesGrammar.v
theories/PropertiesPhishing.v
theories/PropertiesSize.v
theories/Tabs.v
theories/SpecTabs.v
theories/TabsProofs.v
theories/PropertiesTabs.v
theories/PropertiesTraps.v
theories/SpecLive.v
theories/LiveProofs.v
theories/TabsLive.v
theories/TabsOwn.v
theories/PropertiesLive.v
theories/ReadyProofs.v
theories/PropertiesReady.v
theories/PropertiesWorks.v
theories/Lies.v
theories/PropertiesLies.v
theories/PropertiesOvertake.v
theories/PropertiesPrincipals.v
theories/SpecStorage.v
theories/PropertiesStored.v
theories/SpecFetch.v
theories/PropertiesFetch.v
theories/TimeShort.v
theories/SpecAnswers.v
theories/PropertiesAnswers.v
theories/SpecUri.v
theories/UrlOther.v
theories/PropertiesUri.v
theories/PropertiesForget.v
theories/SpecButton.v
theories/PropertiesButton.v
theories/PropertiesShort.v
theories/SpecCertificate.v
theories/PropertiesCertificate.v
theories/SpecPanic.v
theories/PropertiesPanic.v
theories/PropertiesReading.v
theories/PropertiesErrors.v
theories/SpecStages.v
theories/PropertiesStages.v
theories/SpecAnswered.v
theories/PropertiesAnswered.v
theories/SpecDigest.v
theories/DigestWords.v
theories/DigestSha.v
theories/DigestKeccak.v
theories/PropertiesDigest.v
theories/SpecQueue.v
theories/PropertiesQueue.v
theories/PropertiesConvert.v
theories/RepoUnitTests.v
theories/RepoIntegrationTests.v
