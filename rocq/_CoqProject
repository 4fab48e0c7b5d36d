-Q theories Verif

theories/Base.v
theories/Bytes.v
theories/ModelFile.v
theories/ModelFingerprint.v
theories/SpecFingerprint.v
theories/ProofsFingerprint.v
theories/ProofsFingerprint2.v
theories/ProofsFingerprint3.v
theories/SpecWork.v
theories/ProofsFingerprint4.v
theories/PropertiesFingerprint.v
theories/Monad.v
theories/ModelPE.v
theories/SpecPE.v
theories/ProofsPE.v
theories/ProofsPE2.v
theories/ProofsPE3.v
theories/PropertiesPE.v
theories/ModelX509.v
theories/SpecX509.v
theories/ProofsX509.v
theories/ProofsX509b.v
theories/PropertiesX509.v
theories/ModelContext.v
theories/SpecContext.v
theories/ProofsCTL.v
theories/ProofsContext.v
theories/ProofsContext2.v
theories/PropertiesContext.v
theories/ModelPkcs7.v
theories/ModelAuthenticode.v
theories/SpecPkcs7.v
theories/ProofsPkcs7.v
theories/ProofsPkcs7b.v
theories/PropertiesPkcs7.v
theories/SpecAuthenticode.v
theories/ProofsSigner.v
theories/ProofsSigner2.v
theories/PropertiesSigner.v
theories/ProofsVerify.v
theories/ProofsVerify2.v
theories/ProofsVerify3.v
theories/ProofsVerify4.v
theories/ProofsVerify5.v
theories/PropertiesAuthenticode.v
theories/SpecSignedPE.v
theories/ProofsSignedPE.v
theories/ProofsSignedPE2.v
theories/ProofsSignedPE3.v
theories/PropertiesSignedPE.v
theories/SpecWhole.v
theories/ProofsWhole.v
theories/PropertiesWhole.v
theories/ProofsWhole2.v
theories/ProofsWhole3.v
theories/PropertiesWhole2.v
theories/SpecComplete.v
theories/ProofsComplete.v
theories/ProofsComplete2.v
theories/PropertiesComplete.v
theories/ModelCtl.v
theories/SpecCtl.v
theories/ProofsCtl2.v
theories/PropertiesCtl.v
theories/SpecFrame.v
theories/ProofsFrame.v
theories/ProofsFrame2.v
theories/PropertiesFrame.v
theories/SpecExact.v
theories/ProofsExact.v
theories/ProofsExact2.v
theories/PropertiesExact.v
theories/ProofsToken.v
theories/PropertiesToken.v
theories/SpecLookup.v
theories/ProofsLookup.v
theories/PropertiesLookup.v
theories/ModelLazy.v
theories/ModelLazyFile.v
theories/SpecLazy.v
theories/ProofsLazy.v
theories/ProofsLazy2.v
theories/ProofsLazy3.v
theories/PropertiesLazy.v
theories/ModelIter.v
theories/SpecIter.v
theories/ProofsIter.v
theories/PropertiesIter.v
theories/ModelDer.v
theories/ModelSpc.v
theories/ModelDecode.v
theories/ExampleHash.v
theories/ExampleData.v
theories/ExampleEnv.v
theories/ProofsDer.v
theories/ProofsDecode.v
theories/ProofsDecode2.v
theories/SpecDer.v
theories/ProofsDecode3.v
theories/ProofsDecode4.v
theories/ExampleDer.v
theories/PropertiesDer.v
theories/SpecAsn.v
theories/ProofsAsn.v
theories/ProofsAsn2.v
theories/PropertiesAsn.v
theories/ModelStl.v
theories/SpecStl.v
theories/ProofsStl.v
theories/ProofsStl2.v
theories/ProofsStl3.v
theories/PropertiesStl.v
theories/SpecPrim.v
theories/ProofsPrim.v
theories/ProofsPrim2.v
theories/ProofsPrim3.v
theories/ProofsPrim4.v
theories/PropertiesPrim.v
theories/SpecUnread.v
theories/ProofsUnread.v
theories/ProofsUnread2.v
theories/PropertiesUnread.v
theories/ModelPem.v
theories/SpecPem.v
theories/ProofsPem.v
theories/PropertiesPem.v
theories/SpecRead.v
theories/ProofsRead.v
theories/PropertiesRead.v
theories/SpecEnvelope.v
theories/ProofsEnvelope.v
theories/ProofsEnvelope2.v
theories/PropertiesEnvelope.v
theories/SpecNaive.v
theories/ProofsNaive.v
theories/PropertiesNaive.v
theories/SpecOctets.v
theories/ProofsOctets.v
theories/PropertiesOctets.v
theories/ModelMain.v
theories/SpecMain.v
theories/ProofsMain.v
theories/PropertiesMain.v
theories/ModelListing.v
theories/SpecListing.v
theories/ProofsListing.v
theories/PropertiesListing.v
theories/SpecTime.v
theories/ProofsTime.v
theories/ModelName.v
theories/SpecName.v
theories/ProofsName.v
theories/PropertiesName.v
theories/ModelShown.v
theories/SpecShown.v
theories/ProofsShown.v
theories/ProofsShown2.v
theories/ProofsShown3.v
theories/PropertiesShown.v
theories/ModelDemand.v
theories/SpecDemand.v
theories/ProofsDemand.v
theories/ProofsDemand2.v
theories/ProofsDemand3.v
theories/ProofsDemand4.v
theories/ExampleNames.v
theories/PropertiesDemand.v
theories/SpecBer.v
theories/ProofsBer.v
theories/ProofsBer2.v
theories/PropertiesBer.v
theories/SpecAccepted.v
theories/ProofsAccepted.v
theories/ProofsAccepted2.v
theories/ProofsAccepted3.v
theories/ProofsAccepted4.v
theories/ProofsAccepted5.v
theories/PropertiesAccepted.v
theories/SpecSigned.v
theories/ProofsSigned.v
theories/PropertiesSigned.v
theories/ExampleRepo.v
theories/ExampleMultiple.v
theories/ExampleLifetime.v
theories/SpecEvidence.v
theories/ProofsEvidence.v
theories/PropertiesEvidence.v
theories/SpecTrustList.v
theories/ProofsTrustList.v
theories/PropertiesTrustList.v
theories/PropertiesHash.v
theories/ModelDefault.v
theories/SpecDefault.v
theories/ProofsDefault.v
theories/PropertiesDefault.v
theories/SpecTags.v
theories/ProofsTags.v
theories/PropertiesTags.v
