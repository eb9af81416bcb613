-Q theories Verif

theories/Base.v
theories/Utf8.v
theories/Str.v
theories/Base64.v
theories/Crypto.v
theories/Reader.v
theories/KeyType.v
theories/PubKeyType.v
theories/Writer.v
theories/PubKey.v
theories/Utils.v
theories/Signature.v
theories/Cert.v
theories/BaseFacts.v
theories/ReaderFacts.v
theories/WriterFacts.v
theories/SpecWire.v
theories/Utf8Facts.v
theories/WireFacts.v
theories/PropReader.v
theories/SpecBase64.v
theories/Base64Facts.v
theories/PropBase64.v
theories/KeyTypeFacts.v
theories/PropKeyType.v
theories/SpecText.v
theories/StrFacts.v
theories/SpecKeys.v
theories/PubKeyFacts.v
theories/PropPubKey.v
theories/LocalFacts.v
theories/SpecSig.v
theories/SignatureFacts.v
theories/UtilsFacts.v
theories/PropSignature.v
theories/SpecCert.v
theories/CertFacts.v
theories/TbsFacts.v
theories/PropCert.v
theories/PropCertText.v
theories/PropIssue.v
theories/SpecSshSig.v
theories/SshSigFacts.v
theories/PropSshSig.v
theories/PrivKey.v
theories/SpecPrivKey.v
theories/PrivKeyFacts.v
theories/PropPrivKey.v
theories/SpecSign.v
theories/PropSign.v
theories/Chrono.v
theories/AllowedSigner.v
theories/SpecSigner.v
theories/ChronoFacts.v
theories/SignerFacts.v
theories/EntryFacts.v
theories/FileFacts.v
theories/PropSigner.v
theories/Fido.v
theories/SpecFido.v
theories/FidoFacts.v
theories/PropFido.v
theories/X509.v
theories/SpecX509.v
theories/X509Facts.v
theories/PropX509.v
theories/Piv.v
theories/SpecPiv.v
theories/PropPiv.v
theories/Generate.v
theories/SpecGenerate.v
theories/PropGenerate.v
theories/Show.v
theories/SpecShow.v
theories/ShowFacts.v
theories/PropShow.v
theories/PivCalls.v
theories/SpecPivCalls.v
theories/PropPivCalls.v
theories/Files.v
theories/SpecFiles.v
theories/CutFacts.v
theories/CutSignerFacts.v
theories/PropFiles.v
theories/PropDefaults.v
theories/SpecTools.v
theories/Tools.v
theories/PropTools.v
theories/PropSlots.v
theories/PropInspect.v
theories/PropYkTools.v
theories/SpecPin.v
theories/PropPin.v
theories/SpecSize.v
theories/PropSize.v
theories/Token.v
theories/SpecToken.v
theories/PropToken.v
theories/NewFido.v
theories/SpecNewFido.v
theories/PropNewFido.v
theories/Memory.v
theories/SpecMemory.v
theories/MemoryFacts.v
theories/PropMemory.v
theories/KindFacts.v
theories/SpecKinds.v
theories/PropKinds.v
theories/Devices.v
theories/SpecDevices.v
theories/PropDevices.v
theories/SpecRenew.v
theories/PropRenew.v
theories/Debug.v
theories/SpecDebug.v
theories/DebugFacts.v
theories/PropDebug.v
theories/Equal.v
theories/PropEqual.v
theories/SpecOrder.v
theories/PropOrder.v
theories/PropAccept.v
theories/PropMalleable.v
theories/SpecCross.v
theories/PropCross.v
theories/PropHuge.v
theories/SpecFeatures.v
theories/PropFeatures.v
theories/Temps.v
theories/SpecTemps.v
theories/TempsFacts.v
theories/LeftFacts.v
theories/PropTemps.v
theories/SpecNames.v
theories/SpecErrors.v
theories/ErrorsFacts.v
theories/PropErrors.v
theories/SpecRefused.v
theories/RefusedFacts.v
theories/PropRefused.v
theories/SpecAttest.v
theories/PropAttest.v
theories/SpecTrusted.v
theories/PropTrusted.v
theories/SpecRewrite.v
theories/RewriteFacts.v
theories/PropRewrite.v
theories/SpecTamper.v
theories/PropTamper.v
theories/PropCertLines.v
theories/SpecLineEnds.v
theories/PropLineEnds.v
theories/PropAgain.v
theories/SpecAsk.v
theories/PropAsk.v
theories/PropPassphrase.v
theories/SpecZone.v
theories/PropZone.v
theories/EqualSigner.v
theories/PropEntryEqual.v
theories/DebugMore.v
theories/SpecDebugMore.v
theories/DebugMoreFacts.v
theories/PropDebugMore.v
theories/SpecHistory.v
theories/PropHistory.v
theories/SpecBacked.v
theories/PropBacked.v
theories/SpecPivReads.v
theories/PropPivReads.v
theories/PropWrites.v
theories/SpecShared.v
theories/PropShared.v
theories/SpecSlotHistory.v
theories/PropSlotHistory.v
theories/SpecSeveral.v
theories/PropSeveral.v
theories/SpecLayout.v
theories/PropLayout.v
theories/SpecMixed.v
theories/PropMixed.v
theories/SpecPrinted.v
theories/PropPrinted.v
theories/SpecEnrolled.v
theories/PropEnrolled.v
theories/SpecArmor.v
theories/PropArmor.v
theories/PropKeyLines.v
