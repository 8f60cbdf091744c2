-Q theories Verif
theories/Base.v
theories/BaseFacts.v
theories/Stream.v
theories/SpecStream.v
theories/StreamProofs.v
theories/StreamOpsProofs.v
theories/SpecDigits.v
theories/SpecDer.v
theories/Asn1.v
theories/PropStream.v
theories/DigitsFacts.v
theories/DerFacts.v
theories/SpecAsn1.v
theories/Asn1Proofs.v
theories/PropAsn1.v
theories/PropInt.v
theories/Cbor.v
theories/SpecCbor.v
theories/CborFacts.v
theories/CborProofs.v
theories/PropCbor.v
theories/Oid.v
theories/X509.v
theories/X509Ext.v
theories/SpecX509.v
theories/RendProofs.v
theories/X509Facts.v
theories/X509Proofs.v
theories/SpecApi.v
theories/ApiProofs.v
theories/PropX509.v
theories/PropOid.v
theories/PropX509Cert.v
theories/PropX509Ext.v
theories/PropApi.v
theories/Res.v
theories/Sha256.v
theories/Sha512.v
theories/SpecSha2.v
theories/ShaFacts.v
theories/Sha256Proofs.v
theories/Sha512Proofs.v
theories/PropSha.v
theories/Crypto.v
theories/SpecMac.v
theories/SpecCrypto.v
theories/CryptoProofs.v
theories/PropCrypto.v
theories/Bssl.v
theories/BsslKeys.v
theories/SpecBssl.v
theories/BsslProofs.v
theories/Rfc6979Proofs.v
theories/KeyProofs.v
theories/PropBssl.v
theories/PropUnwrap.v
theories/PropBsslFail.v
theories/PropKeys.v
theories/FailProofs.v
theories/PropKeysFail.v
theories/TestUtils.v
theories/SpecTest.v
theories/TestProofs.v
theories/PropTest.v
theories/ConformCore.v
theories/ConformX509.v
theories/ConformCrypto.v
theories/Issue.v
theories/PropIssue.v
theories/SpecDice.v
theories/PropDice.v
theories/SpecProfile.v
theories/PropProfile.v
theories/SpecClient.v
theories/PropClient.v
theories/CertTest.v
theories/PropCertTest.v
theories/SpecProgram.v
theories/PropProgram.v
theories/CryptoTest.v
theories/SpecSuite.v
theories/PropSuite.v
theories/KeyTest.v
theories/SpecKeyTest.v
theories/PropKeyTest.v
theories/Shared.v
theories/SpecShared.v
theories/PropShared.v
theories/SpecPort.v
theories/PortProofs.v
theories/PropPort.v
theories/KgenTest.v
theories/SpecKgen.v
theories/PropKgen.v
theories/Overlap.v
theories/SpecOverlap.v
theories/PropOverlap.v
theories/CoreTest.v
theories/SpecCoreTest.v
theories/CoreTestProofs.v
theories/PropCoreTest.v
theories/PropCoreRows.v
theories/X509Unique.v
theories/PropUnique.v
theories/X509Test.v
theories/PropX509Test.v
theories/PropX509TestExt.v
theories/SpecPath.v
theories/PropPath.v
theories/CertVerify.v
theories/SpecCertVerify.v
theories/PropCertVerify.v
theories/SpecCallback.v
theories/PropCallback.v
