-Q theories Verif
theories/Base.v
theories/Labels.v
theories/Crypto.v
theories/Bytehelper.v
theories/Ecc.v
theories/Cbc.v
theories/Wire.v
theories/Itoa.v
theories/Keys.v
theories/X3dh.v
theories/Messages.v
theories/SessionState.v
theories/SessionRecord.v
theories/SessionBuilder.v
theories/SessionCipher.v
theories/Group.v
theories/Address.v
theories/Fingerprint.v
theories/PreKeyRecords.v
theories/KeyHelper.v
theories/Provision.v
theories/World.v
theories/Toy.v
theories/WireProofs.v
theories/CodecProofs.v
theories/CodecProofs2.v
theories/PropertiesCodec.v
theories/CryptoProofs.v
theories/PropertiesCrypto.v
theories/SessionProofs.v
theories/SerialProofs.v
theories/ToySession.v
theories/PropertiesSerial.v
theories/SessionSpec.v
theories/HistoryProofs.v
theories/InvariantProofs.v
theories/ReplayProofs.v
theories/OpsProofs.v
theories/OpsProofs2.v
theories/OpsProofs3.v
theories/ToyArchive.v
theories/PropertiesSession.v
theories/MiscProofs.v
theories/PropertiesMisc.v
theories/GroupSpec.v
theories/GroupProofs.v
theories/GroupProofs2.v
theories/PropertiesGroup.v
theories/ConvSpec.v
theories/ConvProofs.v
theories/ConvProofs2.v
theories/ConvProofs3.v
theories/PropertiesConv.v
theories/Field25519.v
theories/FieldSpec.v
theories/FieldProofs.v
theories/FieldProofs2.v
theories/FieldProofs3.v
theories/FermatNat.v
theories/Fermat.v
theories/FastZ.v
theories/FieldPrime.v
theories/FieldProofs4.v
theories/PropertiesField.v
theories/FsSpec.v
theories/FsProofs.v
theories/FsRefine.v
theories/PropertiesFs.v
theories/Scalar25519.v
theories/ScalarSpec.v
theories/ScalarProofs.v
theories/ScalarProofs2.v
theories/PropertiesScalar.v
theories/Fp.v
theories/CurveSpec.v
theories/CurveProofs.v
theories/CurveGroup.v
theories/WireFormatSpec.v
theories/KdfProofs.v
theories/PropertiesKdf.v
theories/EdBase.v
theories/Edwards.v
theories/EdwardsProofs.v
theories/EdwardsProofs2.v
theories/EdwardsTable.v
theories/EdwardsMult.v
theories/OrderPrime.v
theories/EdwardsOrder.v
theories/XEdDSA.v
theories/XedSpec.v
theories/XedProofs.v
theories/EdwardsDecode.v
theories/XedRef.v
theories/PropertiesCurve.v
theories/PropertiesXed.v
theories/Json.v
theories/JsonSpec.v
theories/JsonProofs.v
theories/JsonProofs2.v
theories/JsonProofs3.v
theories/JsonRecords.v
theories/JsonMessages.v
theories/JsonStorageSpec.v
theories/JsonRecordProofs.v
theories/JsonTextProofs.v
theories/JsonStringSpec.v
theories/JsonStringProofs.v
theories/JsonStringProofs2.v
theories/PropertiesJson.v
theories/ReopenSpec.v
theories/ReopenProofs.v
theories/ReopenProofs2.v
theories/ReopenProofs3.v
theories/ReopenProofs4.v
theories/ReopenScript.v
theories/PropertiesReopen.v
theories/CrashSpec.v
theories/CrashProofs.v
theories/PropertiesCrash.v
theories/ThreadSpec.v
theories/ThreadProofs.v
theories/PropertiesThread.v
theories/GroupConvSpec.v
theories/GroupConvProofs.v
theories/PropertiesGroupConv.v
theories/GroupStoreSpec.v
theories/GroupStoreProofs.v
theories/PropertiesGroupStore.v
theories/GroupFsSpec.v
theories/GroupFsProofs.v
theories/PropertiesGroupFs.v
theories/SecrecySpec.v
theories/SecrecyProofs.v
theories/SecrecyProofs2.v
theories/PropertiesSecrecy.v
theories/GroupWireSpec.v
theories/GroupWireProofs.v
theories/PropertiesGroupWire.v
theories/Sha2.v
theories/Aes.v
theories/X25519.v
theories/AesProofs.v
theories/LadderAlgebra.v
theories/LadderProofs.v
theories/PropertiesStandard.v
theories/KeyPairProofs.v
theories/PropertiesKeyPairs.v
theories/JsonValueSpec.v
theories/JsonValueProofs.v
theories/ParserErrors.v
theories/BindingSpec.v
theories/BindingProofs.v
theories/PropertiesBinding.v
theories/MembersSpec.v
theories/LoadSpec.v
theories/LoadProofs.v
theories/PropertiesLoad.v
theories/CipherObject.v
theories/PropertiesObject.v
theories/GroupThreadSpec.v
theories/GroupThreadProofs.v
theories/PropertiesGroupThread.v
theories/WireGrammarSpec.v
theories/WireGrammarProofs.v
theories/WireFateProofs.v
theories/PropertiesWire.v
theories/BodySpec.v
theories/BodyProofs.v
theories/GroupCallSpec.v
theories/GroupCallProofs.v
theories/PropertiesGroupCall.v
theories/JsonFateSpec.v
theories/JsonFateProofs.v
theories/PropertiesJsonWire.v
theories/SessionCallSpec.v
theories/SessionCallProofs.v
theories/SessionCallProofs2.v
theories/SessionCallProofs3.v
theories/PropertiesSessionCall.v
theories/CipherSpec.v
theories/PropertiesCipher.v
theories/PropertiesMore.v
theories/CutSpec.v
theories/CutProofs.v
theories/PropertiesCut.v
theories/GroupCutSpec.v
theories/GroupCutProofs.v
theories/PropertiesGroupCut.v
theories/AttackSpec.v
theories/AttackProofs.v
theories/PropertiesAttack.v
theories/ManySpec.v
theories/ManyProofs.v
theories/PropertiesMany.v
theories/TrustSpec.v
theories/TrustProofs.v
theories/PropertiesTrust.v
theories/JointSpec.v
theories/JointProofs.v
theories/PropertiesJoint.v
theories/GoMem.v
theories/GoMemSpec.v
theories/GoMemProofs.v
theories/PropertiesMem.v
theories/KeyHelperSpec.v
theories/KeyHelperProofs.v
theories/PropertiesKeyHelper.v
theories/PropertiesText.v
theories/QuietSpec.v
theories/QuietProofs.v
theories/PropertiesQuiet.v
theories/Logger.v
theories/LoggerSpec.v
theories/LoggerProofs.v
theories/PropertiesLogger.v
theories/Async.v
theories/AsyncProofs.v
theories/PropertiesAsync.v
theories/MalleableProofs.v
theories/PropertiesMalleable.v
theories/ByteMem.v
theories/PropertiesBytes.v
