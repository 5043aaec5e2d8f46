-Q theories Verif
theories/GoBase.v
theories/Wire.v
theories/WireProofs.v
theories/Canonical.v
theories/CanonicalProofs.v
theories/SignState.v
theories/Spec.v
theories/SignStateProofs.v
theories/CanonicalApi.v
theories/PropsSignState.v
theories/PropsCanonical.v
theories/Crypto.v
theories/LocalCosigner.v
theories/CosignerSpec.v
theories/CosignerProofs.v
theories/CosignerProofs2.v
theories/ExtractProofs.v
theories/Toy.v
theories/CosignerWitness.v
theories/PropsCosigner.v
theories/Cluster.v
theories/ClusterProofs.v
theories/PropsCluster.v
theories/Json.v
theories/JsonProofs.v
theories/Utf8.v
theories/Utf8Proofs.v
theories/Disk.v
theories/DiskSpec.v
theories/DiskProofs.v
theories/DiskProofs2.v
theories/DiskWitness.v
theories/PropsDisk.v
theories/Validator.v
theories/ValidatorSpec.v
theories/ValidatorProofs.v
theories/ValidatorProofs2.v
theories/ValidatorProofs3.v
theories/ValidatorProofs4.v
theories/ValidatorWitness.v
theories/PropsValidator.v
theories/Raft.v
theories/RaftSpec.v
theories/RaftProofs.v
theories/PropsRaft.v
theories/Privval.v
theories/RemoteSigner.v
theories/PrivvalSpec.v
theories/PrivvalProofs.v
theories/RemoteSignerProofs.v
theories/Rpc.v
theories/RpcSpec.v
theories/RpcProofs.v
theories/PropsRemote.v
theories/RpcFieldsSpec.v
theories/RpcFieldsProofs.v
theories/PropsRpc.v
theories/Config.v
theories/ConfigSpec.v
theories/ConfigProofs.v
theories/ConfigProofs2.v
theories/ConfigWitness.v
theories/ConfigApi.v
theories/PropsConfig.v
theories/Poly.v
theories/PolyProofs.v
theories/Scheme.v
theories/ToyScheme.v
theories/RoundSpec.v
theories/RoundProofs.v
theories/RoundProofs2.v
theories/RoundProofs3.v
theories/RoundProofs4.v
theories/KeyShares.v
theories/KeySharesSpec.v
theories/KeySharesProofs.v
theories/ThresholdWitness.v
theories/PropsThreshold.v
theories/FilePV.v
theories/FilePVSpec.v
theories/FilePVProofs.v
theories/FilePVAnswers.v
theories/PropsFilePV.v
theories/KeyFile.v
theories/KeyFileSpec.v
theories/KeyFileProofs.v
theories/PropsKeyFile.v
theories/Startup.v
theories/StartupSpec.v
theories/StartupProofs.v
theories/PropsStartup.v
theories/System.v
theories/SystemSpec.v
theories/SystemProofs.v
theories/SystemWitness.v
theories/SystemLossWitness.v
theories/PropsSystem.v
theories/SystemLiveSpec.v
theories/SystemLive.v
theories/SystemLiveWitness.v
theories/PropsSystemLive.v
theories/NonceSpec.v
theories/NonceProofs.v
theories/PropsNonce.v
theories/FailoverSpec.v
theories/FailoverProofs.v
theories/FailoverWitness.v
theories/PropsFailover.v
theories/HidingSpec.v
theories/HidingProofs.v
theories/HidingWitness.v
theories/PropsHiding.v
theories/ConnLoop.v
theories/ConnLoopSpec.v
theories/ConnLoopProofs.v
theories/PropsConnLoop.v
theories/Machine.v
theories/MachineSpec.v
theories/MachineProofs.v
theories/MachineProofs2.v
theories/MachineWitness.v
theories/PropsMachine.v
theories/Bech32.v
theories/AddressSpec.v
theories/Bech32Proofs.v
theories/Address.v
theories/Bip173.v
theories/Bip173Proofs.v
theories/AddressProofs.v
theories/AddressWitness.v
theories/PropsAddress.v
theories/SocketSpec.v
theories/SocketProofs.v
theories/SocketWitness.v
theories/PropsSocket.v
theories/Url.v
theories/Dial.v
theories/DialSpec.v
theories/UrlProofs.v
theories/DialProofs.v
theories/DialWitness.v
theories/PropsDial.v
theories/TimedSpec.v
theories/TimedProofs.v
theories/TimedWitness.v
theories/PropsTimed.v
theories/Single.v
theories/SingleSpec.v
theories/SingleProofs.v
theories/SingleWitness.v
theories/PropsSingle.v
theories/Duration.v
theories/DurationSpec.v
theories/DurationProofs.v
theories/PropsDuration.v
theories/Forward.v
theories/ForwardSpec.v
theories/ForwardProofs.v
theories/PropsForward.v
theories/Pkcs1.v
theories/Pkcs1Proofs.v
theories/Rsa.v
theories/RsaSpec.v
theories/NumTheory.v
theories/RsaProofs.v
theories/PropsRsa.v
theories/GoFieldsSpec.v
theories/GoFieldsProofs.v
theories/PropsFields.v
theories/GroupSpec.v
theories/GroupProofs.v
theories/PropsGroups.v
theories/Ed25519.v
theories/EdPrimes.v
theories/EdField.v
theories/EdCurve.v
theories/EdCalc.v
theories/EdPoints.v
theories/EdBytes.v
theories/EdScheme.v
theories/EdSpec.v
theories/EdSpecProofs.v
theories/EdHiding.v
theories/EdWitness.v
theories/PropsEd.v
theories/JsonSpec.v
theories/JsonTextProofs.v
theories/JsonStateProofs.v
theories/PropsJson.v
theories/EntrySpec.v
theories/EntryProofs.v
theories/PropsEntry.v
theories/Goroutines.v
theories/GoroutineSpec.v
theories/GoroutineProofs.v
theories/PropsGoroutine.v
theories/Locks.v
theories/LockSpec.v
theories/LockProofs.v
theories/PropsLocks.v
theories/Sha.v
theories/ShaSpec.v
theories/ShaProofs.v
theories/ShaWitness.v
theories/PropsSha.v
theories/Show.v
theories/ShowSpec.v
theories/ShowProofs.v
theories/PropsShow.v
theories/Deadline.v
theories/DeadlineSpec.v
theories/DeadlineProofs.v
theories/PropsDeadline.v
