-Q theories Verif
theories/Model/Prelude.v
theories/Model/Params.v
theories/Model/Gst.v
theories/Model/Svn.v
theories/Model/Bitfields.v
theories/Model/Maclt.v
theories/Model/Tesla.v
theories/Model/Merkle.v
theories/Model/Subframe.v
theories/Model/Dsm.v
theories/Model/MackStore.v
theories/Model/Nav.v
theories/Model/Osnma.v
theories/Model/Apps.v
theories/Model/Transport.v
theories/Model/Serial.v
theories/Model/TestVectors.v
theories/Model/Config.v
theories/Model/Protobuf.v
theories/Model/Logging.v
theories/Model/Work.v
theories/Model/FileName.v
theories/Spec/CollectSpec.v
theories/Spec/MacltSpec.v
theories/Spec/TimeSpec.v
theories/Spec/StoreSpec.v
theories/Spec/NavSpec.v
theories/Spec/TeslaSpec.v
theories/Spec/KrootSpec.v
theories/Spec/MerkleSpec.v
theories/Spec/SystemSpec.v
theories/Spec/KeySpec.v
theories/Spec/StoredSpec.v
theories/Spec/CompleteSpec.v
theories/Spec/PanicSpec.v
theories/Spec/AppsSpec.v
theories/Spec/TransportSpec.v
theories/Spec/SerialSpec.v
theories/Spec/VectorsSpec.v
theories/Spec/HonestSpec.v
theories/Spec/GalileoSpec.v
theories/Spec/OnceSpec.v
theories/Spec/ConfigSpec.v
theories/Spec/ProtobufSpec.v
theories/Spec/StreamSpec.v
theories/Spec/StarveSpec.v
theories/Spec/LogSpec.v
theories/Spec/WorkSpec.v
theories/Spec/RecoverSpec.v
theories/Spec/FieldSpec.v
theories/Spec/ResetSpec.v
theories/Spec/NavmonProto.v
theories/Spec/ErrorSpec.v
theories/Spec/ReportSpec.v
theories/Spec/EndSpec.v
theories/Spec/SumSpec.v
theories/Spec/DateSpec.v
theories/Spec/CleanSpec.v
theories/Spec/DsmLogSpec.v
theories/Spec/TraceSpec.v
theories/Spec/OrderSpec.v
theories/Spec/NavLogSpec.v
theories/Spec/KeptKeySpec.v
theories/Spec/RepeatSpec.v
theories/Proofs/Base.v
theories/Proofs/DsmProofs.v
theories/Proofs/GstProofs.v
theories/Proofs/LayoutProofs.v
theories/Proofs/MacltProofs.v
theories/Proofs/SubframeProofs.v
theories/Proofs/MackProofs.v
theories/Proofs/Ring.v
theories/Proofs/Rows.v
theories/Proofs/EntryProofs.v
theories/Proofs/NavInv.v
theories/Proofs/NavProofs.v
theories/Proofs/TeslaProofs.v
theories/Proofs/KrootProofs.v
theories/Proofs/MackValidProofs.v
theories/Proofs/MerkleProofs.v
theories/Proofs/NavHistory.v
theories/Proofs/SystemProofs.v
theories/Proofs/TagProofs.v
theories/Proofs/GetterProofs.v
theories/Proofs/AlertProofs.v
theories/Proofs/KeyStoreProofs.v
theories/Proofs/StepProofs.v
theories/Proofs/ChangeProofs.v
theories/Proofs/RecentProofs.v
theories/Proofs/StoredProofs.v
theories/Proofs/CompleteProofs.v
theories/Proofs/AuthProofs.v
theories/Proofs/PanicProofs.v
theories/Proofs/TotalProofs.v
theories/Proofs/AppsProofs.v
theories/Proofs/TransportProofs.v
theories/Proofs/LogProofs.v
theories/Proofs/SerialProofs.v
theories/Proofs/ForceProofs.v
theories/Proofs/VectorsProofs.v
theories/Proofs/HonestKeys.v
theories/Proofs/HonestProofs.v
theories/Proofs/MackExact.v
theories/Proofs/NavKeep.v
theories/Proofs/GalileoProofs.v
theories/Proofs/OnceProofs.v
theories/Proofs/ConfigProofs.v
theories/Proofs/ProtobufMain.v
theories/Proofs/ProtobufProofs.v
theories/Proofs/ProtobufTrip.v
theories/Proofs/ProtobufUse.v
theories/Proofs/StreamProofs.v
theories/Proofs/StarveProofs.v
theories/Proofs/LogCountProofs.v
theories/Proofs/LogRunProofs.v
theories/Proofs/LogTrueProofs.v
theories/Proofs/LogWordProofs.v
theories/Proofs/LoggingProofs.v
theories/Proofs/LogLevelProofs.v
theories/Proofs/WorkProofs.v
theories/Proofs/RecoverKeys.v
theories/Proofs/RecoverProofs.v
theories/Proofs/RenewalProofs.v
theories/Proofs/FieldProofs.v
theories/Proofs/ResetProofs.v
theories/Proofs/ErrorProofs.v
theories/Proofs/ReportProofs.v
theories/Proofs/EndProofs.v
theories/Proofs/SumProofs.v
theories/Proofs/SumRun.v
theories/Proofs/DateProofs.v
theories/Proofs/CleanProofs.v
theories/Proofs/CleanStores.v
theories/Proofs/CleanTags.v
theories/Proofs/AnchorProofs.v
theories/Proofs/StuckProofs.v
theories/Proofs/DsmLines.v
theories/Proofs/TraceProofs.v
theories/Proofs/OrderProofs.v
theories/Proofs/NavOrderProofs.v
theories/Proofs/NavLines.v
theories/Proofs/KeptKeyProofs.v
theories/Proofs/RepeatProofs.v
theories/Examples/Sha256.v
theories/Examples/Vectors.v
theories/Examples/Demo.v
theories/Examples/Transmit.v
theories/Examples/Toy.v
theories/Examples/Received.v
theories/Examples/UnitTests.v
theories/Props/DsmProps.v
theories/Props/GstProps.v
theories/Props/LayoutProps.v
theories/Props/MacltProps.v
theories/Props/SubframeProps.v
theories/Props/MackProps.v
theories/Props/TeslaProps.v
theories/Props/MerkleProps.v
theories/Props/SystemProps.v
theories/Props/KeyProps.v
theories/Props/NavProps.v
theories/Props/CompleteProps.v
theories/Props/PanicProps.v
theories/Props/TransportProps.v
theories/Props/AppsProps.v
theories/Props/SerialProps.v
theories/Props/ForceProps.v
theories/Props/VectorsProps.v
theories/Props/HonestProps.v
theories/Props/GalileoProps.v
theories/Props/OnceProps.v
theories/Props/ConfigProps.v
theories/Props/ProtobufProps.v
theories/Props/StarveProps.v
theories/Props/ColdProps.v
theories/Props/LoggingProps.v
theories/Props/WorkProps.v
theories/Props/OutageProps.v
theories/Props/RecoverProps.v
theories/Props/RenewalProps.v
theories/Props/FieldProps.v
theories/Props/ResetProps.v
theories/Props/ErrorProps.v
theories/Props/ReportProps.v
theories/Props/EndProps.v
theories/Props/SumProps.v
theories/Props/DateProps.v
theories/Props/CleanProps.v
theories/Props/AnchorProps.v
theories/Props/StuckProps.v
theories/Props/DsmLogProps.v
theories/Props/TraceProps.v
theories/Props/OrderProps.v
theories/Props/NavLogProps.v
theories/Props/KeptKeyProps.v
theories/Props/RepeatProps.v
