-Q theories Verif
theories/Base.v
theories/BaseLemmas.v
theories/TlvModel.v
theories/TlvSpec.v
theories/TlvProofs.v
theories/TlvEncProofs.v
theories/TlvDecProofs.v
theories/TlvProps.v
theories/NameModel.v
theories/NameSpec.v
theories/NameProofs.v
theories/NameProps.v
theories/UriModel.v
theories/UriSpec.v
theories/UriProofs.v
theories/UriProps.v
theories/ReaderModel.v
theories/ReaderSpec.v
theories/ReaderProofs.v
theories/ReaderProps.v
theories/CalModel.v
theories/CalSpec.v
theories/CalProofs.v
theories/CalProps.v
theories/WireModel.v
theories/WireSpec.v
theories/WireProofs.v
theories/WireProofs2.v
theories/WireProofs3.v
theories/WireProofs4.v
theories/WireProofs5.v
theories/WireProps.v
theories/DelegModel.v
theories/DelegSpec.v
theories/DelegProps.v
theories/WireSafety.v
theories/BlobModel.v
theories/BlobProps.v
theories/CtlModel.v
theories/CtlSpec.v
theories/CtlProofs.v
theories/CtlProps.v
theories/SafetyProps.v
theories/MatchModel.v
theories/MatchSpec.v
theories/MatchProofs.v
theories/MatchProps.v
theories/HeapModel.v
theories/HeapSpec.v
theories/HeapProofs.v
theories/HeapProofs2.v
theories/HeapProofs3.v
theories/HeapProofs4.v
theories/CacheProps.v
theories/NodeModel.v
theories/NodeSpec.v
theories/NodeProofs.v
theories/NodeProofs2.v
theories/NodeProofs3.v
theories/NodeProofs4.v
theories/NodeProofs5.v
theories/NodeProofs6.v
theories/NodeProps.v
theories/ListAux.v
theories/MccModel.v
theories/MccSpec.v
theories/MccProofs.v
theories/MccProofs2.v
theories/MccProps.v
theories/SegModel.v
theories/SegSpec.v
theories/SegProofs.v
theories/SegProps.v
theories/SegPubProps.v
theories/DigestModel.v
theories/DigestSpec.v
theories/DigestProps.v
theories/IbltModel.v
theories/IbltSpec.v
theories/IbltProofs.v
theories/IbltProps.v
theories/DictModel.v
theories/DictProofs.v
theories/PsyncModel.v
theories/PsyncSpec.v
theories/PsyncProofs.v
theories/PsyncProofs2.v
theories/PsyncProps.v
theories/PsyncProps2.v
theories/SchedModel.v
theories/SchedSpec.v
theories/SchedProps.v
theories/SchedWireProps.v
theories/SigProps.v
theories/StoreModel.v
theories/StoreSpec.v
theories/StoreProps.v
theories/CertModel.v
theories/CertSpec.v
theories/CertProofs.v
theories/CertProps.v
theories/AnchorSpec.v
theories/AnchorProps.v
theories/CmdModel.v
theories/CmdSpec.v
theories/CmdProps.v
theories/PrepProps.v
theories/ValModel.v
theories/ValSpec.v
theories/ValProps.v
theories/HierModel.v
theories/HierSpec.v
theories/HierProps.v
theories/PibModel.v
theories/PibSpec.v
theories/PibProps.v
theories/RegexModel.v
theories/RegexSpec.v
theories/RegexProofs.v
theories/RegexProofs2.v
theories/RegexProofs3.v
theories/RegexProofs4.v
theories/RegexProps.v
theories/DerModel.v
theories/DerSpec.v
theories/DerProofs.v
theories/DerProofs2.v
theories/DerProps.v
theories/InfoModel.v
theories/InfoSpec.v
theories/InfoProofs.v
theories/InfoProps.v
theories/ConfModel.v
theories/ConfSpec.v
theories/ConfProofs.v
theories/ConfProofs2.v
theories/ConfProps.v
theories/FrontModel.v
theories/FrontSpec.v
theories/FrontProofs.v
theories/FrontProofs2.v
theories/FrontProofs3.v
theories/FrontProofs4.v
theories/FrontProofs5.v
theories/FrontProps.v
theories/ChainModel.v
theories/ChainSpec.v
theories/ChainProofs.v
theories/ChainProofs2.v
theories/ChainProofs3.v
theories/ChainProofs4.v
theories/ChainProofs5.v
theories/ChainProofs6.v
theories/ChainProofs7.v
theories/ChainProps.v
theories/ChainExamples.v
theories/SinfoModel.v
theories/SinfoProps.v
theories/PkcsModel.v
theories/PkcsSpec.v
theories/PkcsProps.v
theories/BagModel.v
theories/BagProps.v
theories/BagChainModel.v
theories/BagChainProps.v
theories/NacModel.v
theories/NacSpec.v
theories/NacProofs.v
theories/NacProofs2.v
theories/NacProofs3.v
theories/NacProps.v
theories/NacExamples.v
theories/EncModel.v
theories/EncSpec.v
theories/EncProps.v
theories/EncExamples.v
theories/AmModel.v
theories/AmSpec.v
theories/AmProofs.v
theories/AmProps.v
theories/AmExamples.v
theories/SqlModel.v
theories/SqlSpec.v
theories/SqlTable.v
theories/SqlProofs.v
theories/SqlProofs2.v
theories/SqlProofs3.v
theories/SqlProps.v
theories/SqlExamples.v
theories/ChronoModel.v
theories/ChronoSpec.v
theories/ChronoProofs.v
theories/ChronoProofs2.v
theories/ChronoProofs3.v
theories/ChronoProofs4.v
theories/ChronoProofs5.v
theories/ChronoProps.v
theories/ChronoExamples.v
theories/TfModel.v
theories/TfSpec.v
theories/TfProofs.v
theories/TfProps.v
theories/EncrModel.v
theories/GmModel.v
theories/GmSpec.v
theories/GmProofs.v
theories/GmProofs2.v
theories/GmProofs3.v
theories/GmProps.v
theories/ExclModel.v
theories/ExclSpec.v
theories/ExclProofs.v
theories/ExclProps.v
theories/ProdModel.v
theories/ProdSpec.v
theories/ProdProofs.v
theories/ProdProofs2.v
theories/ProdProofs3.v
theories/ProdProofs4.v
theories/ProdProofs5.v
theories/ProdProofs6.v
theories/ProdProps.v
theories/ConsModel.v
theories/ConsSpec.v
theories/ConsSpec2.v
theories/ConsProofs.v
theories/ConsProofs2.v
theories/ConsProofs3.v
theories/ConsProofs4.v
theories/ConsProps.v
theories/CpmModel.v
theories/CpmSpec.v
theories/CpmProofs.v
theories/CpmProofs2.v
theories/CpmProps.v
theories/CpmProps2.v
theories/RecvModel.v
theories/RecvSpec.v
theories/RecvProps.v
theories/RegModel.v
theories/RegProps.v
theories/IcertModel.v
theories/IcertSpec.v
theories/IcertProps.v
theories/PtlvModel.v
theories/PtlvSpec.v
theories/PtlvProofs.v
theories/PtlvProofs2.v
theories/PtlvProps.v
theories/IdmModel.v
theories/IdmSpec.v
theories/IdmProofs.v
theories/IdmProofs2.v
theories/IdmProofs3.v
theories/IdmProps.v
theories/IdmProps2.v
theories/IdmProps3.v
theories/SelfModel.v
theories/SelfSpec.v
theories/SelfProofs.v
theories/SelfProps.v
theories/SelfProps2.v
theories/SelfProps3.v
theories/RexModel.v
theories/RexSpec.v
theories/RexProps.v
theories/LinkModel.v
theories/LinkSpec.v
theories/LinkProps.v
theories/HashModel.v
theories/HashSpec.v
theories/HashProps.v
theories/DerCutProps.v
theories/FpkModel.v
theories/FpkSpec.v
theories/FpkProofs.v
theories/FpkProps.v
theories/LocModel.v
theories/LocSpec.v
theories/LocProofs.v
theories/LocStep.v
theories/LocProps.v
theories/LocExamples.v
theories/BisModel.v
theories/BisSpec.v
theories/BisProofs.v
theories/BisStep.v
theories/BisSim.v
theories/BisProps.v
theories/BisExamples.v
theories/BisCrash.v
theories/BisDup.v
