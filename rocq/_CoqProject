-Q theories Verif
theories/Base.v
theories/BaseFacts.v
theories/CanonModel.v
theories/CanonSpec.v
theories/CanonProofs.v
theories/CanonProps.v
theories/TransformModel.v
theories/TransformSpec.v
theories/TransformProofs.v
theories/TransformProps.v
theories/PermModel.v
theories/PermSpec.v
theories/PermProofs.v
theories/PermProps.v
theories/ClockModel.v
theories/ClockProofs.v
theories/ClockProps.v
theories/IdModel.v
theories/IdSpec.v
theories/IdProofs.v
theories/IdProps.v
theories/GentoolsModel.v
theories/GentoolsSpec.v
theories/GentoolsProofs.v
theories/GentoolsProps.v
theories/CipherModel.v
theories/CipherSpec.v
theories/CipherProofs.v
theories/SessionProofs.v
theories/BindingProofs.v
theories/ShippedProofs.v
theories/ConfusionProofs.v
theories/CipherProps.v
theories/StreamModel.v
theories/StreamSpec.v
theories/StreamProofs.v
theories/StreamOpenProofs.v
theories/StreamPairProofs.v
theories/StreamHistoryProofs.v
theories/StreamTimeProofs.v
theories/StreamProps.v
theories/AuthModel.v
theories/AuthSpec.v
theories/AuthProofs.v
theories/AuthProps.v
theories/GuardModel.v
theories/GuardSpec.v
theories/GuardProofs.v
theories/GuardProps.v
theories/ManagerModel.v
theories/ManagerSpec.v
theories/ManagerProofs.v
theories/ManagerProps.v
theories/KdfModel.v
theories/KdfSpec.v
theories/KdfProofs.v
theories/KdfProps.v
theories/DbModel.v
theories/DbSpec.v
theories/DbProofs.v
theories/DbToy.v
theories/DbProps.v
theories/TreeModel.v
theories/TreeSpec.v
theories/TreeProofs.v
theories/TreeProps.v
theories/PasscryptModel.v
theories/PasscryptSpec.v
theories/PasscryptProofs.v
theories/PasscryptConfusion.v
theories/PasscryptProps.v
theories/CurveModel.v
theories/CurveSpec.v
theories/CurveProofs.v
theories/CurveProps.v
theories/WordLists.v
theories/MnemonicModel.v
theories/MnemonicSpec.v
theories/MnemonicProofs.v
theories/MnemonicProps.v
theories/StrModel.v
theories/StrFacts.v
theories/ContainersModel.v
theories/ContainersSpec.v
theories/ContainersProofs.v
theories/ContainersProps.v
theories/JsonModel.v
theories/JsonSpec.v
theories/JsonProofs.v
theories/PackageModel.v
theories/PackageSpec.v
theories/PackageProofs.v
theories/PackageProps.v
theories/SaltModel.v
theories/SaltSpec.v
theories/SaltProofs.v
theories/SaltProps.v
theories/RandomModel.v
theories/RandomSpec.v
theories/RandomProofs.v
theories/RandomProps.v
theories/NameModel.v
theories/NameSpec.v
theories/NameProofs.v
theories/NameProps.v
theories/DomainsModel.v
theories/DomainsSpec.v
theories/DomainsProofs.v
theories/DomainsProps.v
theories/ConfigModel.v
theories/ConfigSpec.v
theories/ConfigProofs.v
theories/ConfigProps.v
theories/MultModel.v
theories/MultSpec.v
theories/MultProofs.v
theories/PrimeProofs.v
theories/PrimeCerts1.v
theories/PrimeCerts2.v
theories/PrimeCerts3.v
theories/PrimeCerts4.v
theories/MultProps.v
theories/SealSpec.v
theories/SealProofs.v
theories/SealProps.v
theories/LoadsModel.v
theories/LoadsSpec.v
theories/LoadsProofs.v
theories/LoadsProps.v
theories/StoreModel.v
theories/StoreSpec.v
theories/StoreProofs.v
theories/StoreProps.v
theories/ProfileModel.v
theories/ProfileSpec.v
theories/ProfileProofs.v
theories/ProfileProps.v
theories/PoolModel.v
theories/PoolSpec.v
theories/PoolProofs.v
theories/PoolProps.v
theories/TasksModel.v
theories/TasksSpec.v
theories/TasksProofs.v
theories/TasksProps.v
theories/FeedModel.v
theories/FeedSpec.v
theories/FeedProofs.v
theories/FeedProps.v
theories/ReceiveModel.v
theories/ReceiveSpec.v
theories/ReceiveProofs.v
theories/ReceiveGuard.v
theories/ReceiveProps.v
theories/SaveModel.v
theories/SaveSpec.v
theories/SaveProofs.v
theories/SaveProps.v
theories/MetaModel.v
theories/MetaSpec.v
theories/MetaProofs.v
theories/MetaProps.v
theories/IterModel.v
theories/IterSpec.v
theories/IterProofs.v
theories/IterProps.v
theories/WipeModel.v
theories/WipeSpec.v
theories/WipeProofs.v
theories/WipeProps.v
theories/IgnoreModel.v
theories/IgnoreSpec.v
theories/IgnoreProofs.v
theories/IgnoreProps.v
theories/ReportModel.v
theories/ReportSpec.v
theories/ReportProofs.v
theories/ReportProps.v
theories/ReprModel.v
theories/ReprSpec.v
theories/ReprProofs.v
theories/ReprProps.v
theories/FileModel.v
theories/FileSpec.v
theories/FileProofs.v
theories/FileProps.v
theories/AliasModel.v
theories/AliasSpec.v
theories/AliasProofs.v
theories/AliasProps.v
theories/ServiceModel.v
theories/ServiceSpec.v
theories/IndentProofs.v
theories/ServiceProofs.v
theories/ServiceProps.v
theories/StatusModel.v
theories/StatusSpec.v
theories/StatusProofs.v
theories/StatusProps.v
theories/AwaitModel.v
theories/AwaitSpec.v
theories/AwaitProofs.v
theories/AwaitProps.v
theories/DualModel.v
theories/DualSpec.v
theories/DualProofs.v
theories/DualProps.v
theories/WithModel.v
theories/WithSpec.v
theories/WithProofs.v
theories/WithProps.v
theories/WeaveModel.v
theories/WeaveSpec.v
theories/WeaveProofs.v
theories/WeaveProps.v
theories/UnqueuedModel.v
theories/UnqueuedSpec.v
theories/UnqueuedProofs.v
theories/UnqueuedProps.v
theories/GateModel.v
theories/GateSpec.v
theories/GateProofs.v
theories/GateProps.v
theories/DefineModel.v
theories/DefineSpec.v
theories/DefineProofs.v
theories/DefineProps.v
theories/LoopModel.v
theories/LoopSpec.v
theories/LoopProofs.v
theories/LoopProps.v
theories/ForestSpec.v
theories/ForestProofs.v
theories/ForestProps.v
theories/TrackModel.v
theories/TrackSpec.v
theories/TrackProofs.v
theories/TrackProps.v
theories/ShareModel.v
theories/ShareSpec.v
theories/ShareProofs.v
theories/ShareProps.v
theories/IssueModel.v
theories/IssueSpec.v
theories/IssueProofs.v
theories/IssueProps.v
theories/RemakeModel.v
theories/RemakeSpec.v
theories/RemakeProofs.v
theories/RemakeProps.v
theories/RegistryModel.v
theories/RegistrySpec.v
theories/RegistryProofs.v
theories/RegistryProps.v
theories/DaemonModel.v
theories/DaemonSpec.v
theories/DaemonProofs.v
theories/DaemonProps.v
theories/LoopsModel.v
theories/LoopsProofs.v
theories/LoopsProps.v
theories/BagModel.v
theories/BagSpec.v
theories/BagProofs.v
theories/BagProps.v
