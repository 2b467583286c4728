-Q theories Verif

theories/AcceptDiskProofs.v
theories/AcceptDiskProps.v
theories/AcceptProofs.v
theories/AcceptProps.v
theories/AcceptSpec.v
theories/AddDiskProofs.v
theories/AddFileProofs.v
theories/AddProofs.v
theories/AddressProofs.v
theories/ArchiveProofs.v
theories/ArgsModel.v
theories/ArgsProofs.v
theories/ArgsProps.v
theories/ArgsSpec.v
theories/CellProofs.v
theories/ChooseModel.v
theories/ChooseProofs.v
theories/ChooseProps.v
theories/ChooseSpec.v
theories/CliCleanProofs.v
theories/CliMainProofs.v
theories/CliModel.v
theories/CliProofs.v
theories/CliProps.v
theories/CliSpec.v
theories/CommandFileModel.v
theories/CommandFileProofs.v
theories/CommandFileProofs2.v
theories/CommandFileProps.v
theories/CommandFileSpec.v
theories/CommandHistoryProofs.v
theories/CommandHistoryProps.v
theories/CommandHistorySpec.v
theories/CommandHwModel.v
theories/CommandHwProofs.v
theories/CommandHwProofs2.v
theories/CommandHwProps.v
theories/CommandHwSpec.v
theories/CommandInjectModel.v
theories/CommandInjectProofs.v
theories/CommandInjectProps.v
theories/CommandInjectSpec.v
theories/CommandModel.v
theories/CommandProofs.v
theories/CommandProofs2.v
theories/CommandProofs3.v
theories/CommandProps.v
theories/CommandSpec.v
theories/ConfigPropProofs.v
theories/ConsentProofs.v
theories/ConsentProps.v
theories/CountDefaultProofs.v
theories/CountItemProofs.v
theories/CountProofs.v
theories/CountProps.v
theories/CountSpec.v
theories/CrashModel.v
theories/CrashProofs.v
theories/CrashProofs2.v
theories/CrashProofs3.v
theories/CrashProofs4.v
theories/CrashProps.v
theories/CrashSpec.v
theories/DeployModel.v
theories/DeployProofs.v
theories/DeployProps.v
theories/DeploySpec.v
theories/DeviceProofs.v
theories/DialogueProofs.v
theories/DiskOptModel.v
theories/DiskOptProofs.v
theories/DiskOptProps.v
theories/DiskOptSpec.v
theories/DriveModel.v
theories/DriveProps.v
theories/DriveSpec.v
theories/EditHwAllProofs.v
theories/EditHwConfigProofs.v
theories/EditHwModel.v
theories/EditHwNameProofs.v
theories/EditHwProfProofs.v
theories/EditHwProofs.v
theories/EditHwProps.v
theories/EditHwReadProofs.v
theories/EditHwResultProofs.v
theories/EditHwRunProofs.v
theories/EditHwSpec.v
theories/EditHwSystemProofs.v
theories/EditHwTreeProofs.v
theories/EditHwValueProofs.v
theories/EditHwViewProofs.v
theories/EditPropModel.v
theories/EditPropProofs.v
theories/EditPropProps.v
theories/EditPropSpec.v
theories/EditRunProofs.v
theories/EmitProofs.v
theories/EnvPropModel.v
theories/EnvPropProofs.v
theories/EnvPropProps.v
theories/EnvPropSpec.v
theories/FileRefModel.v
theories/FileRefProofs.v
theories/FileRefProps.v
theories/FileRefSpec.v
theories/FindProofs.v
theories/FindProps.v
theories/FindSpec.v
theories/GenerateProofs.v
theories/GenerateProps.v
theories/GenerateSpec.v
theories/HardwareIdProofs.v
theories/HardwareModel.v
theories/HardwareProofs.v
theories/HardwareProps.v
theories/HardwareSpec.v
theories/HwOptModel.v
theories/HwOptProofs.v
theories/HwOptProps.v
theories/HwOptSpec.v
theories/HwStepProofs.v
theories/ImageModel.v
theories/ImageProofs.v
theories/ImageProps.v
theories/ImageSpec.v
theories/InfoFileProofs.v
theories/InfoFileProps.v
theories/InfoFileSpec.v
theories/InfoModel.v
theories/InfoMoreProofs.v
theories/InfoMoreProofs2.v
theories/InfoMoreProps.v
theories/InfoMoreSpec.v
theories/InfoProfileProofs.v
theories/InfoProps.v
theories/InfoRunModel.v
theories/InfoRunProofs.v
theories/InfoRunSpec.v
theories/InfoSpec.v
theories/InjectModel.v
theories/InjectProofs.v
theories/InjectProps.v
theories/InjectSpec.v
theories/InstallExactProofs.v
theories/InstallExactProps.v
theories/InstallExactSpec.v
theories/InstallModel.v
theories/InstallProofs.v
theories/InstallProps.v
theories/InstallRunProofs.v
theories/InstallSpec.v
theories/ItemAddProofs.v
theories/ItemEffectProofs.v
theories/ItemModel.v
theories/ItemProfileProofs.v
theories/ItemProofs.v
theories/ItemProps.v
theories/ItemReachProofs.v
theories/ItemSetProofs.v
theories/ItemSpec.v
theories/LinkProofs.v
theories/ListingProofs.v
theories/ListingProps.v
theories/ListingSpec.v
theories/LookupProofs.v
theories/ManifestModel.v
theories/ManifestProofs.v
theories/ManifestProps.v
theories/ManifestSpec.v
theories/NameHelperModel.v
theories/NameHelperProofs.v
theories/NameHelperProps.v
theories/NameHelperSpec.v
theories/NamesModel.v
theories/NetworkModel.v
theories/NetworkProofs.v
theories/NetworkProps.v
theories/NetworkSpec.v
theories/OpenFileProofs.v
theories/OpenHwProofs.v
theories/OpenModel.v
theories/OpenNameProofs.v
theories/OpenProofs.v
theories/OpenProps.v
theories/OpenSpec.v
theories/OrderlyProofs.v
theories/OvfWriteModel.v
theories/OvfWriteProofs.v
theories/OvfWriteProps.v
theories/OvfWriteSpec.v
theories/PartitionProofs.v
theories/PathModel.v
theories/PathProofs.v
theories/PathSpec.v
theories/PlatformModel.v
theories/PlatformProofs.v
theories/PlatformProps.v
theories/PlatformSpec.v
theories/PrettyLenProofs.v
theories/PrettyModel.v
theories/PrettyProofs.v
theories/PrettyProps.v
theories/PrettySpec.v
theories/ProductModel.v
theories/ProductProofs.v
theories/ProductProps.v
theories/ProductSpec.v
theories/ProfileDocProofs.v
theories/ProfileModel.v
theories/ProfileProofs.v
theories/ProfileProps.v
theories/ProfileSpec.v
theories/ProgModel.v
theories/PropArgModel.v
theories/PropArgProofs.v
theories/PropArgProps.v
theories/PropArgSpec.v
theories/PsetProofs.v
theories/PyBase.v
theories/PyBaseProofs.v
theories/PyDict.v
theories/PyDictProofs.v
theories/PyRegex.v
theories/PyRegexProofs.v
theories/RawModel.v
theories/RawProofs.v
theories/RawProps.v
theories/RawSpec.v
theories/ReadCellProofs.v
theories/RefreshModel.v
theories/RefreshOkProofs.v
theories/RefreshOrderProofs.v
theories/RefreshProofs.v
theories/RefreshProps.v
theories/RefreshSpec.v
theories/RemoveProofs.v
theories/ReopenProofs.v
theories/RereadProofs.v
theories/RereadProps.v
theories/RereadSpec.v
theories/RoundtripProofs.v
theories/SaveModel.v
theories/SaveProofs.v
theories/SaveProps.v
theories/SaveSpec.v
theories/SearchProofs.v
theories/SectionProofs.v
theories/SelectModel.v
theories/SelectProofs.v
theories/SelectProps.v
theories/SelectSpec.v
theories/SerialModel.v
theories/SerialProofs.v
theories/SerialProps.v
theories/SerialSpec.v
theories/SizesModel.v
theories/SizesProofs.v
theories/SizesProps.v
theories/SizesSpec.v
theories/SlotProofs.v
theories/SpaceModel.v
theories/SpaceProofs.v
theories/SpaceProps.v
theories/SpaceSpec.v
theories/SubtypeProofs.v
theories/SubtypeProps.v
theories/SubtypeSpec.v
theories/TarModel.v
theories/TarProofs.v
theories/TarProps.v
theories/TarSpec.v
theories/TwinProofs.v
theories/UnitsModel.v
theories/UnitsProofs.v
theories/UnitsProps.v
theories/UnitsSpec.v
theories/UpdateHistoryProofs.v
theories/UpdateProofs.v
theories/UsageModel.v
theories/UsageProofs.v
theories/UsageProps.v
theories/UsageReProofs.v
theories/UsageSpec.v
theories/UsageTextProofs.v
theories/UsageWrapProofs.v
theories/ValidateHwModel.v
theories/ValidateHwProofs.v
theories/ValidateHwProps.v
theories/ValidateHwSpec.v
theories/ValidationModel.v
theories/ValidationProofs.v
theories/ValidationProps.v
theories/ValidationSpec.v
theories/WildListModel.v
theories/WildListProofs.v
theories/WildListProps.v
theories/WildListSpec.v
theories/WildcardItemProofs.v
theories/WildcardProofs.v
theories/WildcardProps.v
theories/WorkerProofs.v
theories/WrapModel.v
theories/WrapProofs.v
theories/WrapProps.v
theories/WrapSpec.v
theories/XmlModel.v
theories/XmlProofs.v
theories/XmlProps.v
theories/XmlSpec.v
