-Q theories Verif
theories/Base.v
theories/AccessInv.v
theories/AccessProofs.v
theories/AccessProps.v
theories/AccessSpec.v
theories/AssemblyModel.v
theories/AssemblyProofs.v
theories/AssemblyProps.v
theories/AssemblySpec.v
theories/BcmProofs.v
theories/BootModel.v
theories/BootPdoProps.v
theories/BootProofs.v
theories/BootProps.v
theories/BootSpec.v
theories/BridgeModel.v
theories/BridgeProofs.v
theories/BridgeProps.v
theories/BridgeSpec.v
theories/BusModel.v
theories/BusProofs.v
theories/BusProps.v
theories/BusSpec.v
theories/CanModel.v
theories/CanProofs.v
theories/CanProps.v
theories/CanSpec.v
theories/CanTextProps.v
theories/ChainModel.v
theories/ChainProofs.v
theories/ChainProps.v
theories/ChainSpec.v
theories/CtrlModel.v
theories/CtrlProofs.v
theories/CtrlProps.v
theories/CtrlSpec.v
theories/CycleModel.v
theories/CycleProofs.v
theories/CycleProps.v
theories/CycleSpec.v
theories/DiagModel.v
theories/DiagProofs.v
theories/DiagProps.v
theories/DiagSpec.v
theories/DispatcherModel.v
theories/DispatcherProofs.v
theories/DispatcherProps.v
theories/DispatcherSpec.v
theories/DriveModel.v
theories/DriveProofs.v
theories/DriveProps.v
theories/DriveSpec.v
theories/EdsModel.v
theories/EdsProofs.v
theories/EdsProps.v
theories/EdsSpec.v
theories/EmcyModel.v
theories/EmcyProofs.v
theories/EmcyProps.v
theories/EmcySpec.v
theories/EnableModel.v
theories/EnableProofs.v
theories/EnableProps.v
theories/EnableSpec.v
theories/ErrorTextProps.v
theories/ExtSyncModel.v
theories/ExtSyncProofs.v
theories/ExtSyncProps.v
theories/ExtSyncSpec.v
theories/FilterModel.v
theories/FilterProofs.v
theories/FilterProps.v
theories/FilterSpec.v
theories/FloatProofs.v
theories/FurtherProps.v
theories/HandleModel.v
theories/HandleProofs.v
theories/HandleProps.v
theories/HandleSpec.v
theories/HeldProps.v
theories/HomingModel.v
theories/HomingProofs.v
theories/HomingProps.v
theories/HomingSpec.v
theories/IniModel.v
theories/IniProofs.v
theories/IniProps.v
theories/IniSpec.v
theories/JointModel.v
theories/JointProofs.v
theories/JointProps.v
theories/JointRoundProofs.v
theories/JointSpec.v
theories/KeyModel.v
theories/KeyProofs.v
theories/KeyProps.v
theories/KeySpec.v
theories/LayerGroupProofs.v
theories/LayerModel.v
theories/LayerOrderProofs.v
theories/LayerProofs.v
theories/LayerProps.v
theories/LayerSpec.v
theories/LifeModel.v
theories/LifeProofs.v
theories/LifeProps.v
theories/LifeSpec.v
theories/LockModel.v
theories/LockOrder.v
theories/LockProofs.v
theories/LockProps.v
theories/LockSpec.v
theories/MergeProofs.v
theories/ModeModel.v
theories/ModeProofs.v
theories/ModeProps.v
theories/ModeSpec.v
theories/MotorModel.v
theories/MotorProofs.v
theories/MotorProps.v
theories/MotorSpec.v
theories/NodeModel.v
theories/NodeProofs.v
theories/NodeProps.v
theories/NodeSpec.v
theories/PdoAgainProps.v
theories/PdoBootProofs.v
theories/PdoBootProps.v
theories/PdoBootSpec.v
theories/PdoConfProofs.v
theories/PdoCycleProps.v
theories/PdoCycleSpec.v
theories/PdoHeldProofs.v
theories/PdoLiveProofs.v
theories/PdoModel.v
theories/PdoNodeProofs.v
theories/PdoPlainProofs.v
theories/PdoProofs.v
theories/PdoProps.v
theories/PdoRxProofs.v
theories/PdoSetupProofs.v
theories/PdoSetupProps.v
theories/PdoSetupSpec.v
theories/PdoSpec.v
theories/PdoTxProofs.v
theories/PdoUsedProofs.v
theories/PosModel.v
theories/PosProofs.v
theories/PosProps.v
theories/PosSpec.v
theories/PubModel.v
theories/PubProps.v
theories/PubSpec.v
theories/RaceModel.v
theories/RaceProofs.v
theories/RaceProps.v
theories/RaceSpec.v
theories/ReaderModel.v
theories/ReaderProofs.v
theories/ReaderProps.v
theories/ReaderSpec.v
theories/RealProofs.v
theories/ReinitModel.v
theories/ReinitProps.v
theories/RelayModel.v
theories/RelayProofs.v
theories/RelayProps.v
theories/RelaySpec.v
theories/RemoteModel.v
theories/RemoteProofs.v
theories/RemoteProps.v
theories/RemoteSpec.v
theories/RobotModel.v
theories/RobotProofs.v
theories/RobotProps.v
theories/RobotSpec.v
theories/RobotSwitchProofs.v
theories/RouteProps.v
theories/SdoChanModel.v
theories/SdoChanProofs.v
theories/SdoChanProps.v
theories/SdoChanSpec.v
theories/SdoFinal.v
theories/SdoModel.v
theories/SdoProofs.v
theories/SdoProps.v
theories/SdoReadProofs.v
theories/SdoSpec.v
theories/SdoTalkProofs.v
theories/ServiceModel.v
theories/ServiceProofs.v
theories/ServiceProps.v
theories/ServiceSpec.v
theories/SettingsModel.v
theories/SettingsProofs.v
theories/SettingsProps.v
theories/SettingsSpec.v
theories/SetupModel.v
theories/SetupProofs.v
theories/SetupProps.v
theories/SetupSpec.v
theories/SocketCanModel.v
theories/SocketCanProofs.v
theories/SocketCanProps.v
theories/SocketCanSpec.v
theories/StopBusModel.v
theories/StopBusProps.v
theories/StopModel.v
theories/StopProofs.v
theories/StopProps.v
theories/StopSpec.v
theories/StorageModel.v
theories/StorageProofs.v
theories/StorageProps.v
theories/StorageSpec.v
theories/SyncModel.v
theories/SyncNodeProofs.v
theories/SyncProofs.v
theories/SyncProps.v
theories/SyncSpec.v
theories/TextModel.v
theories/TextProofs.v
theories/TextSpec.v
theories/ThreadedModel.v
theories/ThreadedProofs.v
theories/ThreadedProps.v
theories/ThreadedSpec.v
theories/TimerModel.v
theories/TimerProofs.v
theories/TimerProps.v
theories/TimerSpec.v
theories/ToolModel.v
theories/ToolProofs.v
theories/ToolProps.v
theories/ToolSpec.v
theories/UnitModel.v
theories/UnitProofs.v
theories/UnitProps.v
theories/UnitSpec.v
