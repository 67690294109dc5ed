-Q theories Verif
theories/AdcsActProofs.v
theories/AdcsConvProofs.v
theories/AdcsEndProofs.v
theories/AdcsExecProofs.v
theories/AdcsFilterProofs.v
theories/AdcsFilterSpec.v
theories/AdcsModel.v
theories/AdcsMonProofs.v
theories/AdcsRecvProofs.v
theories/AdcsRefuteProofs.v
theories/AdcsRunProofs.v
theories/AdcsServeProofs.v
theories/AdcsSpec.v
theories/AdcsTableProofs.v
theories/Base.v
theories/BitArrayModel.v
theories/BitArrayProofs.v
theories/BitstreamModel.v
theories/BitstreamProofs.v
theories/BitstreamSpec.v
theories/BootModel.v
theories/BootProofs.v
theories/BootSpec.v
theories/ChainModel.v
theories/ChainProofs.v
theories/ChainSpec.v
theories/ChainWitness.v
theories/CommandModel.v
theories/CommandProofs.v
theories/CommandSpec.v
theories/ConsoleModel.v
theories/ConsoleProofs.v
theories/ConsoleSpec.v
theories/ConsoleWitness.v
theories/DeployedModel.v
theories/DeployedProofs.v
theories/DevChip.v
theories/DevDying.v
theories/DevModel.v
theories/DevProofs.v
theories/DevSpec.v
theories/DownlinkGroundProofs.v
theories/DownlinkModel.v
theories/DownlinkProofs.v
theories/DownlinkSpec.v
theories/DownlinkTableProofs.v
theories/EEPROMModel.v
theories/EEPROMProofs.v
theories/EpsModel.v
theories/EpsNanoSpec.v
theories/EpsOrders.v
theories/EpsProofs.v
theories/EpsRefine.v
theories/EpsSpec.v
theories/EpsWitness.v
theories/EventModel.v
theories/EventProofs.v
theories/FaultEscalationProofs.v
theories/FaultHandlerModel.v
theories/FaultHandlerMoreProofs.v
theories/FaultHandlerProofs.v
theories/FaultHandlerSpec.v
theories/FaultModel.v
theories/FaultProofs.v
theories/FaultSpec.v
theories/FloatSerModel.v
theories/FloatSerMoreProofs.v
theories/FloatSerProofs.v
theories/FloatSerSpec.v
theories/FlownFlightProofs.v
theories/FlownGroundProofs.v
theories/FlownModel.v
theories/FlownMoreProofs.v
theories/FlownProofs.v
theories/FlownReportProofs.v
theories/FlownSpec.v
theories/GPSTimeModel.v
theories/GPSTimeProofs.v
theories/GPSTimeSpec.v
theories/IntSerModel.v
theories/IntSerProofs.v
theories/IntSerSpec.v
theories/KillProofs.v
theories/ManualProofs.v
theories/MissionDockProofs.v
theories/MissionModel.v
theories/MissionProofs.v
theories/MissionSpec.v
theories/MissionWitness.v
theories/MoreProofs.v
theories/NavCtlProofs.v
theories/NavForgetProofs.v
theories/NavModel.v
theories/NavProofs.v
theories/NavRelProofs.v
theories/NavSpec.v
theories/NavWitness.v
theories/OrbitJointModel.v
theories/OrbitModel.v
theories/OrbitProofs.v
theories/OrbitSpec.v
theories/OrbitTaskProofs.v
theories/OrderReport.v
theories/OrderReportProofs.v
theories/PowerModel.v
theories/PowerProofs.v
theories/PowerRunProofs.v
theories/PowerSpec.v
theories/PrintFloatProofs.v
theories/PrintModel.v
theories/PrintProofs.v
theories/PrintSpec.v
theories/PropCtrlProofs.v
theories/PropModel.v
theories/PropProofs.v
theories/PropRunProofs.v
theories/PropSpec.v
theories/PropValveProofs.v
theories/PropertiesAdcs.v
theories/PropertiesBitstream.v
theories/PropertiesBoot.v
theories/PropertiesChain.v
theories/PropertiesConsole.v
theories/PropertiesCore.v
theories/PropertiesDev.v
theories/PropertiesDownlink.v
theories/PropertiesEEPROM.v
theories/PropertiesEps.v
theories/PropertiesEpsOrders.v
theories/PropertiesFilter.v
theories/PropertiesFloat.v
theories/PropertiesFlown.v
theories/PropertiesGPSTime.v
theories/PropertiesGps.v
theories/PropertiesIntSer.v
theories/PropertiesManual.v
theories/PropertiesMission.v
theories/PropertiesMore.v
theories/PropertiesNav.v
theories/PropertiesOrbit.v
theories/PropertiesOrders.v
theories/PropertiesPower.v
theories/PropertiesPrint.v
theories/PropertiesProp.v
theories/PropertiesQuake.v
theories/PropertiesRadioAnswers.v
theories/PropertiesSaved.v
theories/PropertiesTiming.v
theories/PropertiesUplink.v
theories/PropertiesVec.v
theories/PropertiesVent.v
theories/QuakeModel.v
theories/QuakeProofs.v
theories/QuakeSpec.v
theories/QuatSerProofs.v
theories/RadioAnswers.v
theories/RadioBootModel.v
theories/RadioBootProofs.v
theories/RegistryModel.v
theories/RegistryProofs.v
theories/SavedModel.v
theories/SavedProofs.v
theories/SbpCrcProofs.v
theories/SbpModel.v
theories/SbpMoreProofs.v
theories/SbpParseProofs.v
theories/SbpPortProofs.v
theories/SbpProofs.v
theories/SbpSpec.v
theories/SbpStreamProofs.v
theories/SbpTaskProofs.v
theories/SbpWitness.v
theories/TimingModel.v
theories/TimingProofs.v
theories/TimingSpec.v
theories/UplinkModel.v
theories/UplinkProofs.v
theories/UplinkSpec.v
theories/VecSerMainProofs.v
theories/VecSerModel.v
theories/VecSerMoreProofs.v
theories/VecSerProofs.v
theories/VecSerSpec.v
theories/VentProofs.v
theories/VentSpec.v
theories/WaitModel.v
theories/WaitProofs.v
