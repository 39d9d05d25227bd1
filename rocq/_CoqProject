-Q theories Verif

theories/PyBase.v
theories/PyFacts.v
theories/StripModel.v
theories/StripSpec.v
theories/StripSpan.v
theories/StripChord.v
theories/StripRun.v
theories/StripControl.v
theories/Props_Strips.v
theories/AircraftModel.v
theories/LatticeModel.v
theories/LatticeSpec.v
theories/EnumProofs.v
theories/LatticeProofs.v
theories/LatticeArrays.v
theories/Props_Lattice.v
theories/Vec.v
theories/PanelModel.v
theories/GeomModel.v
theories/GeomSpec.v
theories/NormalModel.v
theories/GeomProofs.v
theories/MirrorProofs.v
theories/InterpProofs.v
theories/RotProofs.v
theories/NormalSpec.v
theories/NormalProofs.v
theories/Props_Geometry.v
theories/Props_Normals.v
theories/VlmModel.v
theories/VlmSpec.v
theories/VlmProofs.v
theories/VlmLaws.v
theories/VlmSymmetry.v
theories/BiotSavart.v
theories/VlmAircraft.v
theories/VlmExample.v
theories/Props_Vlm.v
theories/WingModel.v
theories/WingSpec.v
theories/WingProofs.v
theories/Props_Wing.v
theories/PrePanelModel.v
theories/PrePanelSpec.v
theories/PrePanelProofs.v
theories/LineProofs.v
theories/ChainProofs.v
theories/Props_PrePanel.v
theories/StateModel.v
theories/StateSpec.v
theories/StateProofs.v
theories/Props_State.v
theories/PyVal.v
theories/SettingsModel.v
theories/SettingsSpec.v
theories/SettingsProofs.v
theories/Props_Settings.v
theories/SchemaModel.v
theories/ControlModel.v
theories/ControlSpec.v
theories/ControlProofs.v
theories/Props_Control.v
theories/AircraftIOModel.v
theories/AircraftIOSpec.v
theories/StrFacts.v
theories/AircraftIOProofs.v
theories/Props_AircraftIO.v
theories/RunModel.v
theories/RunSpec.v
theories/RunProofs.v
theories/Props_Run.v
theories/DeformModel.v
theories/DeformSpec.v
theories/DeformProofs.v
theories/DeformGeomModel.v
theories/DeformGeomSpec.v
theories/DeformGeomProofs.v
theories/Props_Deform.v
theories/CliModel.v
theories/CliSpec.v
theories/CliProofs.v
theories/Props_Cli.v
theories/SetupModel.v
theories/SetupSpec.v
theories/SetupProofs.v
theories/Props_Setup.v
theories/CpacsModel.v
theories/CpacsSpec.v
theories/CpacsProofs.v
theories/Props_Cpacs.v
theories/SegmentModel.v
theories/SegmentSpec.v
theories/SegmentProofs.v
theories/Props_Segment.v
theories/PlotModel.v
theories/PlotSpec.v
theories/PlotProofs.v
theories/Props_Plot.v
theories/CpacsAircraftModel.v
theories/CpacsAircraftSpec.v
theories/CpacsAircraftProofs.v
theories/Props_CpacsAircraft.v
theories/AnalysisModel.v
theories/AnalysisSpec.v
theories/AnalysisProofs.v
theories/AnalysisTables.v
theories/AnalysisFinish.v
theories/AnalysisSingular.v
theories/Props_Analysis.v
theories/StartModel.v
theories/StartSpec.v
theories/StartPaths.v
theories/StartProofs.v
theories/StartInputs.v
theories/StartMore.v
theories/StartExample.v
theories/Props_Start.v
theories/IsoSpec.v
theories/IsoProofs.v
theories/IsoAircraft.v
theories/IsoPitch.v
theories/IsoExample.v
theories/Props_Iso.v
theories/IntModel.v
theories/IntSpec.v
theories/IntProofs.v
theories/IntRunModel.v
theories/IntRunProofs.v
theories/Props_Int.v
theories/RefModel.v
theories/RefSpec.v
theories/RefProofs.v
theories/RefExample.v
theories/Props_Ref.v
theories/RoundModel.v
theories/RoundSpec.v
theories/RoundSpan.v
theories/RoundProofs.v
theories/Props_Round.v
theories/WakeSpec.v
theories/WakeProofs.v
theories/WakeScale.v
theories/Props_Wake.v
theories/TableModel.v
theories/TableSpec.v
theories/TableProofs.v
theories/Props_Table.v
theories/RowSpec.v
theories/RowMatrix.v
theories/RowProofs.v
theories/RowLattice.v
theories/Props_Row.v
theories/BuildSpec.v
theories/BuildProofs.v
theories/Props_Build.v
theories/LoadSpec.v
theories/LoadProofs.v
theories/Props_Load.v
theories/UnreadSpec.v
theories/UnreadProofs.v
theories/Props_Unread.v
theories/FloatModel.v
theories/FloatSpec.v
theories/FloatProofs.v
theories/Props_Float.v
theories/FloatLatModel.v
theories/FloatLatSpec.v
theories/FloatLatProofs.v
theories/Props_FloatLat.v
theories/FloatSolveModel.v
theories/FloatSolveSpec.v
theories/FloatSolveProofs.v
theories/Props_FloatSolve.v
theories/FloatFlowSpec.v
theories/FloatFlowProofs.v
theories/Props_FloatFlow.v
theories/JoinModel.v
theories/JoinSpec.v
theories/JoinProofs.v
theories/Props_Join.v
theories/DragSpec.v
theories/DragProofs.v
theories/Props_Drag.v
theories/RowEps.v
theories/EpsSpec.v
theories/EpsProofs.v
theories/Props_Eps.v
theories/PlaceSpec.v
theories/PlaceProofs.v
theories/PlaceLoad.v
theories/Props_Place.v
theories/DrawModel.v
theories/DrawSpec.v
theories/StripLine.v
theories/DrawProofs.v
theories/Props_Draw.v
theories/StartMissing.v
theories/Props_Missing.v
theories/JsonModel.v
theories/JsonSpec.v
theories/JsonProofs.v
theories/Props_Json.v
theories/NeedSpec.v
theories/NeedProofs.v
theories/Props_Need.v
theories/ArrowModel.v
theories/ArrowProofs.v
theories/Props_Arrow.v
theories/OrderSpec.v
theories/OrderProofs.v
theories/Props_Order.v
theories/SidesSpec.v
theories/SidesProofs.v
theories/Props_Sides.v
theories/PartsSpec.v
theories/PartsProofs.v
theories/Props_Parts.v
theories/FlipSpec.v
theories/FlipProofs.v
theories/Props_Flip.v
theories/TurnSpec.v
theories/TurnProofs.v
theories/Props_Turn.v
theories/SetSpec.v
theories/SetProofs.v
theories/Props_Set.v
theories/LocalSpec.v
theories/LocalProofs.v
theories/Props_Local.v
