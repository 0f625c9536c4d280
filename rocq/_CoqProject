-Q theories Verif

theories/Base.v
theories/Num.v
theories/PyStr.v
theories/VelocityModel.v
theories/SlownessLayer.v
theories/SlownessModel.v
theories/TauModel.v
theories/Legs.v
theories/SeismicPhase.v
theories/Pierce.v
theories/TauPTime.v
theories/NameSpec.v
theories/NameProofs.v
theories/NamePhaseProofs.v
theories/Toy.v
theories/NameProps.v
theories/VelSpec.v
theories/VelProofs.v
theories/VelProps.v
theories/TimeSpec.v
theories/CalcTimeProofs.v
theories/TimeProofs.v
theories/TimeProps.v
theories/SlowSpec.v
theories/SlowProofs.v
theories/SlowAddProofs.v
theories/SlowBuildProofs.v
theories/SlowProps.v
theories/CritSpec.v
theories/CritProofs.v
theories/SlowRealProofs.v
theories/CritProps.v
theories/SplitSpec.v
theories/SplitProofs.v
theories/SplitMoreProofs.v
theories/SplitProps.v
theories/TauSpec.v
theories/TauProofs.v
theories/TauSplitProofs.v
theories/TauBuildProofs.v
theories/TauProps.v
theories/QuerySpec.v
theories/QueryProofs.v
theories/QueryProps.v
theories/GeoSpec.v
theories/GeoProofs.v
theories/GeoProps.v
theories/Api.v
theories/ApiSpec.v
theories/ApiProps.v
theories/BullenSpec.v
theories/BullenProofs.v
theories/BullenProps.v
theories/ShellProps.v
theories/SampleProofs.v
theories/SampleProps.v
theories/RealRun.v
theories/CurveSpec.v
theories/CurveProofs.v
theories/CurveMainProofs.v
theories/CurveProps.v
theories/StackSpec.v
theories/StackProofs.v
theories/SlowRun.v
theories/StackProps.v
theories/FindSpec.v
theories/FindProofs.v
theories/FindProps.v
theories/PierceSpec.v
theories/PierceProofs.v
theories/PierceProps.v
theories/RouteSpec.v
theories/RouteProofs.v
theories/RouteProps.v
theories/AngleSpec.v
theories/AngleProofs.v
theories/AngleRouteProofs.v
theories/AngleProps.v
theories/PathSpec.v
theories/PathProofs.v
theories/PathWholeProofs.v
theories/PathLegProofs.v
theories/PathEndProofs.v
theories/PathProps.v
theories/MonoSpec.v
theories/MonoProofs.v
theories/BuildRun.v
theories/MonoProps.v
theories/ZoneProofs.v
theories/ZoneProps.v
theories/LimitSpec.v
theories/LimitProofs.v
theories/LimitProps.v
theories/SourceSpec.v
theories/SourceProofs.v
theories/TwoRun.v
theories/SourceProps.v
theories/Create.v
theories/CreateSpec.v
theories/CreateProps.v
theories/RangeSpec.v
theories/RangeProofs.v
theories/RangeProps.v
theories/ErrSpec.v
theories/ErrProofs.v
theories/ErrLegProofs.v
theories/ErrExistProofs.v
theories/ErrProps.v
theories/InsideSpec.v
theories/InsideProofs.v
theories/InsideRayProofs.v
theories/InsideWalkProofs.v
theories/InsideSplitProofs.v
theories/InsideGoodProofs.v
theories/InsideRun.v
theories/InsideProps.v
theories/DeepProps.v
theories/Printing.v
theories/PrintSpec.v
theories/PrintProofs.v
theories/PrintProps.v
theories/Views.v
theories/ViewSpec.v
theories/ViewProofs.v
theories/ViewProps.v
theories/AddSpec.v
theories/AddProofs.v
theories/AddProps.v
theories/CommandLine.v
theories/CommandSpec.v
theories/CommandProps.v
theories/AcceptSpec.v
theories/AcceptProofs.v
theories/AcceptProps.v
theories/CompatSpec.v
theories/CompatProofs.v
theories/CompatProps.v
theories/ReadySpec.v
theories/ReadyProofs.v
theories/ReadyProps.v
theories/FallSpec.v
theories/FallProofs.v
theories/FallProps.v
theories/EndSpec.v
theories/EndProofs.v
theories/FinProofs.v
theories/EndQueryProofs.v
theories/EndProps.v
theories/InsertSpec.v
theories/InsertProofs.v
theories/InsertProps.v
theories/JumpSpec.v
theories/JumpProofs.v
theories/JumpProps.v
theories/CheckSpec.v
theories/CheckProofs.v
theories/CheckProps.v
theories/FixSpec.v
theories/FixProofs.v
theories/FixProps.v
theories/ChordSpec.v
theories/ChordProofs.v
theories/ChordProps.v
theories/EchoSpec.v
theories/EchoProofs.v
theories/EchoProps.v
theories/FastSpec.v
theories/FastProofs.v
theories/FastProps.v
theories/OnceSpec.v
theories/OnceProofs.v
theories/OnceProps.v
theories/PuristSpec.v
theories/PuristProps.v
theories/ReachSpec.v
theories/ReachProps.v
theories/GrazeSpec.v
theories/GrazeProps.v
theories/JoinSpec.v
theories/JoinProps.v
theories/MultiSpec.v
theories/MultiProps.v
theories/SurfaceSpec.v
theories/SurfaceProps.v
theories/AppendSpec.v
theories/AppendProps.v
theories/DepthSpec.v
theories/DepthProps.v
