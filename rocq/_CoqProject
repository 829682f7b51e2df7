-Q theories Verif
theories/Model/Bytes.v
theories/Model/Cxx.v
theories/Model/Dbl.v
theories/Model/IStream.v
theories/Model/MshSpec.v
theories/Model/Elem.v
theories/Model/LoadFormat.v
theories/Model/LoadNodes.v
theories/Model/LoadElements.v
theories/Model/LoadEntities.v
theories/Model/LoadData.v
theories/Model/LoadExt.v
theories/Model/Post.v
theories/Model/LoadMsh.v
theories/Model/Warn.v
theories/Model/Validate.v
theories/Model/Save.v
theories/Model/Fs.v
theories/Spec/Ranges.v
theories/Spec/Gmsh.v
theories/Spec/Consistent.v
theories/Tests/Samples.v
theories/Proofs/BytesP.v
theories/Proofs/RtBase.v
theories/Proofs/DblP.v
theories/Proofs/DecP.v
theories/Proofs/ShowP.v
theories/Spec/Steps.v
theories/Spec/Warnings.v
theories/Spec/Blame.v
theories/Spec/Messages.v
theories/Proofs/Mono.v
theories/Proofs/Fuel.v
theories/Proofs/WriteP.v
theories/Proofs/RtStep.v
theories/Proofs/Rt41A.v
theories/Proofs/Rt41B.v
theories/Proofs/Reach.v
theories/Spec/Prefix.v
theories/Proofs/Compose.v
theories/Proofs/Rt41.v
theories/Spec/Rounding.v
theories/Proofs/RoundP.v
theories/Proofs/TextP.v
theories/Proofs/Hoare.v
theories/Proofs/ExtP.v
theories/Proofs/ElemP.v
theories/Proofs/TriP.v
theories/Spec/Words.v
theories/Proofs/HeaderP.v
theories/Proofs/SkipP.v
theories/Proofs/Suffix.v
theories/Proofs/WarnP.v
theories/Proofs/BlameP.v
theories/Proofs/MessageP.v
theories/Proofs/PyCallsP.v
theories/Spec/Mesh.v
theories/Spec/Records.v
theories/Spec/Files22.v
theories/Spec/Text22.v
theories/Spec/Consistent22.v
theories/Proofs/PostP.v
theories/Proofs/Load22P.v
theories/Proofs/File22P.v
theories/Proofs/EntP.v
theories/Proofs/Text22P.v
theories/Proofs/Rt22.v
theories/Proofs/Final22.v
theories/Proofs/ValidRt.v
theories/Proofs/ConvertP.v
theories/Proofs/AgreeP.v
theories/Proofs/StableP.v
theories/Proofs/RegroupP.v
theories/Proofs/Trace.v
theories/Tests/Examples22.v
theories/Tests/ExamplesRt22.v
theories/Props/Regroup.v
theories/Proofs/CountP.v
theories/Props/Count.v
theories/Tests/Examples.v
theories/Proofs/Final.v
theories/Props/RoundTrip41.v
theories/Props/RoundTrip22.v
theories/Props/Text.v
theories/Props/Header.v
theories/Props/Skip.v
theories/Props/Termination.v
theories/Props/ElementTables.v
theories/Spec/Loaded.v
theories/Proofs/LoadedP.v
theories/Spec/DataText.v
theories/Proofs/DataTextP.v
theories/Props/Loaded.v
theories/Spec/Valid.v
theories/Proofs/ValidateP.v
theories/Proofs/SaveP.v
theories/Props/Validate.v
theories/Spec/Layout.v
theories/Proofs/LayoutP.v
theories/Props/Save.v
theories/Tests/ExamplesConv.v
theories/Props/Convert.v
theories/Props/Stable.v
theories/Props/Broken.v
theories/Props/Cut.v
theories/Spec/NonFinite.v
theories/Spec/Cut.v
theories/Spec/Numerals.v
theories/Spec/Format.v
theories/Proofs/NumeralsP.v
theories/Proofs/HeaderAnyP.v
theories/Proofs/FormatP.v
theories/Proofs/GuardP.v
theories/Proofs/NonFiniteP.v
theories/Proofs/NonFiniteW.v
theories/Proofs/NonFinite22.v
theories/Proofs/CutP.v
theories/Proofs/CutFile.v
theories/Tests/ExamplesNan.v
theories/Props/Format.v
theories/Props/Numerals.v
theories/Spec/Text41.v
theories/Proofs/Text41P.v
theories/Tests/ExamplesText41.v
theories/Props/AnyLayout.v
theories/Spec/Any22.v
theories/Proofs/Any22P.v
theories/Tests/ExamplesAny22.v
theories/Props/AnyLayout22.v
theories/Model/Inspect.v
theories/Spec/Report.v
theories/Proofs/IntShowP.v
theories/Proofs/InspectP.v
theories/Tests/ExamplesInspect.v
theories/Props/Inspect.v
theories/Spec/Builds.v
theories/Proofs/BuildsP.v
theories/Props/Builds.v
theories/Spec/Hazards.v
theories/Proofs/HazardsP.v
theories/Props/Hazards.v
theories/Spec/Spacing.v
theories/Proofs/SpacingP.v
theories/Proofs/SavedTextP.v
theories/Props/Spacing.v
theories/Spec/Weight.v
theories/Proofs/WeightP.v
theories/Proofs/BigP.v
theories/Props/Weight.v
theories/Proofs/ExtendP.v
theories/Proofs/PrefixP.v
theories/Proofs/CutsP.v
theories/Props/Prefix.v
theories/Spec/Told.v
theories/Proofs/ToldNumP.v
theories/Proofs/SuffixP.v
theories/Proofs/ToldP.v
theories/Proofs/ToldSecP.v
theories/Proofs/ToldFileP.v
theories/Proofs/ToldOneP.v
theories/Props/Told.v
theories/Spec/Extract.v
theories/Proofs/ExtractP.v
theories/Props/Extract.v
theories/Spec/Told22.v
theories/Proofs/Told22NodesP.v
theories/Proofs/Told22ElemsP.v
theories/Proofs/Told22FileP.v
theories/Proofs/Told22OneP.v
theories/Props/Told22.v
theories/Proofs/KeepP.v
theories/Proofs/CutFailP.v
theories/Proofs/CutSavedP.v
theories/Props/CutOff.v
theories/Model/Python.v
theories/Model/PyCalls.v
theories/Spec/Python.v
theories/Proofs/Utf8P.v
theories/Proofs/PyFloatP.v
theories/Proofs/PythonP.v
theories/Proofs/PyShownP.v
theories/Props/Python.v
theories/Props/Warnings.v
theories/Props/Messages.v
theories/Props/PythonCalls.v
theories/Model/Streams.v
theories/Proofs/EndP.v
theories/Props/Streams.v
theories/Model/Precision.v
theories/Proofs/PrecP.v
theories/Proofs/PrecRt.v
theories/Props/Precision.v
theories/Model/TestIo.v
theories/Spec/Alike.v
theories/Proofs/TestIoP.v
theories/Proofs/TestRtP.v
theories/Props/TestIo.v
theories/Spec/Checked.v
theories/Proofs/CheckedP.v
theories/Proofs/Checked22P.v
theories/Props/Checked.v
theories/Spec/Distinct.v
theories/Proofs/DistinctP.v
theories/Props/Distinct.v
theories/Model/Readme.v
theories/Spec/Readme.v
theories/Proofs/ReadmeP.v
theories/Props/Readme.v
theories/Spec/Memory22.v
theories/Proofs/Memory22P.v
theories/Props/Memory22.v
theories/Spec/Splines.v
theories/Proofs/SplinesP.v
theories/Tests/ExamplesSplines.v
theories/Props/Splines.v
theories/Model/TestCases.v
theories/Spec/Built.v
theories/Proofs/BuiltP.v
theories/Proofs/TestCasesP.v
theories/Props/Built.v
theories/Spec/Joined.v
theories/Proofs/JoinedP.v
theories/Proofs/Joined22P.v
theories/Props/Joined.v
theories/Spec/Rewrite.v
theories/Proofs/RewriteP.v
theories/Props/Rewrite.v
theories/Spec/Same22.v
theories/Proofs/Same22P.v
theories/Props/Same22.v
theories/Spec/Enough.v
theories/Proofs/EnoughP.v
theories/Props/Enough.v
theories/Model/PySet.v
theories/Spec/PySet.v
theories/Proofs/PySetP.v
theories/Props/PySet.v
theories/Spec/Resave.v
theories/Proofs/ResaveP.v
theories/Props/Resave.v
theories/Proofs/Resave22P.v
theories/Props/Resave22.v
theories/Proofs/RoomP.v
theories/Props/Room.v
theories/Spec/Order.v
theories/Proofs/OrderP.v
theories/Props/Order.v
theories/Spec/Absent.v
theories/Proofs/AbsentP.v
theories/Props/Absent.v
theories/Props/Settle.v
