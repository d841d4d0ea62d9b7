-Q theories Verif

theories/Base.v
theories/BTree.v
theories/Raw.v
theories/Read.v
theories/Write.v
theories/Dwarf.v
theories/Convert.v
theories/Tools.v
theories/Text.v
theories/Loud.v
theories/Dwarfdump.v
theories/V1Loud.v
theories/Spec.v
theories/ReadSpec.v
theories/WriteSpec.v
theories/SectionSpec.v
theories/BaseFacts.v
theories/BTreeFacts.v
theories/RawFacts.v
theories/LoadFacts.v
theories/RowFacts.v
theories/SearchFacts.v
theories/InfoFacts.v
theories/Witness.v
theories/ReadWitness.v
theories/P_Read.v
theories/WriteFacts.v
theories/MergeRowFacts.v
theories/ReachFacts.v
theories/MergeFdeFacts.v
theories/WriteWitness.v
theories/P_Write.v
theories/EmitFacts.v
theories/TripFacts.v
theories/RoundFacts.v
theories/TripWitness.v
theories/EmitWitness.v
theories/P_Emit.v
theories/SectionFacts.v
theories/LookupFacts.v
theories/SectionWitness.v
theories/P_Section.v
theories/ConvSpec.v
theories/ConvFacts.v
theories/ConvSection.v
theories/ConvProps.v
theories/ConvOptions.v
theories/ConvErrors.v
theories/ConvWitness.v
theories/P_Conv.v
theories/BuildSpec.v
theories/BuildFacts.v
theories/P_Build.v
theories/ToolsSpec.v
theories/ToolsFacts.v
theories/ToolsProps.v
theories/DumpFacts.v
theories/ToolsWitness.v
theories/P_Tools.v
theories/SetupFacts.v
theories/P_Setup.v
theories/FlagsFacts.v
theories/P_Flags.v
theories/TextSpec.v
theories/TextFacts.v
theories/TextWitness.v
theories/MessageSpec.v
theories/MessageFacts.v
theories/P_Text.v
theories/LoudSpec.v
theories/LoudFacts.v
theories/LoudDump.v
theories/OperandSpec.v
theories/OperandFacts.v
theories/LoudWitness.v
theories/P_Loud.v
theories/V1Spec.v
theories/V1Facts.v
theories/V1Text.v
theories/V1Witness.v
theories/P_V1.v
theories/DdSpec.v
theories/DdFacts.v
theories/DdWitness.v
theories/P_Dwarfdump.v
theories/WalkSpec.v
theories/WalkFacts.v
theories/WalkWitness.v
theories/P_Walk.v
theories/Debug.v
theories/DebugSpec.v
theories/DebugFacts.v
theories/DebugWitness.v
theories/P_Debug.v
theories/RepoTests.v
theories/IterSpec.v
theories/IterFacts.v
theories/P_Iter.v
theories/Io.v
theories/IoSpec.v
theories/IoFacts.v
theories/IoTools.v
theories/IoWitness.v
theories/P_Io.v
theories/LocalSpec.v
theories/LocalFacts.v
theories/LocalLookup.v
theories/LocalWitness.v
theories/P_Local.v
theories/RelateSpec.v
theories/RelateFacts.v
theories/ShiftFacts.v
theories/V1Relate.v
theories/RelateWitness.v
theories/P_Relate.v
theories/CfiSpec.v
theories/CfiFacts.v
theories/CfiTotal.v
theories/CfiWitness.v
theories/P_Cfi.v
theories/PipeSpec.v
theories/PipeFacts.v
theories/PipeWitness.v
theories/P_Pipe.v
theories/Script.v
theories/ScriptSpec.v
theories/ScriptFacts.v
theories/ScriptRuns.v
theories/ScriptProps.v
theories/ScriptTools.v
theories/ScriptWitness.v
theories/P_Script.v
theories/StdSpec.v
theories/StdFacts.v
theories/StdConv.v
theories/StdWitness.v
theories/P_Std.v
theories/MergeSpec.v
theories/MergeExact.v
theories/P_Merge.v
theories/LookupSpec.v
theories/LookupExact.v
theories/LookupConv.v
theories/LookupWitness.v
theories/P_Lookup.v
theories/ProfileSpec.v
theories/ProfileFacts.v
theories/ProfileLookup.v
theories/ProfileAll.v
theories/ProfileWitness.v
theories/P_Profile.v
theories/ShownSpec.v
theories/ShownFacts.v
theories/ShownWitness.v
theories/P_Shown.v
theories/CopySpec.v
theories/CopyFacts.v
theories/CopyWitness.v
theories/P_Copy.v
theories/OrderFacts.v
theories/OrderWitness.v
theories/P_Order.v
theories/IterLook.v
theories/Repaired.v
theories/RepairedFacts.v
theories/IterLookWitness.v
theories/RepairedWitness.v
theories/P_IterLook.v
theories/P_Repaired.v
theories/WalkLookSpec.v
theories/WalkLook.v
theories/WalkLookWitness.v
theories/P_WalkLook.v
theories/MergeRepaired.v
theories/MergeRepairedFacts.v
theories/MergeRepairedWitness.v
theories/P_MergeRepaired.v
theories/BuilderDebug.v
theories/BuilderDebugSpec.v
theories/BuilderDebugFacts.v
theories/BuilderDebugWitness.v
theories/P_BuilderDebug.v
theories/WriteRepaired.v
theories/WriteRepairedSpec.v
theories/WriteRepairedFacts.v
theories/WriteRepairedWitness.v
theories/P_WriteRepaired.v
theories/HeaderRows.v
theories/ReadRepaired.v
theories/ReadRepairedSpec.v
theories/ReadRepairedFacts.v
theories/ReadRepairedBuilt.v
theories/ReadRepairedWitness.v
theories/P_ReadRepaired.v
theories/ConvRepaired.v
theories/ConvRepairedSpec.v
theories/ConvRepairedFacts.v
theories/ConvRepairedSection.v
theories/ConvRepairedWalk.v
theories/ConvRepairedProps.v
theories/ConvRepairedWitness.v
theories/P_ConvRepaired.v
theories/ReadRepairedTotal.v
theories/IterRepaired.v
theories/IterRepairedFacts.v
theories/IterRepairedLook.v
theories/IterRepairedBuilt.v
theories/IterRepairedWitness.v
theories/P_IterRepaired.v
theories/RowRepaired.v
theories/RowRepairedFacts.v
theories/RowRepairedRound.v
theories/RowRepairedWitness.v
theories/P_RowRepaired.v
theories/V1Repaired.v
theories/V1RepairedSpec.v
theories/V1RepairedFacts.v
theories/V1RepairedProps.v
theories/V1RepairedWitness.v
theories/P_V1Repaired.v
theories/DdRepaired.v
theories/DdRepairedSpec.v
theories/DdRepairedFacts.v
theories/DdRepairedProps.v
theories/P_DdRepaired.v
theories/IoRepaired.v
theories/IoRepairedFacts.v
theories/P_IoRepaired.v
theories/MsgRepaired.v
theories/MsgRepairedSpec.v
theories/MsgRepairedFacts.v
theories/MsgRepairedConv.v
theories/MsgRepairedWitness.v
theories/P_MsgRepaired.v
theories/LoudRepaired.v
theories/LoudRepairedSpec.v
theories/LoudRepairedFacts.v
theories/LoudRepairedProps.v
theories/LoudRepairedWitness.v
theories/P_LoudRepaired.v
theories/ScriptRepaired.v
theories/ScriptRepairedSpec.v
theories/ScriptRepairedRuns.v
theories/ScriptRepairedProps.v
theories/ScriptRepairedWitness.v
theories/P_ScriptRepaired.v
theories/SeenRepaired.v
theories/SeenRepairedFacts.v
theories/SeenRepairedWitness.v
theories/P_SeenRepaired.v
theories/CopyRepaired.v
theories/CopyRepairedFacts.v
theories/P_CopyRepaired.v
theories/PlaceSpec.v
theories/CopyAgain.v
theories/PlaceFacts.v
theories/PlaceWitness.v
theories/P_Place.v
theories/JoinSpec.v
theories/JoinFacts.v
theories/JoinWitness.v
theories/P_Join.v
theories/LinkFacts.v
theories/LinkWitness.v
theories/P_Link.v
theories/SmallSpec.v
theories/SmallFacts.v
theories/Narrow.v
theories/NarrowFacts.v
theories/SmallWitness.v
theories/P_Small.v
theories/CountSpec.v
theories/Counted.v
theories/CountFacts.v
theories/CountWitness.v
theories/P_Count.v
theories/ProgramSpec.v
theories/ProgramFacts.v
theories/ProgramWitness.v
theories/P_Program.v
theories/Probe.v
theories/ProbeSpec.v
theories/ProbeFacts.v
theories/P_Probe.v
theories/RunSpec.v
theories/RunFacts.v
theories/RunWitness.v
theories/P_Run.v
theories/RunLook.v
theories/RunLookWitness.v
theories/P_RunLook.v
theories/ArmRunSpec.v
theories/ArmRunFacts.v
theories/ArmRunProps.v
theories/ArmRunWitness.v
theories/P_ArmRun.v
theories/CodeSpec.v
theories/CodeFacts.v
theories/CodeCheck.v
theories/CodeWitness.v
theories/P_Code.v
theories/WrittenSpec.v
theories/WrittenFacts.v
theories/WrittenLook.v
theories/WrittenWitness.v
theories/P_Written.v
theories/DownSpec.v
theories/DownFacts.v
theories/DownWitness.v
theories/P_Down.v
theories/ArmCodeSpec.v
theories/ArmCodeFacts.v
theories/ArmCodeProps.v
theories/ArmCodeCheck.v
theories/ArmCodeWitness.v
theories/P_ArmCode.v
theories/ArmWrittenSpec.v
theories/ArmWrittenFacts.v
theories/ArmWrittenWitness.v
theories/P_ArmWritten.v
theories/DumpedSpec.v
theories/DumpedFacts.v
theories/DumpedWitness.v
theories/P_Dumped.v
theories/WalkScriptSpec.v
theories/WalkScript.v
theories/WalkScriptWitness.v
theories/P_WalkScript.v
theories/DumpedRepaired.v
theories/DumpedRepairedWitness.v
theories/P_DumpedRepaired.v
theories/WrittenFirst.v
theories/WrittenFirstWitness.v
theories/P_WrittenFirst.v
theories/WholeScriptSpec.v
theories/WholeScript.v
theories/WholeScriptWitness.v
theories/P_WholeScript.v
