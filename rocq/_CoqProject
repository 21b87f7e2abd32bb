-Q theories Verif
theories/AlgBoard.v
theories/AlgMove.v
theories/AlgSch.v
theories/AlgSpec.v
theories/AnyCourt.v
theories/AnyOrderFacts.v
theories/AnyOrderSpec.v
theories/AutoFacts.v
theories/AutoSpec.v
theories/BareFacts.v
theories/BareSpec.v
theories/Base.v
theories/BinFacts.v
theories/BinSpec.v
theories/Bins.v
theories/BlameFacts.v
theories/BlameLib.v
theories/BlameSpec.v
theories/BlindFacts.v
theories/BlindSpec.v
theories/Bound.v
theories/BoundFacts.v
theories/BoundSpec.v
theories/BoxFacts.v
theories/BoxLog.v
theories/BoxLogFacts.v
theories/BoxLogSpec.v
theories/Bytes.v
theories/BytesFacts.v
theories/BytesSpec.v
theories/CharFacts.v
theories/CharLineSpec.v
theories/CharLines.v
theories/CharSpec.v
theories/CheckFacts.v
theories/CheckFix.v
theories/CheckSpec.v
theories/CheckWit.v
theories/CircleFacts.v
theories/ClassFacts.v
theories/ClassSpec.v
theories/ConnFacts.v
theories/ConnSpec.v
theories/CopyFacts.v
theories/CopySpec.v
theories/CourtFacts.v
theories/CrashFacts.v
theories/CrashSpec.v
theories/CutFacts.v
theories/CutSpec.v
theories/DecFacts.v
theories/DecSpec.v
theories/DeepFacts.v
theories/DeepSpec.v
theories/DiffFacts.v
theories/DiffHole.v
theories/DiffMain.v
theories/DiffMove.v
theories/DiffSpec.v
theories/DiffTree.v
theories/Disk.v
theories/DiskFacts.v
theories/DiskSpec.v
theories/DocFacts.v
theories/DocSpec.v
theories/DocText.v
theories/DocTextFacts.v
theories/EolFacts.v
theories/EolSpec.v
theories/EqFacts.v
theories/EqSpec.v
theories/ErrErase.v
theories/ErrFacts.v
theories/ErrLines.v
theories/ErrSch.v
theories/ErrSpec.v
theories/ErrSym.v
theories/ErrWhole.v
theories/Escape.v
theories/EscapeFacts.v
theories/EscapeSpec.v
theories/ExactFacts.v
theories/ExactLy.v
theories/Expand.v
theories/ExpandFacts.v
theories/ExpandSpec.v
theories/ExtentFacts.v
theories/ExtentSpec.v
theories/F64.v
theories/F64Facts.v
theories/F64Grid.v
theories/F64Order.v
theories/F64Text.v
theories/FieldOrderFacts.v
theories/FieldOrderSpec.v
theories/FileErr.v
theories/FileErrFacts.v
theories/FileErrSpec.v
theories/FixFacts.v
theories/FlipFacts.v
theories/FlipSpec.v
theories/Formatter.v
theories/FormatterFacts.v
theories/FormatterSpec.v
theories/FpCheck.v
theories/FpData.v
theories/FpDe.v
theories/FpEqFacts.v
theories/FpExamples.v
theories/FpFacts.v
theories/FpLayer.v
theories/FpLibTable.v
theories/FpNew.v
theories/FpOps.v
theories/FpOpsFacts.v
theories/FpOpsSpec.v
theories/FpOpsWit.v
theories/FpSer.v
theories/FpWf.v
theories/GramFacts.v
theories/GramRead.v
theories/GramSpec.v
theories/GramWit.v
theories/JoinFacts.v
theories/JoinSpec.v
theories/KeepEdits.v
theories/KeepFacts.v
theories/KeepSpec.v
theories/KeptSpec.v
theories/KfFacts.v
theories/KfSpec.v
theories/KfTotal.v
theories/KicadFile.v
theories/KindFacts.v
theories/KindSpec.v
theories/KindSx.v
theories/KindText.v
theories/KlcFacts.v
theories/LibFacts.v
theories/LibFns.v
theories/LibSpec.v
theories/LineFacts.v
theories/LineSpec.v
theories/LogFacts.v
theories/LogSpec.v
theories/LyBoundFacts.v
theories/LyData.v
theories/LyDe.v
theories/LyExamples.v
theories/LyFacts.v
theories/LyLog.v
theories/LyNetFacts.v
theories/LyOps.v
theories/LyOpsFacts.v
theories/LyReread.v
theories/LySer.v
theories/LySpec.v
theories/LyWf.v
theories/MeanBoard.v
theories/MeanFacts.v
theories/MeanSpec.v
theories/MeanWit.v
theories/MovedFacts.v
theories/MovedSpec.v
theories/NameFacts.v
theories/NameSpec.v
theories/NewSymFacts.v
theories/NoPanic.v
theories/Num.v
theories/NumFacts.v
theories/OutFacts.v
theories/OutRun.v
theories/OutSaved.v
theories/OutSpec.v
theories/P_Alg.v
theories/P_AnyOrder.v
theories/P_Auto.v
theories/P_Bare.v
theories/P_Bins.v
theories/P_Blame.v
theories/P_Blind.v
theories/P_Bound.v
theories/P_BoxLog.v
theories/P_Bytes.v
theories/P_Char.v
theories/P_Check.v
theories/P_Class.v
theories/P_Conn.v
theories/P_Copy.v
theories/P_Crash.v
theories/P_Dec.v
theories/P_Diff.v
theories/P_Eol.v
theories/P_Eq.v
theories/P_Err.v
theories/P_Escape.v
theories/P_Exact.v
theories/P_Expand.v
theories/P_Extent.v
theories/P_FieldOrder.v
theories/P_File.v
theories/P_Flip.v
theories/P_Footprint.v
theories/P_Formatter.v
theories/P_FpOps.v
theories/P_Gram.v
theories/P_Join.v
theories/P_Keep.v
theories/P_Kept.v
theories/P_Kind.v
theories/P_Layout.v
theories/P_Lib.v
theories/P_Line.v
theories/P_Log.v
theories/P_LyOps.v
theories/P_Mean.v
theories/P_Moved.v
theories/P_Name.v
theories/P_Num.v
theories/P_Out.v
theories/P_Paste.v
theories/P_Path.v
theories/P_Place.v
theories/P_Read.v
theories/P_Redraw.v
theories/P_Resave.v
theories/P_Rule.v
theories/P_Run.v
theories/P_Save.v
theories/P_Saved.v
theories/P_Says.v
theories/P_SchMix.v
theories/P_SchOps.v
theories/P_Schematic.v
theories/P_Settle.v
theories/P_Shift.v
theories/P_Spell.v
theories/P_Stay.v
theories/P_Survive.v
theories/P_SymOrder.v
theories/P_Symbol.v
theories/P_Tell.v
theories/P_Text.v
theories/P_Tight.v
theories/P_Torn.v
theories/P_Turn.v
theories/P_Twins.v
theories/P_Union.v
theories/P_Walk.v
theories/P_Wide.v
theories/P_Wrap.v
theories/PasteFacts.v
theories/PasteSpec.v
theories/PathFacts.v
theories/PathSpec.v
theories/Paths.v
theories/PlaceFacts.v
theories/PlaceSpec.v
theories/PlainFacts.v
theories/PlainSpec.v
theories/RedrawFacts.v
theories/RedrawSpec.v
theories/RefFacts.v
theories/RepoTests.v
theories/RepoTests2.v
theories/RepoTests3.v
theories/RepoTests4.v
theories/ReportFacts.v
theories/ResaveBin.v
theories/ResaveFacts.v
theories/ResaveLy.v
theories/ResaveLySpec.v
theories/ResaveSpec.v
theories/RuleFacts.v
theories/RuleFix.v
theories/RuleSpec.v
theories/RunFacts.v
theories/RunSpec.v
theories/Said.v
theories/SaveFacts.v
theories/SaveSpec.v
theories/SavedDocs.v
theories/SavedFacts.v
theories/SavedSpec.v
theories/SchBoundFacts.v
theories/SchData.v
theories/SchEnds.v
theories/SchErr.v
theories/SchExact.v
theories/SchFacts.v
theories/SchLine.v
theories/SchMixFacts.v
theories/SchMixSpec.v
theories/SchOps.v
theories/SchOpsFacts.v
theories/SchOut.v
theories/SchParse.v
theories/SchPrint.v
theories/SchReadFacts.v
theories/SchReadSpec.v
theories/SchReread.v
theories/SchSpec.v
theories/SchTight.v
theories/SchTotal.v
theories/SchWf.v
theories/SchWrap.v
theories/SettleFacts.v
theories/SettleSch.v
theories/SettleSym.v
theories/SettleText.v
theories/Sexp.v
theories/SexpFacts.v
theories/ShiftFacts.v
theories/ShiftRun.v
theories/ShiftSpec.v
theories/ShortFacts.v
theories/ShortKeep.v
theories/ShortSpec.v
theories/SpellFacts.v
theories/SpellKind.v
theories/SpellSpec.v
theories/StayFacts.v
theories/StayFp.v
theories/StayLy.v
theories/StaySpec.v
theories/StayText.v
theories/Str.v
theories/StrFacts.v
theories/SxSpec.v
theories/SxText.v
theories/SxTotal.v
theories/SymCheck.v
theories/SymCrashFacts.v
theories/SymData.v
theories/SymErr.v
theories/SymExact.v
theories/SymFacts.v
theories/SymOps.v
theories/SymOrderFacts.v
theories/SymOrderSpec.v
theories/SymParse.v
theories/SymPrint.v
theories/SymReadFacts.v
theories/SymReadSpec.v
theories/SymReread.v
theories/SymSpec.v
theories/SymTotal.v
theories/SymWf.v
theories/TextDocs.v
theories/TextFacts.v
theories/TextMain.v
theories/TextSpec.v
theories/TightFacts.v
theories/TightSpec.v
theories/TornFacts.v
theories/TornLines.v
theories/TornSch.v
theories/TornSpec.v
theories/TreeErr.v
theories/TreeErrAgree.v
theories/TreeErrBoard.v
theories/TreeErrFacts.v
theories/TreeErrSpec.v
theories/TreeErrTells.v
theories/TreeErrWhole.v
theories/TurnFacts.v
theories/TurnSpec.v
theories/TwinFacts.v
theories/UnionFacts.v
theories/UnionSpec.v
theories/WalkErr.v
theories/WalkErrFacts.v
theories/WalkErrSpec.v
theories/WalkFacts.v
theories/WalkFind.v
theories/WalkSpec.v
theories/WideBoard.v
theories/WideCrash.v
theories/WideMean.v
theories/WideSound.v
theories/WideSpec.v
theories/WrapFacts.v
theories/WrapSpec.v
theories/WriteFacts.v
