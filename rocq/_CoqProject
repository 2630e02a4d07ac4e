-Q theories Verif

theories/Base.v
theories/Vecs.v
theories/Iters.v
theories/Stride.v
theories/Zip.v
theories/StrideZip.v
theories/Spec.v
theories/ListFacts.v
theories/VecFacts.v
theories/IterFacts.v
theories/CollectFacts.v
theories/StrideFacts.v
theories/ZipFacts.v
theories/ForEachFacts.v
theories/MapFacts.v
theories/History.v
theories/SafetyFacts.v
theories/ReduceFacts.v
theories/IterProofs.v
theories/Props_Iter.v
theories/CollectSpec.v
theories/CollectProofs.v
theories/Props_Collect.v
theories/StrideProofs.v
theories/Props_Stride.v
theories/ZipSpec.v
theories/ZipProofs.v
theories/Props_Zip.v
theories/AdapterProofs.v
theories/Props_Adapter.v
theories/Lanes.v
theories/VecSpec.v
theories/Floats.v
theories/FloatSpec.v
theories/X86.v
theories/OpTables.v
theories/OpSpec.v
theories/FloatFacts.v
theories/Ops.v
theories/Tables.v
theories/Patterns.v
theories/Merge.v
theories/Shuffles.v
theories/VecProofs.v
theories/Props_Vec.v
theories/PatternProofs.v
theories/Props_Pattern.v
theories/ShuffleProofs.v
theories/Props_Shuffle.v
theories/OpProofs.v
theories/Props_Op.v
theories/RoundProofs.v
theories/Props_Round.v
theories/X86Reg.v
theories/PortTables.v
theories/Hops.v
theories/HopProofs.v
theories/Props_Hop.v
theories/PortSpec.v
theories/Ports.v
theories/PortProofs.v
theories/Props_Port.v
theories/SumTables.v
theories/SumSpec.v
theories/Sums.v
theories/SumProofs.v
theories/Props_Sum.v
theories/GateTables.v
theories/GateSpec.v
theories/Gates.v
theories/GateProofs.v
theories/Props_Gate.v
theories/UnknownTables.v
theories/UnknownSpec.v
theories/Unknown.v
theories/UnknownProofs.v
theories/Props_Unknown.v
theories/TransTables.v
theories/AvailSpec.v
theories/Avail.v
theories/AvailProofs.v
theories/Props_Avail.v
theories/Arith.v
theories/ArithSpec.v
theories/ArithFacts.v
theories/Estimates.v
theories/ArithProofs.v
theories/Props_Arith.v
theories/BuiltSpec.v
theories/BuiltProofs.v
theories/Props_Built.v
theories/RestProofs.v
theories/Props_Rest.v
theories/StrideHistory.v
theories/StrideHistProofs.v
theories/Props_StrideHist.v
theories/PipeSpec.v
theories/PipeProofs.v
theories/Props_Pipe.v
theories/MismatchProofs.v
theories/Props_Mismatch.v
theories/DocProofs.v
theories/Props_Doc.v
theories/SzCollectProofs.v
theories/Props_SzCollect.v
theories/Crash.v
theories/CrashSpec.v
theories/CrashProofs.v
theories/Props_Crash.v
theories/Builds.v
theories/BuildProofs.v
theories/Props_Build.v
theories/LawSpec.v
theories/LawProofs.v
theories/Props_Law.v
theories/Loops.v
theories/LoopProofs.v
theories/Props_Loop.v
theories/KernProofs.v
theories/Props_Kern.v
theories/ExprSpec.v
theories/Exprs.v
theories/ExprProofs.v
theories/Props_Expr.v
theories/AlgebraProofs.v
theories/Props_Algebra.v
theories/FloatSumSpec.v
theories/FSumProofs.v
theories/Props_FSum.v
theories/Trace.v
theories/TraceSpec.v
theories/TraceProofs.v
theories/Props_Trace.v
theories/FoldProofs.v
theories/Props_Fold.v
theories/DotSpec.v
theories/DotProofs.v
theories/Props_Dot.v
theories/PeakProofs.v
theories/Props_Peak.v
theories/Demos.v
theories/DemoProofs.v
theories/Props_Demo.v
theories/WidenSpec.v
theories/Widens.v
theories/WidenProofs.v
theories/Props_Widen.v
theories/MixProofs.v
theories/Props_Mix.v
theories/PlaceProofs.v
theories/Props_Place.v
theories/OverflowSpec.v
theories/Portables.v
theories/PortableProofs.v
theories/Props_Portable.v
theories/AbortProofs.v
theories/Props_Abort.v
theories/WidePorts.v
theories/WidePortProofs.v
theories/Props_WidePort.v
theories/PortFoldProofs.v
theories/Props_PortFold.v
theories/PortSumProofs.v
theories/Props_PortSum.v
theories/DoubleSpec.v
theories/Doubles.v
theories/DoubleProofs.v
theories/Props_Double.v
theories/DoubleSumProofs.v
theories/Props_DoubleSum.v
theories/StageSpec.v
theories/Stages.v
theories/StageProofs.v
theories/Props_Stage.v
theories/StageAbortProofs.v
theories/Props_StageAbort.v
theories/WideFillProofs.v
theories/Props_WideFill.v
theories/Accums.v
theories/AccumProofs.v
theories/Props_Accum.v
theories/TotalProofs.v
theories/Props_Total.v
theories/ZipAccums.v
theories/ZipAccumProofs.v
theories/Props_ZipAccum.v
theories/ZipTotalProofs.v
theories/Props_ZipTotal.v
theories/Suite.v
theories/ExactProofs.v
theories/Props_Exact.v
