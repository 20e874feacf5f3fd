-Q theories Verif
theories/Base.v
theories/Model_Float.v
theories/Model_Bincode.v
theories/BincodeFacts.v
theories/Spec.v
theories/FloatFacts.v
theories/Model_Utils.v
theories/Model_Stats.v
theories/Model_Compressors.v
theories/Model_Polynomial.v
theories/Model_Fft.v
theories/Model_Stream.v
theories/StatsFacts.v
theories/StreamFacts.v
theories/CompressorFacts.v
theories/UtilsFacts.v
theories/PlanFacts.v
theories/ArithFacts.v
theories/RoundFacts.v
theories/PolyFacts.v
theories/SplineFacts.v
theories/PolyLoopFacts.v
theories/MetricFacts.v
theories/PolyApiFacts.v
theories/FftFacts.v
theories/Float32Facts.v
theories/Props_Stream.v
theories/Props_Lossless.v
theories/Props_Plan.v
theories/Props_Metric.v
theories/Props_Poly.v
theories/Props_Fft.v
theories/PipelineFacts.v
theories/Props_Pipeline.v
theories/ExactFacts.v
theories/Props_Auto.v
theories/Props_ErrorZero.v
theories/Spec_Metric.v
theories/AccuracyFacts.v
theories/Props_Accuracy.v
theories/Spec_Wire.v
theories/WireFacts.v
theories/Props_Wire.v
theories/Props_Mean.v
theories/Props_Ratio.v
theories/Model_Rounding.v
theories/Props_Utils.v
theories/Props_CliFft.v
theories/FftValueFacts.v
theories/Props_FftValues.v
theories/Model_FreqOrder.v
theories/Props_FreqOrder.v
theories/Props_CliIdw.v
theories/Model_Vsri.v
theories/Spec_Vsri.v
theories/VsriFacts.v
theories/VsriLookup.v
theories/Props_Vsri.v
theories/Props_VsriOverflow.v
theories/TextFacts.v
theories/Props_VsriFile.v
theories/Model_Wavbrro.v
theories/Props_Wavbrro.v
theories/Model_Utf8.v
theories/Spec_Utf8.v
theories/Utf8Facts.v
theories/Model_Csv.v
theories/Spec_Csv.v
theories/CsvFacts.v
theories/CsvTextFacts.v
theories/Props_Csv.v
theories/Model_Cli.v
theories/Model_Disk.v
theories/Props_Tools.v
theories/Props_Cli.v
theories/Props_Wav.v
theories/Props_Csvc.v
theories/Props_Crash.v
theories/Props_Cycles.v
theories/Props_Library.v
theories/Props_Damage.v
theories/Props_Monotone.v
theories/Props_Local.v
theories/Spec_Fourier.v
theories/FourierFacts.v
theories/Props_Fourier.v
theories/Spec_CsvTable.v
theories/Props_CsvTable.v
theories/Props_Frames.v
theories/Spec_Build.v
theories/Props_Builds.v
theories/Spec_IndexText.v
theories/Props_IndexText.v
theories/Props_Calendar.v
theories/Model_DiskDir.v
theories/Props_Directory.v
theories/Spec_Segments.v
theories/Props_Segments.v
theories/Props_CsvcDay.v
theories/Spec_Seconds.v
theories/Props_Seconds.v
theories/Spec_Spline.v
theories/SplineValueFacts.v
theories/Props_Spline.v
theories/Spec_Lines.v
theories/Props_Lines.v
theories/Spec_Runs.v
theories/Props_Runs.v
theories/Props_Interop.v
theories/Model_Args.v
theories/Spec_Args.v
theories/Props_Args.v
theories/Model_Command.v
theories/Props_Command.v
theories/Model_Number.v
theories/Spec_Number.v
theories/NumberFacts.v
theories/PrintFacts.v
theories/Props_Number.v
theories/Props_Path.v
theories/Props_Text.v
theories/Model_Verbose.v
theories/Spec_Verbose.v
theories/VerboseFacts.v
theories/Props_Verbose.v
theories/Model_Refusal.v
theories/Props_Refusal.v
theories/Model_Parallel.v
theories/Props_Parallel.v
theories/Model_WavTool.v
theories/Props_WavTool.v
theories/Model_History.v
theories/Props_History.v
theories/Model_IndexAny.v
theories/Spec_IndexAny.v
theories/Props_IndexAny.v
theories/Model_ParallelDir.v
theories/Props_ParallelDir.v
theories/Props_Infinite.v
theories/Props_SameCall.v
theories/Tests.v
