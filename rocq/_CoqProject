-Q theories Verif

theories/Bytes.v
theories/Syntax.v
theories/Parser.v
theories/PostProcess.v
theories/PostFast.v
theories/Src1.v
theories/Src2.v
theories/Src3.v
theories/Src4.v
theories/Src5.v
theories/Src6.v
theories/Src7.v
theories/Src.v
theories/Ast1.v
theories/Ast2.v
theories/Ast3.v
theories/Ast4.v
theories/Ast5.v
theories/Ast6.v
theories/Ast7.v
theories/Ast.v
theories/Semantics.v
theories/RPow.v
theories/Norm.v
theories/NormSound.v
theories/NormCheck.v
theories/NormThm.v
theories/Vec.v
theories/Free.v
theories/Deriv.v
theories/Impl.v
theories/ImplThm.v
theories/ImplThm2.v
theories/ImplThm3.v
theories/Problems.v
theories/Families.v
theories/FamClosed1.v
theories/FamClosed2.v
theories/FamClosed3.v
theories/FamClosedK1.v
theories/FamClosedK12.v
theories/FamSwap1.v
theories/FamSwap2.v
theories/FamSwap3.v
theories/FamSwapK1.v
theories/FamScaleX.v
theories/FamScaleK.v
theories/FamSpin1.v
theories/FamSpin2.v
theories/FamSpin3.v
theories/FamSpinK2.v
theories/FamScreenP.v
theories/FamScreenU.v
theories/FamUnifX.v
theories/FamUnifK.v
theories/Fam.v
theories/Records.v
theories/RecordsThm.v
theories/RecordsThm2.v
theories/RecordsThm3.v
theories/ImplThm4.v
theories/Samples.v
theories/RecordsThm4.v
theories/RecordsThm5.v
theories/PropRuntime.v
theories/PropRecords.v
theories/Series.v
theories/Interval.v
theories/IntervalThm.v
theories/IntervalThm2.v
theories/Absint.v
theories/AbsintThm.v
theories/AbsintFine.v
theories/AbsintThm2.v
theories/AbsintPW.v
theories/AbsintSpecial.v
theories/AbsintThm3.v
theories/Defined.v
theories/Exact.v
theories/Domains.v
theories/Inputs.v
theories/Library.v
theories/Smooth.v
theories/SmoothLib.v
theories/SmoothCheck.v
theories/SmoothFam.v
theories/FamDefP.v
theories/FamDefU.v
theories/FamNegP.v
theories/FamNegU.v
theories/FamLib.v
theories/FamLibN.v
theories/FamExact.v
theories/FamInputs.v
theories/FamSamples.v
theories/PropFamilies.v
theories/ExtParams.v
theories/ExtParamsThm.v
theories/ExtParamsThm2.v
theories/PropParams.v
theories/Helpers.v
theories/MapleTemplate.v
theories/GenBuild.v
theories/GenBuildThm.v
theories/Prebuilt.v
theories/GenBuildThm2.v
theories/PropGen.v
theories/Literals.v
theories/LiteralsThm.v
theories/ParserThm.v
theories/CubeRoots.v
theories/CubeText.v
theories/CubeText2.v
theories/Translate.v
theories/TranslateThm.v
theories/PropText.v
theories/Wrap.v
theories/WrapThm.v
theories/WrapThm2.v
theories/PropWrap.v
theories/Refute.v
theories/Undefined.v
theories/RunRefute.v
theories/Precise.v
theories/RunPrecise.v
theories/PropRefuted.v
theories/Callable.v
theories/FamCallable.v
theories/PropCallable.v
theories/Sloc.v
theories/DecidedIndex.v
theories/Decided.v
theories/PropDecided.v
theories/Kinetic.v
theories/FamKinetic.v
theories/RunKinetic.v
theories/PropKinetic.v
theories/Oxford.v
theories/RunOxford.v
theories/PropOxford.v
theories/FamSmooth.v
theories/SmoothSample.v
theories/Pz.v
theories/PropSmooth.v
theories/Layout.v
theories/LayoutThm.v
theories/PropLayout.v
theories/Package.v
theories/PackageThm.v
theories/PackageShipped.v
theories/PropPackage.v
theories/Corr.v
theories/RunCorr.v
theories/PropCorr.v
theories/Calls.v
theories/RunCalls.v
theories/PropCalls.v
theories/Factors.v
theories/RunFactors.v
theories/FactorCalls.v
theories/PropFactors.v
theories/Meaning.v
theories/PropMeaning.v
theories/Tokens.v
theories/Grammar.v
theories/GrammarLib.v
theories/PropGrammar.v
