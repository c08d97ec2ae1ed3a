-Q theories Verif
theories/Base.v
theories/Util.v
theories/Combinators.v
theories/Variadic.v
theories/Parsers.v
theories/Deep.v
theories/Spec.v
theories/SpecDeep.v
theories/Proofs_Pos.v
theories/Proofs_Fold.v
theories/Proofs_Variadic.v
theories/Proofs_Parsers.v
theories/Proofs_Parsers2.v
theories/Proofs_Deep.v
theories/Proofs_Rel.v
theories/SpecErase.v
theories/Proofs_Erase.v
theories/Proofs_Final1.v
theories/Proofs_Final2.v
theories/Proofs_Final3.v
theories/Properties_Positions.v
theories/Properties_Folds.v
theories/Properties_Variadic.v
theories/Proofs_Final4.v
theories/Proofs_Final5.v
theories/Properties_Equivalences.v
theories/Properties_Basic.v
theories/Properties_Deep.v
theories/SpecTerm.v
theories/Proofs_Term.v
theories/Properties_Term.v
theories/SpecType.v
theories/Proofs_Type.v
theories/Properties_Type.v
theories/Strings.v
theories/Proofs_Strings.v
theories/Proofs_Macro.v
theories/Properties_Strings.v
theories/Messages.v
theories/Properties_Messages.v
theories/Grammar.v
theories/SpecGrammar.v
theories/Proofs_Grammar.v
theories/Proofs_Peg.v
theories/Properties_Grammar.v
theories/Calculator.v
theories/SpecCalc.v
theories/Proofs_Calc.v
theories/Proofs_Calc2.v
theories/Properties_Calc.v
theories/SpecCalcErr.v
theories/Proofs_CalcErr.v
theories/Properties_CalcErr.v
theories/Examples.v
theories/SpecExamples.v
theories/Proofs_Examples.v
theories/Properties_Examples.v
theories/Functions.v
theories/SpecFun.v
theories/Proofs_Functions.v
theories/Properties_Functions.v
theories/SpecTutorial.v
theories/Proofs_Tutorial.v
theories/Properties_Tutorial.v
theories/MetaHs.v
theories/SpecHs.v
theories/Proofs_Hs.v
theories/Proofs_Hs2.v
theories/Properties_Hs.v
theories/SpecHsEval.v
theories/Proofs_HsEval.v
theories/Proofs_HsEval2.v
theories/Properties_HsEval.v
theories/SpecRules.v
theories/Proofs_Rules.v
theories/Properties_Rules.v
theories/StringParse.v
theories/SpecStringParse.v
theories/Proofs_StringParse.v
theories/Properties_StringParse.v
theories/SpecReplace.v
theories/Proofs_Replace.v
theories/Properties_Replace.v
theories/SpecLaws.v
theories/Proofs_Laws.v
theories/Properties_Laws.v
theories/Benchmark.v
theories/SpecBenchmark.v
theories/Proofs_Benchmark.v
theories/Properties_Benchmark.v
theories/Generate.v
theories/SpecGenerate.v
theories/Proofs_Snippets.v
theories/Proofs_Generate.v
theories/Proofs_Pages.v
theories/Proofs_Links.v
theories/Properties_Generate.v
theories/Headers.v
theories/SpecHeaders.v
theories/Proofs_Headers.v
theories/Proofs_Expansion.v
theories/Proofs_Expansion2.v
theories/Proofs_Expansion3.v
theories/Properties_Headers.v
theories/Tests.v
theories/Tests_Guide.v
theories/Tests_Reference.v
theories/Tests_Headers.v
theories/Manual.v
theories/SpecManual.v
theories/Proofs_Manual.v
theories/Properties_Manual.v
theories/SpecCost.v
theories/Proofs_Cost.v
theories/Properties_Cost.v
theories/SpecLocal.v
theories/Proofs_Local.v
theories/Properties_Local.v
theories/BenchmarkRun.v
theories/SpecBenchRun.v
theories/Proofs_BenchRun.v
theories/Properties_BenchRun.v
theories/Include.v
theories/HeaderFiles.v
theories/SpecInclude.v
theories/Proofs_Include.v
theories/Proofs_IncludeRun.v
theories/Proofs_IncludeAll.v
theories/Properties_Include.v
theories/Lazy.v
theories/SpecLazy.v
theories/Proofs_Lazy.v
theories/Properties_Lazy.v
theories/Environment.v
theories/SpecEnvironment.v
theories/Proofs_Environment.v
theories/Properties_Environment.v
theories/SpecDeclarations.v
theories/Proofs_Declarations.v
theories/Properties_Declarations.v
theories/Properties_Erase.v
theories/SpecCounters.v
theories/Properties_Counters.v
theories/SpecPeg.v
theories/Proofs_PegAll.v
theories/Properties_Peg.v
theories/SpecMoved.v
theories/Proofs_Moved.v
theories/Properties_Moved.v
theories/SpecNames.v
theories/Proofs_Names.v
theories/Properties_Names.v
theories/SpecVague.v
theories/Proofs_Vague.v
theories/Properties_Vague.v
theories/SpecCfg.v
theories/Proofs_Cfg.v
theories/SpecBlame.v
theories/Proofs_Blame.v
theories/Properties_Cfg.v
theories/Proofs_BlameParsers.v
theories/Properties_Blame.v
theories/SpecMeans.v
theories/Proofs_Means.v
theories/Properties_Means.v
theories/Properties_Details.v
theories/SpecLayout.v
theories/Proofs_Layout.v
theories/Properties_Layout.v
theories/SpecChoice.v
theories/Proofs_Choice.v
theories/Properties_Choice.v
theories/SpecPrecedence.v
theories/Proofs_Precedence.v
theories/Properties_Precedence.v
theories/SpecRepeat.v
theories/Proofs_Repeat.v
theories/Properties_Repeat.v
theories/SpecFormula.v
theories/Proofs_Formula.v
theories/Proofs_Formula2.v
theories/Proofs_Formula3.v
theories/Properties_Formula.v
theories/SpecGrouping.v
theories/Proofs_Grouping.v
theories/Properties_Grouping.v
theories/Proofs_Grouping2.v
theories/Properties_Missing.v
theories/SpecGroupedFormula.v
theories/Proofs_GroupedFormula.v
theories/Proofs_GroupedFormula2.v
theories/Properties_GroupedFormula.v
theories/SpecFault.v
theories/Proofs_Fault.v
theories/Proofs_Fault2.v
theories/Properties_Fault.v
