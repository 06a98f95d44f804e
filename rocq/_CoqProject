-Q theories Verif
theories/Base.v
theories/Float.v
theories/Lexer.v
theories/Operand.v
theories/Catalogue.v
theories/Table.v
theories/Parse.v
theories/Assemble.v
theories/Golden.v
theories/Spec.v
theories/Bits.v
theories/LexFacts.v
theories/SchedFuel.v
theories/Param.v
theories/Reach.v
theories/ParseFacts.v
theories/Outcomes.v
theories/Decode.v
theories/Emit.v
theories/Program.v
theories/Modes.v
theories/SpecOperand.v
theories/SpecInsn.v
theories/Footprint.v
theories/Operands.v
theories/Operands2.v
theories/Operands3.v
theories/Encode.v
theories/Quiet.v
theories/Notes.v
theories/Insn.v
theories/Words.v
theories/Position.v
theories/Literals.v
theories/SpecLex.v
theories/Lexemes.v
theories/Stream.v
theories/Cut.v
theories/Forms.v
theories/Sched.v
theories/Where.v
theories/Text.v
theories/Compose.v
theories/SpecSafe.v
theories/Safe.v
theories/SpecProgram.v
theories/Language.v
theories/SpecLink.v
theories/Link.v
theories/Clash.v
theories/Recover.v
theories/Fields.v
theories/Reject.v
theories/Fields2.v
theories/Fields3.v
theories/Demo.v
theories/Layout.v
theories/SpecFloat.v
theories/Round.v
theories/Half.v
theories/Floats.v
theories/Properties.v
theories/Properties2.v
theories/SpecOpts.v
theories/Opts.v
theories/SpecContainer.v
theories/Container.v
theories/SpecCli.v
theories/Cli.v
theories/Properties3.v
theories/Properties4.v
theories/Properties5.v
theories/Properties6.v
theories/Properties7.v
theories/SpecSame.v
theories/Same.v
theories/Unique.v
theories/Kin.v
theories/Twins.v
theories/Properties8.v
theories/Properties9.v
theories/Properties10.v
theories/Diag.v
theories/SpecDiag.v
theories/Message.v
theories/Told.v
theories/Report.v
theories/Run.v
theories/SpecEdit.v
theories/Edit.v
theories/SpecWritable.v
theories/Writable.v
theories/Counters.v
theories/Device.v
theories/SpecDevice.v
theories/DeviceFacts.v
theories/Properties11.v
theories/Properties12.v
theories/Properties13.v
theories/SpecDepth.v
theories/Depth.v
theories/Astray.v
theories/SpecAsserts.v
theories/Asserts.v
theories/Properties14.v
theories/Local.v
theories/SpecTidy.v
theories/Tidy.v
theories/Tidied.v
theories/Growth.v
theories/Properties15.v
theories/Properties16.v
theories/Properties17.v
theories/SpecRename.v
theories/Rename.v
theories/Tester.v
theories/SpecTester.v
theories/TesterFacts.v
theories/Source.v
theories/SourceText.v
theories/Idioms.v
theories/Reading.v
theories/Properties18.v
theories/SpecSheet.v
theories/Sheet.v
theories/Properties19.v
theories/Cxx.v
theories/Exec.v
theories/Functions.v
theories/Runs.v
theories/Runs1.v
theories/Runs2.v
theories/Runs3.v
theories/Runs4.v
theories/Runs5.v
theories/Runs6.v
theories/SpecRuns.v
theories/Lines.v
theories/Properties20.v
theories/RunsParse.v
theories/Properties21.v
theories/Scan.v
theories/SourceContext.v
theories/ScanExec.v
theories/ScanFunctions.v
theories/SpecScan.v
theories/ScanRuns.v
theories/ScanTokens.v
theories/ScanTokenize.v
theories/ScanLabels.v
theories/Properties22.v
