-Q theories Verif
theories/PyBase.v
theories/PyLemmas.v
theories/Utility.v
theories/RulesData.v
theories/Rules.v
theories/Config.v
theories/Paths.v
theories/Pool.v
theories/Formats.v
theories/Detection.v
theories/Arguments.v
theories/Parser.v
theories/AstKinds.v
theories/Ast.v
theories/State.v
theories/Visitor.v
theories/Fstring.v
theories/MinVersions.v
theories/Processor.v
theories/Main.v
theories/Spec_Base.v
theories/Spec_Utility.v
theories/Proof_Utility.v
theories/Spec_Items.v
theories/Prop_Utility.v
theories/Spec_Rules.v
theories/Proof_Rules.v
theories/Prop_Rules.v
theories/Heap.v
theories/Spec_Config.v
theories/Proof_Config.v
theories/Prop_Config.v
theories/Spec_Settings.v
theories/Proof_Settings.v
theories/Prop_Settings.v
theories/Spec_Args.v
theories/Proof_Args.v
theories/Prop_Args.v
theories/Spec_Detection.v
theories/Proof_Pool.v
theories/Proof_Strings.v
theories/Proof_Detection.v
theories/Prop_Detection.v
theories/Spec_Parser.v
theories/Proof_Parser.v
theories/Prop_Parser.v
theories/Spec_Formats.v
theories/Proof_Formats.v
theories/Prop_Formats.v
theories/Spec_MinVersions.v
theories/Proof_MinVersions.v
theories/Prop_MinVersions.v
theories/Spec_Main.v
theories/Proof_Main.v
theories/Proof_Report.v
theories/Samples.v
theories/Prop_Main.v
theories/Spec_Visitor.v
theories/Spec_Places.v
theories/Proof_Shapes.v
theories/Proof_Runs.v
theories/Proof_Handlers.v
theories/Proof_Brackets.v
theories/Proof_Tour.v
theories/Proof_Claims.v
theories/Proof_Scopes.v
theories/Trees.v
theories/Prop_Visitor.v
theories/Spec_Crash.v
theories/Proof_Crash.v
theories/Prop_Crash.v
theories/Spec_Same.v
theories/Proof_Same.v
theories/Proof_Verdict.v
theories/Prop_Same.v
theories/Spec_Seen.v
theories/Proof_Forms.v
theories/Proof_Seen.v
theories/Proof_Sight.v
theories/Proof_Reached.v
theories/Proof_Reach.v
theories/Proof_Asks.v
theories/Prop_Seen.v
theories/Spec_Explain.v
theories/Proof_Explain.v
theories/Prop_Explain.v
theories/Proof_Places.v
theories/Proof_Spots.v
theories/Prop_Places.v
theories/Binary64.v
theories/Spec_Binary64.v
theories/Proof_Binary64.v
theories/Prop_Binary64.v
theories/Ini.v
theories/Spec_Ini.v
theories/Proof_Ini.v
theories/Proof_Inidef.v
theories/Proof_Written.v
theories/Prop_Ini.v
theories/Spec_Fewer.v
theories/Proof_Fewer.v
theories/Proof_Less.v
theories/Prop_Fewer.v
theories/Prop_Laxer.v
theories/Spec_Options.v
theories/Proof_Options.v
theories/Prop_Options.v
theories/UsageData.v
theories/Usage.v
theories/Messages.v
theories/Spec_Messages.v
theories/Proof_Messages.v
theories/Prop_Messages.v
theories/Spec_Usage.v
theories/Proof_Usage.v
theories/Prop_Usage.v
theories/Spec_Reading.v
theories/Proof_Reading.v
theories/Prop_Reading.v
theories/Samples_Tips.v
theories/Spec_Tips.v
theories/Proof_Tips.v
theories/Prop_Tips.v
theories/Spec_Valid.v
theories/Proof_Valid.v
theories/Prop_Valid.v
theories/Spec_Whole.v
theories/Proof_Whole.v
theories/Prop_Whole.v
theories/Spec_More.v
theories/Proof_More.v
theories/Prop_More.v
theories/Spec_Targets.v
theories/Proof_Targets.v
theories/Prop_Targets.v
theories/ConfigRepr.v
theories/Spec_Repr.v
theories/Proof_Repr.v
theories/Prop_Repr.v
theories/Samples_Layout.v
theories/Spec_Layout.v
theories/Proof_Layout.v
theories/Proof_Moved.v
theories/Prop_Layout.v
theories/Trees_Work.v
theories/Spec_Work.v
theories/Proof_Work.v
theories/Prop_Work.v
theories/Trees_Fstring.v
theories/Spec_Fstring.v
theories/Proof_Fstring.v
theories/Prop_Fstring.v
theories/Spec_Shown.v
theories/Proof_Shown.v
theories/Prop_Shown.v
theories/Proof_Anywhere.v
theories/Spec_Library.v
theories/Proof_Library.v
theories/Prop_Library.v
theories/Spec_Failing.v
theories/Proof_Failing.v
theories/Prop_Failing.v
theories/Spec_Given.v
theories/Proof_Given.v
theories/Prop_Given.v
theories/Spec_Least.v
theories/Proof_Least.v
theories/Prop_Least.v
theories/Trees_Lines.v
theories/Spec_Kwlines.v
theories/Proof_Kwlines.v
theories/Prop_Kwlines.v
theories/Trees_Names.v
theories/Prop_Stood.v
theories/Samples_Idle.v
theories/Spec_Idle.v
theories/Proof_Changed.v
theories/Proof_Idle.v
theories/Prop_Idle.v
theories/Samples_Annotations.v
theories/Spec_Annotations.v
theories/Proof_Annotations.v
theories/Prop_Annotations.v
theories/Spec_Named.v
theories/Proof_Named.v
theories/Proof_Named_Runs.v
theories/Prop_Named.v
theories/Spec_Constructs.v
theories/Proof_Constructs.v
theories/Proof_Constructs_Runs.v
theories/Samples_Constructs.v
theories/Prop_Constructs.v
theories/Spec_Selection.v
theories/Proof_Selection.v
theories/Prop_Selection.v
theories/Spec_Bystanders.v
theories/Proof_Bystanders.v
theories/Prop_Bystanders.v
theories/Spec_Released.v
theories/Proof_Released.v
theories/Prop_Released.v
