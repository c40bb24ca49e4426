-Q theories Verif
theories/Base.v
theories/Ast.v
theories/Condition.v
theories/Bundle.v
theories/Validator.v
theories/Spec_Condition.v
theories/Spec_Bundle.v
theories/Condition_proofs.v
theories/Condition_spec_proofs.v
theories/Sort_proofs.v
theories/Overlays_proofs.v
theories/Bundle_proofs.v
theories/Determinism_proofs.v
theories/Validator_proofs.v
theories/Translation_proofs.v
theories/Tamper_proofs.v
theories/Box_proofs.v
theories/Inj_digest.v
theories/Props_Condition.v
theories/Props_Bundle.v
theories/Build.v
theories/Spec_Build.v
theories/Upd_proofs.v
theories/Effect_proofs.v
theories/Command_proofs.v
theories/Load_proofs.v
theories/Run_proofs.v
theories/Build_proofs.v
theories/Flags_proofs.v
theories/Props_Build.v
theories/Reload_proofs.v
theories/Incremental_proofs.v
theories/Props_Reload.v
theories/Codec.v
theories/Spec_Codec.v
theories/Codec_proofs.v
theories/Props_Codec.v
theories/AstValidator.v
theories/Spec_Ast.v
theories/AstValidator_proofs.v
theories/Props_Ast.v
theories/BundleCodec.v
theories/Spec_BundleCodec.v
theories/BundleCodec_proofs.v
theories/Props_BundleCodec.v
theories/Storage.v
theories/Spec_Storage.v
theories/Props_Storage.v
theories/Relations.v
theories/Spec_Relations.v
theories/Props_Relations.v
theories/Dag.v
theories/Spec_Dag.v
theories/Props_Dag.v
theories/Facade.v
theories/Nesting.v
theories/Nesting_proofs.v
theories/Text.v
theories/Spec_Facade.v
theories/Facade_proofs.v
theories/Props_Facade.v
theories/History_proofs.v
theories/Checkers.v
theories/Props_History.v
theories/Props_Deps.v
theories/Spec_Refs.v
theories/Runs.v
theories/Props_Refs.v
theories/Stored_proofs.v
theories/Props_From.v
theories/Peg.v
theories/Peg_proofs.v
theories/OcaGrammar.v
theories/OcaGrammar_proofs.v
theories/OcaFile.v
theories/Spec_OcaFile.v
theories/Takes.v
theories/OcaTakes.v
theories/OcaItems.v
theories/OcaValues.v
theories/OcaLines.v
theories/OcaCommands.v
theories/OcaLayout.v
theories/AsRead.v
theories/Props_OcaFile.v
theories/Spec_Framing.v
theories/OcaFraming.v
theories/FramingLines.v
theories/Props_Framing.v
theories/PegMap.v
theories/TGrammar.v
theories/TGrammar_proofs.v
theories/TFile.v
theories/Spec_TFile.v
theories/TDispatch.v
theories/TBuild_proofs.v
theories/TLayout.v
theories/Props_Transformation.v
theories/ToAst.v
theories/ToAst_proofs.v
theories/Props_ToAst.v
theories/VBuild.v
theories/Spec_VBuild.v
theories/VBuild_proofs.v
theories/Props_VBuild.v
theories/Crash.v
theories/Crash_proofs.v
theories/Crash_redo.v
theories/Spec_Crash.v
theories/Crash_again.v
theories/Props_Crash.v
theories/Index.v
theories/Spec_Index.v
theories/Index_proofs.v
theories/Props_Index.v
theories/Props_Index2.v
theories/Spec_Models.v
theories/Props_Models.v
theories/Spec_Total.v
theories/Props_Total.v
theories/Props_Total2.v
theories/Export.v
theories/Spec_Export.v
theories/Replay_proofs.v
theories/Spec_Writable.v
theories/Props_Export.v
theories/Props_Export2.v
theories/Props_Export3.v
theories/PegShape.v
theories/OcaShape.v
theories/OcaNoPanic.v
theories/Spec_Read.v
theories/OcaForms.v
theories/OcaBuilds.v
theories/Props_Read.v
theories/Spec_TRead.v
theories/TForms.v
theories/Props_TRead.v
theories/Props_TRead2.v
theories/Files.v
theories/Spec_Files.v
theories/Files_proofs.v
theories/Spec_Disk.v
theories/Disk_proofs.v
theories/Props_Files.v
theories/Entry.v
theories/Spec_Entry.v
theories/Props_Entry.v
theories/Props_Chars.v
theories/Spec_Texts.v
theories/Texts_proofs.v
theories/Props_Texts.v
theories/Props_Texts2.v
theories/Regex.v
theories/Spec_Regex.v
theories/Regex_proofs.v
theories/Standard.v
theories/Spec_Standard.v
theories/Standard_proofs.v
theories/Props_Standard.v
theories/Standard_full.v
theories/Props_Standard2.v
theories/Scope.v
theories/Spec_Scope.v
theories/Scope_proofs.v
theories/Props_Scope.v
theories/Spec_JsonText.v
theories/JsonText.v
theories/JsonText_proofs.v
theories/BundleText.v
theories/Props_JsonText.v
theories/Spec_Rewrite.v
theories/OcaTexts.v
theories/Props_Rewrite.v
theories/Spec_Frames.v
theories/Frames.v
theories/Props_Frames.v
theories/Props_From2.v
theories/Equality.v
theories/Spec_Equality.v
theories/Equality_proofs.v
theories/Props_Equality.v
theories/Spec_Independent.v
theories/Independent_proofs.v
theories/Props_Independent.v
theories/Spec_Version.v
theories/Version.v
theories/Version_proofs.v
theories/Props_Version.v
theories/Spec_Hand.v
theories/OcaHand.v
theories/HandLines.v
theories/HandCommands.v
theories/HandLayout.v
theories/HandPrinted.v
theories/Props_Hand.v
theories/Props_Hand2.v
theories/Spec_Last.v
theories/Last_proofs.v
theories/Last_runs.v
theories/Props_Last.v
theories/Props_Last2.v
theories/Props_Last3.v
