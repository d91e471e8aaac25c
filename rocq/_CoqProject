-Q theories Verif
theories/Base.v
theories/CrateName.v
theories/Tokens.v
theories/Method.v
theories/Paths.v
theories/Context.v
theories/Flavor.v
theories/PresetSpec.v
theories/Attrs.v
theories/Syntax.v
theories/SyntaxInd.v
theories/Render.v
theories/Walker.v
theories/EvalList.v
theories/TomlStore.v
theories/RootAttr.v
theories/Excerpt.v
theories/ExcerptArgs.v
theories/Helpers.v
theories/ExcerptSpec.v
theories/ExcerptProofs.v
theories/LayoutProofs.v
theories/ExcerptArgsSpec.v
theories/ExcerptArgsProofs.v
theories/Properties_Excerpt.v
theories/MapFacts.v
theories/MethodSpec.v
theories/MethodProofs.v
theories/RenderSpec.v
theories/RenderProofs.v
theories/RenderVarProofs.v
theories/Properties_Render.v
theories/FlavorSpec.v
theories/PresetTableProofs.v
theories/FlavorNameProofs.v
theories/FlavorTomlProofs.v
theories/FlavorStoreProofs.v
theories/Properties_Flavor.v
theories/AttrSpec.v
theories/AttrProofs.v
theories/Properties_Attrs.v
theories/SiteSpec.v
theories/ProgSpec.v
theories/WalkFacts.v
theories/BareProofs.v
theories/SiteProofs.v
theories/AccountProofs.v
theories/PlaceSpec.v
theories/PlaceProofs.v
theories/SettingSpec.v
theories/SettingProofs.v
theories/WalkSpec.v
theories/KindSpec.v
theories/KindProofs.v
theories/WalkProofs.v
theories/TextSpec.v
theories/TextProofs.v
theories/WalkExamples.v
theories/Properties_Presets.v
theories/ShapeProofs.v
theories/HookProofs.v
theories/FnNameProofs.v
theories/Properties_Hooks.v
theories/ScopeProofs.v
theories/Properties_Scope.v
theories/Properties_Count.v
theories/Properties_Places.v
theories/Properties_Kinds.v
theories/NodeSpec.v
theories/NodeProofs.v
theories/EvalSpec.v
theories/EvalProofs.v
theories/Properties_Nodes.v
theories/CountSpec.v
theories/CountProofs.v
theories/AlikeSpec.v
theories/AlikeProofs.v
theories/ShiftSpec.v
theories/ShiftProofs.v
theories/RewriteSpec.v
theories/OrderProofs.v
theories/Properties_Siblings.v
theories/ProgressSpec.v
theories/ProgressProofs.v
theories/PresetProofs.v
theories/GrammarSpec.v
theories/PresetShapeProofs.v
theories/Properties_Progress.v
theories/Properties_Macro.v
theories/MoveSpec.v
theories/MoveProofs.v
theories/Properties_Move.v
theories/Properties_Catalogue.v
theories/Properties_Print.v
theories/MeaningSpec.v
theories/MeaningProofs.v
theories/RunSpec.v
theories/RunProofs.v
theories/Properties_Meaning.v
theories/Properties_Twice.v
theories/SmallRust.v
theories/SmallRustProofs.v
theories/SmallRustLaws.v
theories/ClosedProofs.v
theories/Properties_Closed.v
theories/Io.v
theories/Sync.v
theories/Books.v
theories/Mask.v
theories/NewProject.v
theories/ScriptSpec.v
theories/SyncProofs.v
theories/MaskProofs.v
theories/BooksProofs.v
theories/SmallToml.v
theories/Recorded_Readme.v
theories/Properties_Scripts.v
theories/Properties_Cases.v
theories/Properties_Shift.v
theories/Properties_Rewrite.v
theories/SimpleSpec.v
theories/SimpleProofs.v
theories/SimpleWalkProofs.v
theories/Properties_Simple.v
theories/ModuleSpec.v
theories/ModuleProofs.v
theories/Properties_Module.v
theories/ReportSpec.v
theories/ReportProofs.v
theories/Properties_Report.v
theories/Conformance.v
theories/Recorded_Expr.v
theories/Recorded_Item.v
theories/Recorded_Settings.v
theories/Recorded_Vars.v
theories/Recorded_Book.v
theories/Recorded_Excerpts.v
