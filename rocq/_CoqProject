-Q theories Verif

theories/Base.v
theories/BaseFacts.v
theories/FormatRunsModel.v
theories/FormatRunsSpec.v
theories/FormatRunsFacts.v
theories/RopeModel.v
theories/RopeSpec.v
theories/RopeFacts.v
theories/DocModel.v
theories/SearchModel.v
theories/HistModel.v
theories/QueryModel.v
theories/ListModel.v
theories/ListDocModel.v
theories/FragmentModel.v
theories/FragmentText.v
theories/ImportModel.v
theories/DocSpec.v
theories/BlockFacts.v
theories/DocInv.v
theories/DocFacts.v
theories/DocAttr.v
theories/DocDelete.v
theories/DocBreak.v
theories/DocReplace.v
theories/DocImport.v
theories/ListSpec.v
theories/ListFacts.v
theories/ImportSpec.v
theories/ImportFacts.v
theories/DocFormat.v
theories/DocQuery.v
theories/ReplaceFacts.v
theories/HistSpec.v
theories/QuerySpec.v
theories/DocFresh.v
theories/FragmentSpec.v
theories/FragmentRuns.v
theories/FragmentGrow.v
theories/FragmentFinish.v
theories/FragmentPaste.v
theories/FragmentLists.v
theories/FragmentInsert.v
theories/DeletePos.v
theories/DocReach.v
theories/DocHist.v
theories/QueryFacts.v
theories/QueryText.v
theories/SearchSpec.v
theories/SearchFacts.v
theories/ReplaceExact.v
theories/PropSpec.v
theories/DocTheorems.v
theories/QueryTheorems.v
theories/DocRefuted.v
theories/SearchTheorems.v
theories/Props_Search.v
theories/Props_Text.v
theories/Props_Format.v
theories/Props_Query.v
theories/DiffModel.v
theories/DiffSpec.v
theories/DiffFacts.v
theories/CursorModel.v
theories/CursorSpec.v
theories/CursorFacts.v
theories/CursorTheorems.v
theories/CursorRefuted.v
theories/Props_Cursor.v
theories/EventModel.v
theories/EventSpec.v
theories/EventFacts.v
theories/TxnModel.v
theories/TxnSpec.v
theories/TxnFacts.v
theories/Props_Events.v
theories/UndoModel.v
theories/UndoSpec.v
theories/UndoFacts.v
theories/SessionModel.v
theories/SessionSpec.v
theories/SessionFacts.v
theories/SessionCmd.v
theories/SessionChain.v
theories/SessionTheorems.v
theories/SessionTyping.v
theories/Props_Undo.v
theories/Props_Lists.v
theories/ListDocSpec.v
theories/ListDocFacts.v
theories/Props_ListDoc.v
theories/EscapeModel.v
theories/EscapeSpec.v
theories/EscapeFacts.v
theories/Props_Export.v
theories/TableModel.v
theories/TableSpec.v
theories/TableFacts.v
theories/TablePlaces.v
theories/TableTheorems.v
theories/Props_Tables.v
theories/HighlightModel.v
theories/HighlightSpec.v
theories/HighlightFacts.v
theories/DocIds.v
theories/HighlightRerun.v
theories/HighlightTheorems.v
theories/Props_Highlight.v
theories/LongOpModel.v
theories/LongOpSpec.v
theories/LongOpFacts.v
theories/LongOpTheorems.v
theories/Props_LongOp.v
theories/ImageModel.v
theories/ImageSpec.v
theories/ImageFacts.v
theories/ImageTheorems.v
theories/Props_Image.v
theories/FragmentCopySpec.v
theories/FragmentCopy.v
theories/FragmentTheorems.v
theories/FragmentRefuted.v
theories/Props_Fragment.v
theories/WordModel.v
theories/WordSpec.v
theories/WordFacts.v
theories/WordTheorems.v
theories/WordRefuted.v
theories/Props_Word.v
theories/ExportModel.v
theories/ExportSpec.v
theories/ExportUnique.v
theories/ExportHtml.v
theories/ExportFrag.v
theories/ExportRefuted.v
theories/ExportTheorems.v
theories/Props_ExportDoc.v
theories/MdModel.v
theories/MdSpec.v
theories/MdUnique.v
theories/MdLines.v
theories/MdExport.v
theories/MdRefuted.v
theories/Props_Markdown.v
theories/MdReadModel.v
theories/DocShows.v
theories/MdReadSpec.v
theories/MdReadFacts.v
theories/ImportTheorems.v
theories/MdReadTheorems.v
theories/MdReadRefuted.v
theories/Props_MdRead.v
theories/HtmlReadModel.v
theories/HtmlReadSpec.v
theories/HtmlReadFacts.v
theories/HtmlReadTheorems.v
theories/Props_HtmlRead.v
theories/HtmlRoundSpec.v
theories/HtmlRoundFacts.v
theories/HtmlRoundTheorems.v
theories/Props_HtmlRound.v
theories/MdRoundSpec.v
theories/MdRoundTheorems.v
theories/Props_MdRound.v
theories/MdInsertModel.v
theories/HtmlInsertModel.v
theories/RichModel.v
theories/RichSpec.v
theories/RichFacts.v
theories/RichTheorems.v
theories/RichInsertList.v
theories/RichCallSpec.v
theories/RichCalls.v
theories/Props_Rich.v
theories/FragmentReadModel.v
theories/FragmentReadSpec.v
theories/FragmentReadFacts.v
theories/FragmentReadTheorems.v
theories/Props_FragmentRead.v
theories/LatexModel.v
theories/LatexSpec.v
theories/LatexUnique.v
theories/LatexFacts.v
theories/LatexTheorems.v
theories/LatexRefuted.v
theories/Props_Latex.v
theories/RopeTables.v
theories/TableTextModel.v
theories/TableTextSpec.v
theories/TableTextFacts.v
theories/TableTextEdits.v
theories/TableTextInsert.v
theories/TableTextTheorems.v
theories/TableTextRefuted.v
theories/Props_TableText.v
theories/StateModel.v
theories/StateSpec.v
theories/StateFacts.v
theories/StateRefuted.v
theories/Props_State.v
theories/FormatApiModel.v
theories/FormatApiSpec.v
theories/FormatApiFacts.v
theories/FormatApiRefuted.v
theories/Props_FormatApi.v
theories/DocxModel.v
theories/DocxSpec.v
theories/DocxFacts.v
theories/DocxTable.v
theories/DocxRefuted.v
theories/Props_Docx.v
theories/FlowModel.v
theories/FlowSpec.v
theories/FlowFacts.v
theories/FlowRefuted.v
theories/Props_Flow.v
theories/TableEditModel.v
theories/TableEditSpec.v
theories/TableEditFacts.v
theories/TableEditSteps.v
theories/TableEditTheorems.v
theories/TableEditRefuted.v
theories/Props_TableEdit.v
theories/FrameModel.v
theories/FrameSpec.v
theories/FrameFacts.v
theories/FrameSteps.v
theories/FrameTheorems.v
theories/FrameRefuted.v
theories/Props_Frame.v
theories/TableUndoModel.v
theories/TableUndoSpec.v
theories/TableRename.v
theories/TableUndoFacts.v
theories/TableCopy.v
theories/TableUndoSteps.v
theories/TableUndoRefuted.v
theories/Props_TableUndo.v
theories/TableExportModel.v
theories/TableExportSpec.v
theories/TableExportFacts.v
theories/TableExportMd.v
theories/TableExportRefuted.v
theories/Props_TableExport.v
theories/XCopyModel.v
theories/XCopySpec.v
theories/XCopyCuts.v
theories/XCopyFacts.v
theories/XCopyTheorems.v
theories/XCopyRefuted.v
theories/Props_TableFragment.v
theories/XSearchModel.v
theories/XSearchSpec.v
theories/XSearchFacts.v
theories/XSearchTheorems.v
theories/XSearchRefuted.v
theories/Props_TableSearch.v
theories/XDeleteModel.v
theories/XDeleteSpec.v
theories/XDeleteRope.v
theories/XDeleteFacts.v
theories/XDeleteTheorems.v
theories/XDeleteRefuted.v
theories/Props_TableDelete.v
theories/MdInsertSpec.v
theories/MdInsertRope.v
theories/MdInsertFacts.v
theories/MdInsertTheorems.v
theories/MdInsertRefuted.v
theories/Props_MdInsert.v
theories/HtmlInsertSpec.v
theories/HtmlInsertFacts.v
theories/HtmlInsertTheorems.v
theories/HtmlInsertRefuted.v
theories/Props_HtmlInsert.v
theories/InsertUndoSpec.v
theories/InsertUndoFacts.v
theories/InsertUndoWalk.v
theories/InsertUndoRefuted.v
theories/Props_InsertUndo.v
