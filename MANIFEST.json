{
 "claims": [
  {
   "property": "C01",
   "status": "proved",
   "theorems": [
    "plain_text_round_trip",
    "reachable_readable"
   ],
   "note": "Flat documents (one frame, no tables)."
  },
  {
   "property": "C02",
   "status": "proved",
   "theorems": [
    "typing_inserts"
   ],
   "note": "Flat documents (one frame, no tables)."
  },
  {
   "property": "C03",
   "status": "proved",
   "theorems": [
    "deleting_removes"
   ],
   "note": "Flat documents (one frame, no tables). The reported new position is the unclipped minimum."
  },
  {
   "property": "C04",
   "status": "proved",
   "theorems": [
    "break_splits"
   ],
   "note": "Flat documents (one frame, no tables)."
  },
  {
   "property": "C05",
   "status": "proved",
   "theorems": [
    "histories_are_splices",
    "cursor_edit"
   ],
   "note": "Flat documents (one frame, no tables). A formatted insertion of no text is left out (see C08)."
  },
  {
   "property": "C06",
   "status": "proved",
   "theorems": [
    "formats_follow_text"
   ],
   "note": "Flat documents (one frame, no tables)."
  },
  {
   "property": "C07",
   "status": "partial",
   "theorems": [
    "format_range_partial",
    "tidy_positions",
    "format_range_refuted",
    "set_format_attributes",
    "merge_format_partial",
    "merge_format_refuted"
   ],
   "note": "The range is exact when stored positions are right; typing earlier in the document makes them stale and the wrong characters are formatted (refuted). merge_char_format drops all but five attributes."
  },
  {
   "property": "C08",
   "status": "partial",
   "theorems": [
    "runs_well_formed_partial",
    "empty_formatted_insert_refuted"
   ],
   "note": "Invariant of every reachable document; formatted insertion of the empty text stores an empty run (refuted)."
  },
  {
   "property": "C09",
   "status": "partial",
   "theorems": [
    "edit_undo_redo",
    "format_undo_redo",
    "block_format_undo_redo"
   ],
   "note": "For typing, formatted typing, removing, breaking (caret and selection), character and paragraph formatting of a flat document; lists and images are in C61, table operations in C73, inserted Markdown and HTML in C80. Imports are not undoable calls: C49."
  },
  {
   "property": "C10",
   "status": "partial",
   "theorems": [
    "undo_history_partial",
    "back_and_forth",
    "stacks_separate",
    "stack_deleted",
    "undo_in_block_refuted"
   ],
   "note": "Every session of edits, undo, redo, edit blocks, clear and set_plain_text follows the history; excluded: formatting calls, undo inside an open edit block (refuted) and typing on after a replaced selection (C37)."
  },
  {
   "property": "C11",
   "status": "partial",
   "theorems": [
    "group_one_step_partial",
    "group_undo",
    "group_cancel",
    "group_one_step_refuted"
   ],
   "note": "For every nesting and any commands, as long as no group was made on another stack before; refuted otherwise (the owner of a finished group is never reset)."
  },
  {
   "property": "C12",
   "status": "partial",
   "theorems": [
    "failed_call_partial",
    "failed_image_refuted",
    "paste_failure_refuted"
   ],
   "note": "The transaction wrapped around every use case. Refuted for calls made of several use cases: inserting an image of width 0, or pasting an empty fragment, over a selection fails and deletes the selection; the open undo group is C11."
  },
  {
   "property": "C13",
   "status": "partial",
   "theorems": [
    "ids_distinct_partial",
    "ids_distinct_refuted"
   ],
   "note": "All histories of commits, rollbacks and table-restoring undos; refuted for undo by savepoint restore (relationship commands)."
  },
  {
   "property": "C14",
   "status": "partial",
   "theorems": [
    "cursors_follow",
    "cursors_in_range_partial",
    "cursors_import_refuted",
    "cursor_at_refuted"
   ],
   "note": "Every edit carries every other cursor exactly and sessions of moves and edits keep cursors inside; refuted for set_plain_text under live cursors and cursor_at beyond the end."
  },
  {
   "property": "C15",
   "status": "proved",
   "theorems": [
    "block_at_owner"
   ],
   "note": "Flat documents (one frame, no tables)."
  },
  {
   "property": "C16",
   "status": "proved",
   "theorems": [
    "find_all_exact",
    "find_nearest",
    "find_regex"
   ],
   "note": "Literal case-sensitive search of every reachable flat document, nearest match in both directions, and translation of regex ranges. Word edges and regex matching are whatever the engines return."
  },
  {
   "property": "C17",
   "status": "partial",
   "theorems": [
    "find_ignoring_case_partial",
    "find_ignoring_case_refuted"
   ],
   "note": "Exact when lower-casing maps characters one to one; refuted for U+0130, whose lower case has two characters."
  },
  {
   "property": "C18",
   "status": "partial",
   "theorems": [
    "replace_literal_partial",
    "replace_matches_partial",
    "replace_always",
    "replace_overlap_refuted",
    "replace_stale_refuted"
   ],
   "note": "Exact when matches do not overlap and stored positions are right; refuted for overlapping occurrences and after typing earlier in the document."
  },
  {
   "property": "C19",
   "status": "proved",
   "theorems": [
    "paragraph_handles",
    "fragments_cover"
   ],
   "note": "Flat documents (one frame, no tables)."
  },
  {
   "property": "C20",
   "status": "proved",
   "theorems": [
    "overlay_exact",
    "overlay_shown",
    "overlay_base",
    "overlay_stores_nothing"
   ],
   "note": "Every list of fragments (images included) and spans; every paragraph of every reachable flat document."
  },
  {
   "property": "C21",
   "status": "partial",
   "theorems": [
    "full_pass",
    "rerun_partial",
    "rerun_refuted"
   ],
   "note": "Every history of edits, formatting, list changes, undo, redo and passes, for highlighters whose answer does not depend on the user data; refuted for a paragraph split when a paragraph may be left in the default state -1."
  },
  {
   "property": "C22",
   "status": "partial",
   "theorems": [
    "poll_delivery",
    "callback_delivery_partial",
    "callback_dropped",
    "callback_order_refuted",
    "events_released_partial",
    "events_released_refuted"
   ],
   "note": "Exactly once for polling and for every callback over all interleavings; order proved for polling and for callbacks that do not edit while called, refuted otherwise; memory released by polling, refuted for programs that never poll."
  },
  {
   "property": "C23",
   "status": "partial",
   "theorems": [
    "committed_events_partial",
    "committed_events_refuted"
   ],
   "note": "All histories without a savepoint restored inside a transaction; refuted with one."
  },
  {
   "property": "C24",
   "status": "partial",
   "theorems": [
    "text_difference",
    "undo_report_partial",
    "undo_report_refuted"
   ],
   "note": "The difference used to move cursors is always right; the event is right when no paragraph is added or removed, and refuted for an empty paragraph removed at the end."
  },
  {
   "property": "C25",
   "status": "partial",
   "theorems": [
    "flow_difference",
    "flow_reports_partial",
    "flow_reports_refuted"
   ],
   "note": "The difference is always right and sent after breaks and removals; refuted for insert_text over a selection spanning paragraphs, which sends no flow event."
  },
  {
   "property": "C26",
   "status": "partial",
   "theorems": [
    "table_new_grid",
    "table_new_error",
    "table_grid_partial",
    "table_grid_exact",
    "table_grid_removal",
    "table_grid_row_refuted",
    "table_grid_column_refuted",
    "table_grid_merge_refuted"
   ],
   "note": "Every history of table operations that do not cut through a merged cell, and of edits of the cell texts; the condition is proved exact. Inserting a row or column through a merged cell, and merging over one, make overlapping cells (refuted)."
  },
  {
   "property": "C27",
   "status": "partial",
   "theorems": [
    "row_insertion",
    "column_insertion",
    "row_removal",
    "column_removal",
    "cell_merge_partial",
    "cell_merge_error",
    "cell_split",
    "cell_split_error"
   ],
   "note": "Rows, columns and splitting: every reachable table and every argument. Merging: ranges no cell from outside reaches into; the other ranges are refuted under C26."
  },
  {
   "property": "C28",
   "status": "proved",
   "theorems": [
    "selection_expands",
    "selection_cells"
   ],
   "note": "Every list of cells with positive spans and every selection; every reachable table."
  },
  {
   "property": "C29",
   "status": "partial",
   "theorems": [
    "statistics_partial",
    "word_count_exact",
    "statistics_new_refuted",
    "statistics_over_range_refuted",
    "paste_count_refuted"
   ],
   "note": "Exact after edits inside an imported document; wrong for a document never imported (block count starts at 0), after deleting past the end and after pasting one formatted paragraph."
  },
  {
   "property": "C30",
   "status": "proved",
   "theorems": [
    "marker_decodes",
    "marker_usual_form",
    "markers_differ"
   ],
   "note": "Every item number and every numbered list style, with no upper bound."
  },
  {
   "property": "C31",
   "status": "partial",
   "theorems": [
    "html_lossless",
    "html_unambiguous",
    "latex_lossless",
    "latex_unambiguous",
    "markdown_lossless_partial",
    "markdown_unambiguous",
    "markdown_export_refuted",
    "markdown_fragment_refuted"
   ],
   "note": "Every string, for the escaping functions of the three exporters; Markdown leaves the backquote, < and & unescaped (refuted)."
  },
  {
   "property": "C32",
   "status": "partial",
   "theorems": [
    "final_status_partial",
    "final_status_refuted",
    "result_kept",
    "completed_has_result",
    "worker_ends",
    "wait_refuted",
    "cancel_in_time",
    "cancel_stops_import",
    "cancel_stops_import_refuted",
    "final_event_partial",
    "final_event_refuted",
    "operations_separate",
    "operation_ids_new"
   ],
   "note": "Over all interleavings of workers, cancel calls, cleanups, edits and reads. Proved: Completed and Failed are final, results stay, Completed implies a result, a cancel before the worker last reads the flag prevents any result and gives Cancelled for good, a cancel before the last check of an import prevents its commit, workers that return get to their end, uncancelled operations send exactly one final event, identifiers are new, operations are separate. Refuted: Cancelled can become Completed; wait never returns for failed and cancelled operations; an import cancelled after its last check commits yet reports Cancelled; a cancelled operation can send two contradictory final events. Progress values and worker panics are not modelled."
  },
  {
   "property": "C33",
   "status": "partial",
   "theorems": [
    "element_ids_partial",
    "element_ids_high",
    "fragment_ids_distinct",
    "element_ids_image_refuted",
    "element_ids_mask_refuted"
   ],
   "note": "Distinct for block ids below 2^30 and text fragments; an image shares its id with the text at the same byte."
  },
  {
   "property": "C34",
   "status": "partial",
   "theorems": [
    "reorder_exact",
    "reorder_same_children_partial",
    "reorder_foreign_refuted",
    "reorder_twice_refuted"
   ],
   "note": "Exact for every list of moved ids; keeps the children when the ids are distinct children, refuted otherwise since the ids are not checked."
  },
  {
   "property": "C35",
   "status": "proved",
   "theorems": [
    "list_grouping",
    "list_items_listed"
   ],
   "note": "Every sequence of imported pieces."
  },
  {
   "property": "C36",
   "status": "proved",
   "theorems": [
    "paragraph_handles",
    "paragraph_handles_number"
   ],
   "note": "Flat documents (one frame, no tables)."
  },
  {
   "property": "C37",
   "status": "partial",
   "theorems": [
    "keystrokes_partial",
    "keystrokes_refuted",
    "undo_history_partial"
   ],
   "note": "All runs of word characters typed in time; undo_history_partial covers merged deletions; refuted after a replaced selection."
  },
  {
   "property": "C38",
   "status": "proved",
   "theorems": [
    "text_at_exact"
   ],
   "note": "Flat documents (one frame, no tables)."
  },
  {
   "property": "C39",
   "status": "partial",
   "theorems": [
    "stops_increase",
    "stops_cover",
    "move_next_partial",
    "move_previous_partial",
    "move_round_trip_partial",
    "set_position_partial",
    "block_moves",
    "block_steps_partial",
    "previous_block_refuted",
    "cursors_in_range_partial",
    "block_start_refuted",
    "movement_new_refuted"
   ],
   "note": "For any grapheme segmentation meeting four laws; word moves are C54; refuted for previous-paragraph over two empty paragraphs and for documents never imported, whose length is miscounted."
  },
  {
   "property": "C40",
   "status": "partial",
   "theorems": [
    "image_inserted_partial",
    "image_errors",
    "image_replaces_selection_partial",
    "image_formats_partial",
    "image_formats_refuted",
    "image_reading_refuted",
    "image_typing_refuted",
    "image_delete_refuted",
    "image_fragments_refuted"
   ],
   "note": "For the first image of every reachable flat document, at every position, also over a selection: one position is added and all text is kept. Refuted: formats after the image move (runs are not shifted), and reading the paragraph can panic; typing and deleting behind the image hit the wrong character, since the image and its U+FFFC are both counted; so do the fragments. Inserting a second image is not covered."
  },
  {
   "property": "C41",
   "status": "partial",
   "theorems": [
    "formatted_insertion",
    "cursor_edit",
    "inserted_format_partial",
    "inserted_weight_refuted",
    "inserted_unset_refuted"
   ],
   "note": "The inserted text and the stored format are exact; of a requested format only six attributes are honoured (weight and others dropped, unset ones become defaults: refuted). Positions past the end are clipped for the text, not for the reported position."
  },
  {
   "property": "C42",
   "status": "partial",
   "theorems": [
    "block_format_partial",
    "block_format_attributes",
    "block_format_stale_refuted",
    "block_format_caret_refuted"
   ],
   "note": "Exact when stored positions are right; refuted after typing earlier, and for a caret at the end of a paragraph."
  },
  {
   "property": "C43",
   "status": "proved",
   "theorems": [
    "typing_inserts",
    "deleting_removes",
    "break_splits",
    "formatted_insertion",
    "format_range_partial"
   ],
   "note": "Flat documents (one frame, no tables)."
  },
  {
   "property": "C44",
   "status": "partial",
   "theorems": [
    "list_order",
    "list_marker",
    "list_marker_number",
    "list_join",
    "list_join_error",
    "list_leave",
    "list_leave_error",
    "list_format",
    "create_list_partial",
    "create_list_refuted",
    "insert_list_partial",
    "insert_list_refuted"
   ],
   "note": "Order, numbering, joining, leaving and formatting for every reachable document; create_list is exact while stored positions are right (refuted after typing); insert_list adds a paragraph the exported text does not contain and where typed text is lost (refuted)."
  },
  {
   "property": "C45",
   "status": "partial",
   "theorems": [
    "table_positions_partial",
    "table_position_step_partial",
    "table_counts_partial",
    "table_positions_refuted",
    "table_counts_refuted",
    "table_removal_places_partial",
    "table_removal_places_refuted"
   ],
   "note": "Every history while the cells are empty; insertions and splits keep the counts right whatever the cells hold. Positions are wrong once a cell has text, counts are wrong after removing a cell with several paragraphs or text (refuted). Removing the whole table leaves the block count right, and positions and characters when no cell has text; otherwise they are wrong (refuted)."
  },
  {
   "property": "C46",
   "status": "proved",
   "theorems": [
    "edit_keeps_handles"
   ],
   "note": "Every cursor edit of every reachable flat document."
  },
  {
   "property": "C47",
   "status": "partial",
   "theorems": [
    "import_undone_partial",
    "import_undone_refuted",
    "cancel_stops_import"
   ],
   "note": "An import that aborts or fails restores the document of its beginning, for every schedule. Refuted in full: an edit made during the import is lost with it."
  },
  {
   "property": "C48",
   "status": "partial",
   "theorems": [
    "text_current_partial",
    "text_current_refuted"
   ],
   "note": "Proved when no read happens while an import is at work. Refuted otherwise: such a read is cached and returned after the import has completed."
  },
  {
   "property": "C49",
   "status": "partial",
   "theorems": [
    "set_text_clears_partial",
    "set_text_clears_refuted",
    "import_clears_refuted"
   ],
   "note": "set_plain_text and clear leave nothing to undo or redo. Refuted inside an open edit block, and for set_markdown and set_html, which never clear the history."
  },
  {
   "property": "C50",
   "status": "partial",
   "theorems": [
    "copy_selection_partial",
    "copy_document_partial",
    "copy_break_refuted",
    "copy_stale_refuted"
   ],
   "note": "Every selection of every document whose stored positions are right. Refuted: a break at the end of the selection is left out; after typing in an earlier paragraph the wrong text is copied. Flat documents without images."
  },
  {
   "property": "C51",
   "status": "partial",
   "theorems": [
    "merged_paragraphs",
    "paste_text_partial",
    "paste_over_selection_partial",
    "paste_plain_text_partial",
    "paste_errors",
    "paste_positions_partial",
    "paste_order_refuted",
    "paste_positions_refuted",
    "paste_added_refuted",
    "paste_count_refuted",
    "paste_failure_refuted"
   ],
   "note": "Every fragment of text paragraphs, every position and selection; several paragraphs need stored positions in order (always so after a deletion). Refuted: the order of paragraphs after typing and a break, the position, stored positions, number of added blocks and character count for one formatted paragraph, and an error that still deletes the selection. Table fragments and undo of a paste are not modelled."
  },
  {
   "property": "C52",
   "status": "partial",
   "theorems": [
    "copy_paste_partial",
    "cut_paste_partial"
   ],
   "note": "Every pair of documents with right stored positions; extra breaks only next to paragraphs copied as a whole; cutting part of one paragraph and pasting it back is exact. A break at the end of the selection is not copied (copy_break_refuted, C50)."
  },
  {
   "property": "C53",
   "status": "partial",
   "theorems": [
    "copy_formats_partial",
    "paste_attrs_partial",
    "paste_format_refuted",
    "paste_tabs_refuted",
    "paste_list_refuted"
   ],
   "note": "Exact account of the format and list of every paragraph after copy and paste. Refuted: the paragraph behind one pasted at its start loses its format, tab positions are lost, lists that differ in prefix only are merged."
  },
  {
   "property": "C54",
   "status": "partial",
   "theorems": [
    "words_of_a_document",
    "select_word_partial",
    "word_left_partial",
    "word_right_partial",
    "move_by_word_partial",
    "select_word_refuted",
    "select_word_end_refuted",
    "word_left_refuted",
    "word_right_refuted"
   ],
   "note": "For every segmentation of the text whose pieces make it up. Refuted at the end of a paragraph, at the end of a word that is not the last of its paragraph, at the start of a paragraph that begins with a word, and before a lone underscore."
  },
  {
   "property": "C55",
   "status": "partial",
   "theorems": [
    "html_reading_unique",
    "html_export_partial",
    "html_inline_partial",
    "fragment_html_partial",
    "html_mixed_lists_refuted",
    "html_merged_lists_refuted",
    "html_code_item_refuted",
    "html_color_refuted",
    "html_image_refuted",
    "fragment_link_refuted",
    "fragment_code_refuted",
    "fragment_heading_refuted"
   ],
   "note": "Every reachable flat document in which a list paragraph that follows another one is no code block and has the same kind of list, and whose colours need no escaping; every fragment without code blocks, styled headings and unmarked links. Each condition is needed (refuted otherwise). White space is taken as it is; tables and block quotes are not modelled."
  },
  {
   "property": "C56",
   "status": "partial",
   "theorems": [
    "markdown_reading_unique",
    "markdown_export_partial",
    "fragment_markdown_partial",
    "markdown_backquote_refuted",
    "markdown_target_refuted",
    "markdown_numbering_refuted",
    "markdown_empty_refuted",
    "markdown_indent_refuted",
    "markdown_fence_refuted",
    "markdown_level_refuted",
    "markdown_bold_refuted",
    "markdown_fragment_image_refuted",
    "markdown_fragment_link_refuted",
    "markdown_fragment_code_refuted",
    "markdown_fragment_indent_refuted"
   ],
   "note": "Every reachable flat document and every fragment whose paragraphs are gentle: non-empty, no backquotes, less-than signs, ampersands in text, marked pieces between word characters and not touching, plain link targets, list indentation at most 1, heading levels 1 to 6. Most of these conditions are needed (refuted otherwise); the reader is a part of CommonMark in which a source has one reading. Numbers of items are not read; tables and block quotes are not modelled."
  },
  {
   "property": "C57",
   "status": "partial",
   "theorems": [
    "markdown_import_partial",
    "import_look",
    "import_nested_refuted",
    "import_empty_item_refuted",
    "import_item_code_refuted",
    "import_heading_break_refuted",
    "import_item_break_refuted",
    "import_numbering_refuted",
    "import_two_lists_refuted",
    "import_image_refuted",
    "import_code_lines_refuted"
   ],
   "note": "Every reachable flat document and every gentle page, described by the events CommonMark parsing reports for it: no image, no mark inside the same mark, no hard break in a heading or item; an item is a paragraph (not empty in a tight list) followed by lists. Which items share a list is stated as in C35. Block quotes, tables and the parser itself (pulldown-cmark) are left out. Refuted for the other pages: nested bold, empty items, code blocks in tight items, hard breaks in headings and items, items of two paragraphs, neighbouring lists, images, and code blocks of several lines as paragraphs."
  },
  {
   "property": "C58",
   "status": "partial",
   "theorems": [
    "html_import_partial",
    "html_br_refuted",
    "html_order_refuted",
    "html_nested_order_refuted",
    "html_space_refuted",
    "html_empty_refuted",
    "html_item_paragraph_refuted",
    "html_deep_refuted",
    "html_section_refuted",
    "html_newline_refuted"
   ],
   "note": "Every reachable flat document and every gentle page, given as the tree of nodes the HTML library builds: paragraphs and code blocks are lines of text that are not empty, items are lines of text followed by lists, divisions are lines of text or blocks, at most 128 elements are nested; every inline element, attribute and style declaration is covered. White space is kept as it is in the source. Tables, block quotes and the parser itself (scraper, html5ever) are left out; numbers of line heights are read by an arbitrary function. Refuted for the other pages: line breaks, text beside blocks, white space between blocks, empty paragraphs, paragraphs in items, deep nesting, sections, and line ends in the source."
  },
  {
   "property": "C59",
   "status": "partial",
   "theorems": [
    "html_round_partial",
    "html_round_twice_partial",
    "html_round_empty_refuted",
    "html_round_lists_refuted",
    "html_round_style_refuted",
    "html_round_align_refuted",
    "html_round_height_refuted"
   ],
   "note": "Every reachable flat document whose paragraphs are not empty and which meets the conditions of C55, with line heights that are read as printed, and colours and languages without white space at their ends: the statement lists exactly what comes back (kept). Lost and so refuted: empty paragraphs, the border between neighbouring lists, list styles other than bullet and number, alignment, and the last thousandth of some line heights. Between source and nodes stands the reading relation of C55; the HTML parser itself (html5ever) is trusted to agree with it."
  },
  {
   "property": "C60",
   "status": "partial",
   "theorems": [
    "markdown_round_partial",
    "markdown_round_twice_partial",
    "markdown_round_underline_refuted",
    "markdown_round_style_refuted",
    "markdown_round_align_refuted",
    "markdown_round_lists_refuted"
   ],
   "note": "Every reachable flat document whose paragraphs are gentle in the sense of C56 and whose lists are not indented: the statement lists exactly what comes back (md_kept). The second round is proved for documents that come back gentle. Lost and so refuted: underline, list styles other than bullet and number, alignment (and all other paragraph styles), the border between neighbouring lists; see C56 for documents that are not gentle. Between source and events stand the reading relation of C56 and the pages of C57: every page that has the paragraphs the source shows is covered; the reader pulldown-cmark itself is not modelled."
  },
  {
   "property": "C61",
   "status": "partial",
   "theorems": [
    "rich_undo_all",
    "rich_call_alone",
    "rich_run_alone",
    "rich_failed_call",
    "rich_undo_mixed",
    "rich_back_and_forth",
    "paste_undo_redo_partial",
    "create_list_undo_redo",
    "insert_list_undo_redo",
    "redo_list_format_refuted",
    "redo_join_list_refuted",
    "failed_group_refuted"
   ],
   "note": "Undo is proved for every sequence of these calls that succeed, without any condition on the document. Redo is exact for every sequence of calls that make no paragraph and no list; it is proved to give the same text and formats after a paste, and the same paragraphs and lists up to the number of the new list after create_list and insert_list. Not proved: redo of several calls in a row that make paragraphs or lists other than those in C80. Refuted: a redo that names a list or paragraph made by an earlier redone call fails for ever, because restoring a snapshot does not restore the counters; a failing call over a selection leaves its group open, so nothing can be undone any more. Typing and character formats: C09, C10."
  },
  {
   "property": "C62",
   "status": "partial",
   "theorems": [
    "fragment_from_markdown_partial",
    "fragment_from_html_partial",
    "insert_markdown_partial",
    "insert_html_partial",
    "insert_markdown_text",
    "insert_html_text",
    "insert_markdown_blank_partial",
    "insert_html_blank_partial",
    "insert_markdown_line",
    "insert_html_line",
    "insert_code_refuted",
    "insert_pre_refuted",
    "insert_quote_refuted"
   ],
   "note": "Stated against set_markdown and set_html (C57, C58) on the same source, for every source without tables and block quotes; formats of characters and paragraphs without code blocks, the text with them. Several paragraphs at a caret need stored positions in order, as in C51; the cursor position after one formatted paragraph before text is refuted there. Which pasted items share a list is C53. Refuted: code blocks lose their kind and language, and the font of preformatted HTML; quoted paragraphs lose the quote."
  },
  {
   "property": "C63",
   "status": "partial",
   "theorems": [
    "latex_reading_unique",
    "latex_file_unique",
    "latex_export_partial",
    "latex_images_partial",
    "latex_code_images_partial",
    "latex_empty_paragraph_refuted",
    "latex_item_bracket_refuted",
    "latex_verbatim_refuted",
    "latex_color_refuted",
    "latex_mixed_lists_refuted",
    "latex_merged_lists_refuted",
    "latex_code_item_refuted",
    "latex_alignment_refuted",
    "latex_heading_refuted",
    "latex_image_size_refuted",
    "image_exported_twice_refuted",
    "latex_rtl_refuted"
   ],
   "note": "Stated as: the reading relation of LatexSpec.v, written from how LaTeX reads and not from the exporter, admits exactly one reading of the exported source, and it shows the document. Proved for every document without tables and block quotes whose adjacent items are of one kind, whose items do not begin with a bracket, whose code does not contain the end mark, and whose colours, links and image names have no special characters (`keeps`). Line breaks, ligatures and collapsing of spaces in the typeset page are outside. Refuted: empty paragraphs, bracketed items, code with the end mark, colours with #, mixed and merged lists, code in lists, alignment, deep headings, image sizes, the place of an image (which is exported besides it, in HTML and Markdown too), right-to-left text."
  },
  {
   "property": "C64",
   "status": "partial",
   "theorems": [
    "table_text_new",
    "table_text_new_placed",
    "table_text_readable",
    "table_text_row_insertion",
    "table_text_column_insertion",
    "table_text_row_removal",
    "table_text_column_removal",
    "table_text_merge_partial",
    "table_text_merge_refuted",
    "table_text_split",
    "table_text_removal_partial",
    "table_text_removal_refuted",
    "table_text_removal_panic_refuted",
    "table_text_typing",
    "table_text_erasing",
    "table_text_breaking_partial",
    "table_text_breaking_placed",
    "table_text_breaking_refuted"
   ],
   "note": "One table in a document with one frame; histories of operations that do not cut through a merged cell (C26). An edit of a paragraph is what it does to the rope; finding the paragraph at a cursor in a document with a table, ranges over several paragraphs, and positions after typing are left out. Refuted: merging cells drops the text of all but the first; removing a table that stands after the last paragraph, when that one has been emptied, moves text between paragraphs or panics; breaking a paragraph of a cell puts the rest of it at the end of the document (so histories break paragraphs outside the table only)."
  },
  {
   "property": "C65",
   "status": "partial",
   "theorems": [
    "modified_partial",
    "modified_format",
    "modified_stays_until_reset",
    "modified_only_when_asked",
    "modified_told_partial",
    "modified_told_refuted",
    "modified_refuted"
   ],
   "note": "The calls of SessionModel (text edits, formats, undo, redo, edit blocks, set_plain_text) with set_modified. Refuted: undo, redo and set_plain_text change the text and leave the flag; an edit changes the flag without an event."
  },
  {
   "property": "C66",
   "status": "partial",
   "theorems": [
    "resources_partial",
    "resources_again_partial",
    "resources_redo_refuted",
    "resources_undo_refuted"
   ],
   "note": "Names added once each with undo and redo, or any names without. base64 is the library's. Refuted when a name is added again and undo or redo is used: the older data is given, or the order of a hash map decides."
  },
  {
   "property": "C67",
   "status": "partial",
   "theorems": [
    "properties_partial",
    "properties_refuted"
   ],
   "note": "An edit of the text is its effect on the counts, undone exactly (C09). Refuted: undo after set_markdown or set_html writes the counts of the former text."
  },
  {
   "property": "C68",
   "status": "partial",
   "theorems": [
    "caret_format_partial",
    "stored_text_format",
    "stored_paragraph_format",
    "char_format_partial",
    "merge_char_format_partial",
    "paragraph_format_partial",
    "caret_paragraph_format",
    "line_height_partial",
    "table_format_set",
    "cell_format_set",
    "list_format_set",
    "frame_format_partial",
    "caret_format_refuted",
    "char_format_refuted",
    "paragraph_format_refuted",
    "line_height_refuted",
    "frame_format_refuted"
   ],
   "note": "Characters and paragraphs when the stored positions are right (C07). Refuted: links, tooltips and colours of a character format, tab positions of a paragraph format and the position of a frame format are dropped; some line heights lose a thousandth; at the end of a paragraph char_format() reads the next one."
  },
  {
   "property": "C69",
   "status": "partial",
   "theorems": [
    "docx_partial",
    "docx_fresh_partial",
    "docx_complete",
    "docx_cancelled",
    "docx_table_partial",
    "docx_order_refuted",
    "docx_heading_refuted",
    "docx_list_refuted",
    "docx_link_refuted",
    "docx_table_refuted",
    "docx_table_place_refuted"
   ],
   "note": "What is handed to docx-rs; the file format, widths and failures while writing are left out. Line heights up to 4. Refuted: paragraphs come in the order of stored positions, which typing and then breaking a paragraph can make wrong; heading level 0 becomes 1; lists and links are dropped; the rows below a cell over several rows and columns lack columns; a table comes after all paragraphs."
  },
  {
   "property": "C70",
   "status": "partial",
   "theorems": [
    "flow_snapshot_exact",
    "flow_snapshot_text",
    "snapshot_at_exact",
    "blocks_listed",
    "blocks_in_range_partial",
    "snapshot_at_refuted",
    "blocks_in_range_point_refuted",
    "blocks_in_range_empty_refuted"
   ],
   "note": "Documents with one frame and no highlighter; sub-frames are left out. Refuted: at the end of a paragraph snapshot_block_at_position gives that paragraph and block_at_position the next one; an empty range at an empty paragraph or at the end of one gives no paragraph; an empty paragraph inside a range is reported, one at its start is not."
  },
  {
   "property": "C71",
   "status": "partial",
   "theorems": [
    "table_edit_readable",
    "table_edit_records",
    "table_edit_typing",
    "table_edit_breaking_partial",
    "table_edit_deleting_partial",
    "table_edit_snapshot",
    "table_edit_deleting_refuted",
    "table_edit_deleting_places_refuted"
   ],
   "note": "One table in the main frame. Breaks outside the table (inside see C64), deletions inside one paragraph when none comes after the table; selections over several paragraphs are left out. Refuted: deleting after a table removes other characters than those selected, and deleting before it leaves the paragraphs after it at wrong positions."
  },
  {
   "property": "C72",
   "status": "partial",
   "theorems": [
    "frame_first_partial",
    "frame_somewhere_partial",
    "frame_typing_partial",
    "frame_snapshot",
    "frame_text_partial",
    "frame_spaced",
    "frame_typing_refuted",
    "frame_second_refuted",
    "frame_shown_refuted",
    "frame_text_refuted"
   ],
   "note": "Frames directly in the text, typing without a selection; frames inside frames are left out. The place is proved for the first frame when the stored positions are right. Refuted: text typed in a frame is counted and lost; a second frame can come before the paragraph of the cursor; after typing, a frame inserted at the end may not be shown; the plain text has the paragraphs of frames at the end."
  },
  {
   "property": "C73",
   "status": "partial",
   "theorems": [
    "table_undo_all",
    "table_call_alone",
    "table_call_fails",
    "table_back_and_forth_partial",
    "redo_row_refuted",
    "redo_split_refuted"
   ],
   "note": "One table; text is not edited between the operations. Going back and forth is proved for operations that name only tables and cells that were there at the start. Refuted: when an operation names a table or a cell made by an earlier one, undoing both and redoing makes a table or cell with another number, and redo fails from then on."
  },
  {
   "property": "C74",
   "status": "partial",
   "theorems": [
    "exported_html_table",
    "placed_one_way",
    "html_table_back_partial",
    "exported_md_table_partial",
    "exported_latex_table_partial",
    "html_table_back_refuted",
    "exported_md_table_refuted",
    "exported_latex_table_refuted",
    "latex_package_refuted",
    "exported_once_refuted"
   ],
   "note": "HTML proved for all tables. Markdown proved for text that is not code, a link or an image; LaTeX for tables with no cell over several rows; reading HTML again for tables with no merged cells. Refuted: importing merged cells (spans are ignored), code with a bar in a Markdown cell, LaTeX below a cell over two rows (wrong column, and no multirow package), and every table is exported twice. The text of a paragraph is a parameter for HTML and LaTeX; see C55 and C63 for it. One table, no lists around it."
  },
  {
   "property": "C75",
   "status": "partial",
   "theorems": [
    "copy_outside_table_partial",
    "copy_with_table_partial",
    "fragment_of_document",
    "copy_in_cell_refuted",
    "copy_some_cells_refuted",
    "paste_over_cells_refuted",
    "paste_over_cells_keeps"
   ],
   "note": "Proved for selections that meet no cell, for selections with the whole table in them (up to a break at the very end, which is never copied: C50), and for fragments of whole documents. Refuted: a selection in one cell is copied twice, a selection of some cells copies the whole table, and pasting a table over cells changes no text (for tables with a paragraph in each cell this is proved for all of them). Formats and lists are left out; so is pasting a table outside of tables."
  },
  {
   "property": "C76",
   "status": "partial",
   "theorems": [
    "find_all_with_table",
    "find_nearest_with_table",
    "find_ignoring_case_with_table",
    "find_regex_with_table",
    "replace_ranges_with_table",
    "replace_text_with_table_partial",
    "find_after_deletion_refuted",
    "replace_after_deletion_refuted"
   ],
   "note": "Proved for all documents made by inserting a table and editing around and in it, for ranges that do not overlap. Refuted after a deletion above the table when paragraphs follow it: the search reports a place where the query is not, and replacing writes over other text (the positions are wrong, C71). Overlapping places fail as in C18. Formats and images are left out."
  },
  {
   "property": "C77",
   "status": "partial",
   "theorems": [
    "delete_over_cells_partial",
    "delete_between_cells_refuted",
    "delete_cells_below_refuted",
    "type_after_delete_refuted"
   ],
   "note": "Proved for selections inside a table at the end of the document that meet some but not all of its cells, whatever the order in which the cells are stored. Refuted: deleting the position between two cells empties both, deleting cells takes text from the paragraph below the table, and after the Delete key in an empty cell what is typed there is in the next cell. Selections that begin above the table are in the model but not in the theorem; those that take the whole table away are left out."
  },
  {
   "property": "C78",
   "status": "partial",
   "theorems": [
    "inserted_bare",
    "insert_markdown_partial",
    "inserted_formats_partial",
    "insert_markdown_selection",
    "insert_markdown_before_empty_refuted",
    "inserted_count_refuted",
    "inserted_code_refuted"
   ],
   "note": "Proved for documents with right stored positions and every place but those in the paragraph before an empty last one. Refuted: there, text of the Markdown is lost; one formatted paragraph is reported as one new paragraph although there are two; code blocks are inserted as ordinary paragraphs. The Markdown is given as the elements its reader finds (C57 is about the reader). Documents with stale positions and documents with images are left out; undo and redo are in C80."
  },
  {
   "property": "C79",
   "status": "partial",
   "theorems": [
    "insert_html_partial",
    "html_formats_partial",
    "insert_html_selection",
    "html_chars_refuted",
    "html_heading_chars_refuted",
    "html_format_lost_refuted",
    "insert_html_before_empty_refuted",
    "html_count_refuted"
   ],
   "note": "Proved for documents with right stored positions and every place but those in the paragraph before an empty last one. Refuted: the count of characters misses the text after the place when the first paragraph of the HTML is merged or takes the place of the paragraph; text whose place is taken loses its paragraph format; text is lost before an empty last paragraph; one formatted paragraph inside another is reported as one new paragraph although there are two. The HTML is given as the elements its reader finds. Documents with stale positions and documents with images are left out; undo and redo are in C80."
  },
  {
   "property": "C80",
   "status": "partial",
   "theorems": [
    "insertions_undo_redo_partial",
    "insertions_walk_partial",
    "redo_inserted_list_refuted"
   ],
   "note": "Proved for sequences of breaks, paragraph formats, new lists, pastes of text, and Markdown and HTML in documents with right stored positions, and for every walk of undos and redos among them. Left out: Markdown and HTML in the paragraph before an empty last one, and pastes that leave stale positions or a wrong count (C51). Refuted for later edits: a redone insertion gives its lists new numbers, so redoing a change to such a list fails for ever. That undo gives back the document after any mix of these insertions with the calls of C61, in any document, is rich_undo_all."
  }
 ]
}