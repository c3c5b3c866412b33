{"id": "C01", "title": "Plain text round trip", "statement": "After set_plain_text(s), to_plain_text() returns s with every CRLF and lone CR turned into LF, the document has one block per line in order, every block's text is that line, and character_count/block_count report the characters without separators and the number of lines.", "quantifier": "every string s (any length, any characters, any mix of LF, CR and CRLF)", "why_tests_cant": "Line endings, empty lines, trailing newlines and multi-byte characters combine without bound; a test samples a handful of strings.", "anchors": ["crates/document_io/src/use_cases/import_plain_text_uc.rs execute", "crates/document_io/src/use_cases/export_plain_text_uc.rs execute", "crates/common/src/database/rope_helpers.rs rope_append_block, rope_insert_block_boundary, rope_flat_text_if_simple"]}
{"id": "C02", "title": "Typing inserts exactly the typed text", "statement": "insert_text at position p with no selection changes the document text to text[..p] ++ typed ++ text[p..] (p clamped to the document end, and the typed text lands in the paragraph that holds p), never changes another paragraph, never panics, and leaves the cursor just after the typed text.", "quantifier": "every flat document, every position, every typed string", "why_tests_cant": "The byte/character bookkeeping must agree for every mix of multi-byte text, empty paragraphs and positions on paragraph boundaries.", "anchors": ["crates/document_editing/src/use_cases/insert_text_uc.rs execute_insert_simple", "crates/common/src/database/rope_helpers.rs find_block_at_char_position, rope_insert_in_block", "crates/public_api/src/cursor.rs insert_text"]}
{"id": "C03", "title": "Deleting a selection removes exactly it", "statement": "delete_text over [a,b) leaves text[..a] ++ text[b..], merges the paragraphs whose separator was deleted, keeps all others, returns the deleted text, and puts the cursor at a.", "quantifier": "every flat document and every pair a, b inside it, in either order, including ranges over many paragraphs and empty paragraphs", "why_tests_cant": "The cross-paragraph path recomputes rope bytes, offset index, runs and paragraph list separately; agreement is needed for every range.", "anchors": ["crates/document_editing/src/use_cases/delete_text_uc.rs execute_delete", "crates/common/src/database/rope_helpers.rs rope_delete_in_block, rope_merge_block_range"]}
{"id": "C04", "title": "Paragraph break splits exactly one paragraph", "statement": "insert_block at p splits the paragraph holding p into the text before and the text after p, keeps every other paragraph and its order, gives both halves the paragraph format of the original, and puts the cursor at the start of the second half.", "quantifier": "every flat document and every position", "why_tests_cant": "Splits at 0, at the end, in empty paragraphs and inside multi-byte text all shift the offset index differently.", "anchors": ["crates/document_editing/src/use_cases/insert_block_uc.rs execute_insert_block", "crates/common/src/database/rope_helpers.rs rope_split_block"]}
{"id": "C05", "title": "Whole editing histories behave like edits on a plain string", "statement": "After any sequence of insert_text, delete and insert_block calls with any arguments, to_plain_text() equals the result of applying the same sequence of string splices to the initial text, and no call panics or errors.", "quantifier": "every finite history of editing calls from any imported document", "why_tests_cant": "The internal rope, the byte offset index and the paragraph tables are updated incrementally; drift after long histories is exactly what sampling misses.", "anchors": ["crates/document_editing/src/use_cases/insert_text_uc.rs", "crates/document_editing/src/use_cases/delete_text_uc.rs", "crates/document_editing/src/use_cases/insert_block_uc.rs", "crates/common/src/database/block_offset_index.rs"]}
{"id": "C06", "title": "Characters keep their formatting while text moves", "statement": "When text is inserted, deleted or split elsewhere, every surviving character keeps the character format it had; inserted plain text takes the format of the character immediately before it in the paragraph (none at the paragraph start).", "quantifier": "every paragraph text, every run layout, every edit range", "why_tests_cant": "Run shifting has boundary cases (edit on a run edge, inside a run, in a gap, over several runs) that multiply.", "anchors": ["crates/common/src/format_runs.rs shift_runs_for_insert, shift_runs_for_delete, split_runs_at, splice_range", "crates/document_editing/src/use_cases/insert_text_uc.rs", "crates/document_editing/src/use_cases/delete_text_uc.rs", "crates/document_editing/src/use_cases/insert_block_uc.rs"]}
{"id": "C07", "title": "Formatting a range formats exactly that range", "statement": "set_text_format / merge over [a,b) changes the format of exactly the characters in [a,b): each requested attribute takes the requested value, every other attribute and every character outside stays as it was.", "quantifier": "every document reachable by edits, every range, every requested format", "why_tests_cant": "Depends on positions being right after every history and on run splitting for every layout.", "anchors": ["crates/document_formatting/src/use_cases/set_text_format_uc.rs execute, build_replacement_runs, merge_dto", "crates/document_formatting/src/use_cases/merge_text_format_uc.rs", "crates/common/src/format_runs.rs splice_range"]}
{"id": "C08", "title": "Character formats stay well formed", "statement": "At every moment each paragraph's formatting is a list of non-empty, ordered, non-overlapping stretches that lie inside the paragraph text, with no two touching stretches of equal format, and every stretch edge is on a character boundary.", "quantifier": "every history of insert, delete, split, merge and format calls", "why_tests_cant": "An invariant over unbounded histories.", "anchors": ["crates/common/src/format_runs.rs debug_assert_well_formed, coalesce_in_place, splice_range", "crates/document_formatting/src/use_cases/set_text_format_uc.rs", "crates/document_editing/src/use_cases/insert_formatted_text_uc.rs"]}
{"id": "C09", "title": "Undo restores, redo reproduces", "statement": "For each editing or formatting call, undo brings back text, formatting, paragraph structure and statistics exactly as before the call, and redo brings back exactly the state after the call.", "quantifier": "every state, every call and its arguments", "why_tests_cant": "Some undo paths replay inverse edits instead of restoring a snapshot and must be exact for every state.", "anchors": ["crates/document_editing/src/use_cases/insert_text_uc.rs undo, redo", "crates/document_editing/src/use_cases/delete_text_uc.rs undo, redo", "crates/document_formatting/src/use_cases/set_text_format_uc.rs apply_inverse", "crates/document_formatting/src/use_cases/merge_text_format_uc.rs apply_inverse", "crates/common/src/database/rope_store.rs restore_without_counters"]}
{"id": "C10", "title": "Undo/redo history discipline", "statement": "Undo steps back through the calls in exact reverse order, redo steps forward again; n undos followed by n redos change nothing; a new edit discards redo and only redo; undo/redo on an empty side does nothing; stacks of different documents never affect each other.", "quantifier": "every interleaving of edits, undos and redos of any length on any number of stacks", "why_tests_cant": "It is a statement about all histories.", "anchors": ["crates/common/src/undo_redo.rs UndoRedoManager::undo, redo, add_command_to_stack, clear_stack"]}
{"id": "C11", "title": "Composite edits are one undo step", "statement": "All commands added between begin_composite and the matching end_composite (with nesting) become a single undo step; undoing it undoes all of them in reverse order; an empty composite adds nothing; composites started later on any stack work the same.", "quantifier": "every well-nested sequence of composite brackets and commands on any stacks", "why_tests_cant": "Nesting depth and stack mixes are unbounded, and state left behind by one composite may affect later ones.", "anchors": ["crates/common/src/undo_redo.rs begin_composite, end_composite, cancel_composite, CompositeCommand"]}
{"id": "C12", "title": "A failing edit changes nothing", "statement": "If an editing call returns an error, the document text, formatting, structure, statistics and undo history are as if the call had not been made.", "quantifier": "every call and every state in which it fails, at every point inside the call where it can fail", "why_tests_cant": "Failure can happen after any prefix of internal writes.", "anchors": ["crates/common/src/database/transactions.rs commit, rollback, Drop", "crates/common/src/database/rope_store.rs create_savepoint, restore_savepoint", "crates/public_api/src/cursor.rs insert_image, insert_block, insert_text"]}
{"id": "C13", "title": "Identifiers are never recycled by undo", "statement": "An identifier handed out for a block (or any entity) after an undo is different from every identifier handed out before, so a handle kept by the user never silently points at a new entity.", "quantifier": "every history of creations, undos, redos and failed transactions", "why_tests_cant": "Requires a monotone argument over the whole history.", "anchors": ["crates/common/src/database/rope_store.rs next_id, restore, restore_without_counters"]}
{"id": "C14", "title": "Cursors follow the text", "statement": "When one cursor edits, every other cursor: stays where it was if it is before the edit, keeps pointing at the same character if it is after the edited range, lands at the end of the inserted text if it was inside the deleted range; order between cursors is never inverted, and cursors stay within the document.", "quantifier": "every set of cursors, every edit (position, removed, added)", "why_tests_cant": "Boundary conditions at both edges of the edit for arbitrary sizes; all interleavings of edits.", "anchors": ["crates/public_api/src/inner.rs adjust_offset, adjust_cursors", "crates/public_api/src/cursor.rs finish_edit_ext, set_position"]}
{"id": "C15", "title": "Position to block lookup", "statement": "block_at_position(p) returns the paragraph that holds p: the returned start and length are those of the paragraph, the end position of a non-empty paragraph other than the last belongs to the following paragraph, the position of an empty paragraph belongs to it, and positions past the end give the last paragraph.", "quantifier": "every flat document (also after any edit history) and every position", "why_tests_cant": "Binary search over an incrementally shifted index must agree with the text for every layout including empty paragraphs.", "anchors": ["crates/document_inspection/src/use_cases/get_block_at_position_uc.rs", "crates/common/src/database/rope_helpers.rs find_block_at_char_position", "crates/common/src/database/block_offset_index.rs marker_at_byte"]}
{"id": "C16", "title": "Search is sound and complete", "statement": "find_all(q) with case sensitivity returns exactly the positions where q occurs in the document text, in increasing order; with whole-word it returns exactly those whose ends are word boundaries; find forwards/backwards returns the nearest one from the start position.", "quantifier": "every document text, query and start position", "why_tests_cant": "Completeness (nothing missed) ranges over all texts; overlapping and multi-byte matches included.", "anchors": ["crates/document_search/src/use_cases/search_helpers.rs find_all_matches, build_byte_to_char_map", "crates/document_search/src/use_cases/find_all_uc.rs", "crates/document_search/src/use_cases/find_text_uc.rs"]}
{"id": "C17", "title": "Case-insensitive search reports document positions", "statement": "With case-insensitive search, every reported (position, length) is a range of the document whose text equals the query ignoring case.", "quantifier": "every document text and query, including characters whose lower case has a different number of characters", "why_tests_cant": "The failing characters are rare; sampling ASCII never finds them.", "anchors": ["crates/document_search/src/use_cases/search_helpers.rs find_all_matches"]}
{"id": "C18", "title": "Replace all", "statement": "replace_text(q, r, all) replaces every (non-overlapping) occurrence of q by r, leaves every other character alone, reports the number of occurrences replaced, and keeps the statistics right.", "quantifier": "every document, query and replacement", "why_tests_cant": "Overlapping occurrences and replacements that change length interact over the whole text.", "anchors": ["crates/document_search/src/use_cases/replace_text_uc.rs execute_replace, replace_in_block, match_in_single_block"]}
{"id": "C19", "title": "Rendered fragments cover the text", "statement": "The text fragments of a block, concatenated, are exactly the block text; fragment offsets and lengths are contiguous and add up to the block length; each carries the format of its characters; each image shows up once.", "quantifier": "every block text, run layout and image layout", "why_tests_cant": "Run and image edges can coincide in any combination.", "anchors": ["crates/public_api/src/text_block.rs build_raw_fragments", "crates/common/src/format_runs.rs inline_segments_view"]}
{"id": "C20", "title": "Highlighting never alters text and overlays in order", "statement": "Merging syntax-highlight spans into fragments keeps the concatenated text, keeps fragments contiguous, and each character's displayed format is its own format overridden by the spans covering it, later spans winning per attribute.", "quantifier": "every fragment list and every (overlapping, unordered) span list", "why_tests_cant": "Span boundaries partition the text in arbitrarily many ways.", "anchors": ["crates/public_api/src/highlight.rs merge_highlight_spans, merge_overlapping_highlights, apply_highlight"]}
{"id": "C21", "title": "Incremental rehighlight equals full rehighlight", "statement": "After an edit, re-running the highlighter from the edited block until states settle leaves every block's spans and state equal to what highlighting the whole document from scratch would give.", "quantifier": "every highlighter function, every previous state table, every edited block, every document length", "why_tests_cant": "Cascade length is unbounded and depends on the user's highlighter.", "anchors": ["crates/public_api/src/highlight.rs rehighlight_from_block, rehighlight_all, rehighlight_affected"]}
{"id": "C22", "title": "Each listener gets each event exactly once, in order", "statement": "Every document event queued is delivered once, in order, to poll_events and once, in order, to the callback subscribers, whatever the interleaving of edits, polls and callback dispatches; memory for delivered events is released.", "quantifier": "every interleaving of event production, polling and dispatching", "why_tests_cant": "Schedules are unbounded.", "anchors": ["crates/public_api/src/inner.rs queue_event, drain_poll_events, take_queued_events, trim_delivered_events"]}
{"id": "C23", "title": "Rolled-back work publishes no events", "statement": "Events raised inside a transaction are published if and only if that transaction commits, exactly once and in order; a rolled back transaction publishes none, also not later.", "quantifier": "every sequence of begin, push, commit and rollback", "why_tests_cant": "All histories of transactions.", "anchors": ["crates/common/src/event.rs EventBuffer", "crates/common/src/database/transactions.rs"]}
{"id": "C24", "title": "Undo/redo change reports are accurate", "statement": "The (position, removed, added) reported after undo/redo describes the change: the old text with removed characters at position replaced by the added ones gives the new text, and the part outside is unchanged.", "quantifier": "every pair of texts before/after", "why_tests_cant": "Common prefix/suffix overlaps for repetitive texts.", "anchors": ["crates/public_api/src/document.rs compute_text_edit, emit_undo_redo_change_events"]}
{"id": "C25", "title": "Block list change reports are accurate", "statement": "The flow element insert/remove events reported after an edit transform the old list of elements into the new one.", "quantifier": "every pair of old and new element lists", "why_tests_cant": "All lists, with repeated prefixes/suffixes.", "anchors": ["crates/public_api/src/inner.rs check_flow_changed, check_block_count_changed"]}
{"id": "C26", "title": "Tables stay a proper grid", "statement": "In every table every grid slot (row < rows, column < columns) is covered by exactly one cell, whatever sequence of insert_table, insert/remove row and column, merge and split calls succeeded.", "quantifier": "every finite sequence of table operations with every argument", "why_tests_cant": "Spans crossing inserted/removed/merged lines appear only after particular histories.", "anchors": ["crates/document_editing/src/use_cases/insert_table_uc.rs", "crates/document_editing/src/use_cases/insert_table_row_uc.rs", "crates/document_editing/src/use_cases/insert_table_column_uc.rs", "crates/document_editing/src/use_cases/remove_table_row_uc.rs", "crates/document_editing/src/use_cases/remove_table_column_uc.rs", "crates/document_editing/src/use_cases/merge_table_cells_uc.rs", "crates/document_editing/src/use_cases/split_table_cell_uc.rs"]}
{"id": "C27", "title": "Row and column edits move the other cells unchanged", "statement": "Inserting a row/column leaves the cell covering each old slot the one covering the shifted slot; removing a row/column leaves the cell of every surviving slot in place.", "quantifier": "every grid and every index", "why_tests_cant": "All span configurations.", "anchors": ["crates/document_editing/src/use_cases/insert_table_row_uc.rs", "crates/document_editing/src/use_cases/remove_table_row_uc.rs"]}
{"id": "C28", "title": "Cell selections expand to whole cells, minimally", "statement": "The rectangle a cell selection expands to contains the selection, never cuts a merged cell, is the smallest such rectangle, and the computation always terminates.", "quantifier": "every set of cells with positive spans and every selection", "why_tests_cant": "Fixed-point iteration over arbitrary span layouts.", "anchors": ["crates/public_api/src/flow.rs CellRange::expand_for_spans"]}
{"id": "C29", "title": "Statistics are exact", "statement": "character_count equals the number of characters of all paragraphs and block_count the number of paragraphs, after any history of edits.", "quantifier": "every history of edits", "why_tests_cant": "Counters are updated incrementally and drift is only visible over histories.", "anchors": ["crates/document_editing/src/use_cases/insert_text_uc.rs", "crates/document_editing/src/use_cases/delete_text_uc.rs", "crates/document_editing/src/use_cases/insert_block_uc.rs", "crates/document_editing/src/use_cases/remove_table_row_uc.rs", "crates/document_inspection/src/use_cases/get_document_stats_uc.rs"]}
{"id": "C30", "title": "List markers", "statement": "The marker of item n decodes back to n: decimal, alphabetic up to 26 (then decimal), and roman numerals for every n >= 1; different items never share a marker.", "quantifier": "every item number and list style", "why_tests_cant": "Infinitely many numbers.", "anchors": ["crates/public_api/src/text_block.rs format_list_marker, to_roman_upper, to_roman_lower"]}
{"id": "C31", "title": "Exported text is escaped losslessly", "statement": "HTML, Markdown and LaTeX escaping are injective: decoding the escaped text gives the original, and the escaped text contains no unescaped active character.", "quantifier": "every string", "why_tests_cant": "Chained replacements can interfere; all strings.", "anchors": ["crates/document_io/src/use_cases/export_html_uc.rs escape_html", "crates/document_io/src/use_cases/export_markdown_uc.rs escape_markdown", "crates/document_io/src/use_cases/export_latex_uc.rs escape_latex"]}
{"id": "C32", "title": "Long operations: cancel and completion", "statement": "A finished operation's status never changes again; cancelling before the work is done prevents a result and any change; wait() returns for every operation that finishes; a Completed status implies the result can be fetched, and the result stays; one final event is sent per operation; operations have distinct identifiers and do not disturb each other.", "quantifier": "every interleaving of the worker thread, cancel calls and status/result reads", "why_tests_cant": "Races between a worker and a canceller.", "anchors": ["crates/common/src/long_operation.rs start_operation, cancel, cancel_operation, get_operation_result", "crates/public_api/src/operation.rs wait, is_done"]}
{"id": "C33", "title": "Element identifiers are unique", "statement": "Within a document, two fragments at different (block, byte offset) never share an element id and no element id equals an entity id.", "quantifier": "every block id, byte offset and entity id", "why_tests_cant": "Bit packing over the whole 64-bit range.", "anchors": ["crates/common/src/format_runs.rs synth_element_id"]}
{"id": "C34", "title": "Reordering keeps exactly the same children", "statement": "Moving ids inside a relationship yields a permutation of the same ids, with the moved ones contiguous in the given order at the requested index and the others in their old order.", "quantifier": "every list, moved set and index", "why_tests_cant": "All permutations.", "anchors": ["crates/common/src/direct_access/block/block_table.rs reorder / move_relationship_ids"]}
{"id": "C35", "title": "Imported nested lists group like the source", "statement": "Consecutive list items at the same indent and style with no intervening shallower item share one list; returning to a shallower level closes deeper lists.", "quantifier": "every sequence of list items and paragraph resets", "why_tests_cant": "Unbounded nesting/history.", "anchors": ["crates/common/src/parser_tools/list_grouper.rs"]}
{"id": "C36", "title": "Block positions shown to the user are right", "statement": "TextBlock::position / flow snapshot positions equal the sum of lengths (+1 per separator) of the blocks before, after any edit history.", "quantifier": "every history and every block", "why_tests_cant": "Depends on an incrementally maintained index.", "anchors": ["crates/common/src/database/rope_helpers.rs block_document_position, block_char_length", "crates/public_api/src/inner.rs refresh_block_positions", "crates/public_api/src/text_frame.rs snapshot_from_child_order"]}
{"id": "C37", "title": "Typing merges into one undo step without losing anything", "statement": "Consecutive keystrokes that merge into one undo step are undone together back to the state before the first one, and redone together to the state after the last.", "quantifier": "every sequence of merging insertions", "why_tests_cant": "Histories of arbitrary length.", "anchors": ["crates/document_editing/src/use_cases/insert_text_uc.rs can_merge, merge, undo, redo"]}
{"id": "C38", "title": "text_at_position", "statement": "text_at(p, n) returns exactly the n characters of the document starting at p (fewer at the end).", "quantifier": "every document, p, n", "why_tests_cant": "All cross-paragraph ranges.", "anchors": ["crates/document_inspection/src/use_cases/get_text_at_position_uc.rs"]}
{"id": "C39", "title": "Cursor movement stays in range and makes progress", "statement": "move next/previous character moves by exactly one user-perceived character, never leaves the document, and next then previous returns to the start; selected range is always ordered and in range.", "quantifier": "every document text and position, every segmentation", "why_tests_cant": "Unbounded texts and clusters.", "anchors": ["crates/public_api/src/cursor.rs resolve_move, next_grapheme, prev_grapheme, set_position"]}
{"id": "C40", "title": "Images occupy one position", "statement": "Inserting an image adds exactly one position; text before and after is unchanged and later edits at a position after the image hit the intended character.", "quantifier": "every paragraph, image positions and edits", "why_tests_cant": "Byte/character/position triple bookkeeping.", "anchors": ["crates/document_editing/src/use_cases/insert_image_uc.rs", "crates/common/src/format_runs.rs logical_offset_to_byte"]}
{"id": "C41", "title": "Formatted insertion", "statement": "insert_formatted_text inserts exactly the text, with exactly the requested format on it, and leaves all other characters' formats unchanged.", "quantifier": "every paragraph, position, text and format", "why_tests_cant": "Run layouts.", "anchors": ["crates/document_editing/src/use_cases/insert_formatted_text_uc.rs"]}
{"id": "C42", "title": "Paragraph format applies to exactly the selected paragraphs", "statement": "set_block_format over [a,b] changes exactly the paragraphs that intersect the range.", "quantifier": "every document reachable by edits and every range", "why_tests_cant": "Needs correct paragraph positions after every history.", "anchors": ["crates/document_formatting/src/use_cases/set_block_format_uc.rs execute"]}
{"id": "C43", "title": "Paragraph attributes follow their paragraphs", "statement": "List membership and paragraph format of every paragraph are unchanged by typing and character formatting; deleting across paragraphs keeps those of the first and drops those of the merged ones; a paragraph break gives both halves those of the split paragraph.", "quantifier": "every reachable document and every call", "why_tests_cant": "Structure and attributes are stored apart from the text.", "anchors": ["crates/document_editing/src/use_cases/insert_text_uc.rs", "crates/document_editing/src/use_cases/delete_text_uc.rs", "crates/document_editing/src/use_cases/insert_block_uc.rs"]}
{"id": "C44", "title": "Lists: membership and numbering", "statement": "The items of a list are its paragraphs in display order, numbered from 1 in that order; create_list makes the selected paragraphs, and no others, items of a new list; joining and leaving a list changes only that paragraph; a list disappears exactly when its last item leaves; insert_list adds one empty item that can then be typed in.", "quantifier": "every reachable document, every selection and every sequence of list calls", "why_tests_cant": "Numbering is recomputed from stored positions after any history.", "anchors": ["crates/document_editing/src/use_cases/create_list_uc.rs", "crates/document_editing/src/use_cases/add_block_to_list_uc.rs", "crates/document_editing/src/use_cases/remove_block_from_list_uc.rs", "crates/document_editing/src/use_cases/insert_list_uc.rs", "crates/document_formatting/src/use_cases/set_list_format_uc.rs", "crates/public_api/src/text_list.rs", "crates/public_api/src/text_block.rs list_item_index, build_list_info"]}
{"id": "C45", "title": "Positions and statistics around tables", "statement": "After every table operation each block of the document, in a cell or outside, is at the position where the text before it ends, and block_count and character_count are the numbers of paragraphs and characters.", "quantifier": "every table, every content of its cells and every sequence of table operations", "why_tests_cant": "Positions are re-assigned incrementally and drift only shows in later queries.", "anchors": ["crates/document_editing/src/use_cases/editing_helpers.rs reassign_cell_block_positions, compute_table_base_pos", "crates/document_editing/src/use_cases/insert_table_row_uc.rs", "crates/document_editing/src/use_cases/remove_table_row_uc.rs", "crates/document_editing/src/use_cases/merge_table_cells_uc.rs", "crates/document_editing/src/use_cases/split_table_cell_uc.rs"]}
{"id": "C46", "title": "Block handles survive edits elsewhere", "statement": "A handle to a paragraph keeps denoting that paragraph, with its text, across every edit that does not touch it. The paragraph an edit starts in keeps its handle, a split gives the second half a handle never in use, and a removal across paragraphs drops only the handles of the paragraphs it reaches into.", "quantifier": "every document, paragraph and cursor edit", "why_tests_cant": "Handles are cached by callers for arbitrarily long; which identity survives a merge or split depends on where the edit falls.", "anchors": ["crates/public_api/src/text_block.rs TextBlock", "crates/document_editing/src/use_cases/delete_text_uc.rs", "crates/document_editing/src/use_cases/insert_block_uc.rs", "crates/document_editing/src/use_cases/insert_text_uc.rs"]}
{"id": "C47", "title": "An import that does not complete changes nothing", "statement": "A Markdown or HTML import that is cancelled or fails leaves the document as the user's other edits made it.", "quantifier": "every document, every import, every point of cancellation or failure and every interleaving with edits", "why_tests_cant": "Interleavings of a worker thread with edits on the same store.", "anchors": ["crates/common/src/long_operation.rs start_operation", "crates/document_io/src/use_cases/import_markdown_uc.rs execute", "crates/document_io/src/use_cases/import_html_uc.rs execute", "crates/common/src/database/transactions.rs begin_write_transaction, rollback"]}
{"id": "C48", "title": "The text read is the current text", "statement": "to_plain_text returns the text of the document as it is at the moment of the call, whatever was read, edited or imported before.", "quantifier": "every interleaving of reads, edits and imports", "why_tests_cant": "A cache whose invalidation must be right in every interleaving.", "anchors": ["crates/public_api/src/inner.rs plain_text, invalidate_text_cache", "crates/public_api/src/document.rs to_plain_text, set_markdown, set_html"]}
{"id": "C49", "title": "Replacing the content clears the undo history", "statement": "After set_plain_text, clear, set_markdown or set_html, no edit made before can be undone or redone.", "quantifier": "every history of calls, with or without open edit blocks, and every way of replacing the content", "why_tests_cant": "All histories before the replacement.", "anchors": ["crates/public_api/src/document.rs set_plain_text, clear, set_markdown, set_html", "crates/common/src/undo_redo.rs clear_stack"]}
{"id": "C50", "title": "Copying takes exactly the selection", "statement": "The fragment made from a selection has the selected characters with their formats, paragraph by paragraph, and its plain text is the selected text.", "quantifier": "every document reachable by edits and every selection, in either direction", "why_tests_cant": "All histories before the copy and all placements of the selection's ends in paragraphs.", "anchors": ["crates/public_api/src/cursor.rs selection", "crates/public_api/src/fragment.rs from_document, from_plain_text", "crates/document_inspection/src/use_cases/extract_fragment_uc.rs execute"]}
{"id": "C51", "title": "Pasting inserts exactly the fragment", "statement": "Pasting a fragment of paragraphs inserts its characters with their formats at the position, in place of the selection, with only the breaks that separate formatted paragraphs from the text around; the returned position is the one behind it, the reported number of added blocks is right, stored positions and statistics stay right, and a paste that fails changes nothing.", "quantifier": "every document reachable by edits, every position and selection, every fragment of text paragraphs", "why_tests_cant": "Single inline pastes, first/last paragraph merging and paragraph-by-paragraph insertion take different paths through all splits of the target.", "anchors": ["crates/document_editing/src/use_cases/insert_fragment_uc.rs execute", "crates/public_api/src/cursor.rs insert_fragment"]}
{"id": "C52", "title": "Copy then paste carries the text over", "statement": "Copying a selection and pasting it, within a document or into another one, inserts the selected characters with their formats; cutting and pasting back restores the document.", "quantifier": "every pair of reachable documents, every selection and every target position", "why_tests_cant": "Composition of two paths over all documents.", "anchors": ["crates/public_api/src/cursor.rs selection, insert_fragment, remove_selected_text", "crates/document_editing/src/use_cases/insert_fragment_uc.rs", "crates/document_inspection/src/use_cases/extract_fragment_uc.rs"]}
{"id": "C53", "title": "Paragraph formats and lists travel with whole paragraphs", "statement": "A paragraph copied as a whole brings its paragraph format and its list; after a paste these apply to the pasted paragraphs and no other paragraph changes its own; pasted items of one list share a list and items of different lists do not.", "quantifier": "every reachable document, every selection, every fragment and every target position", "why_tests_cant": "Depends on where both ends of the selection and the target fall in their paragraphs.", "anchors": ["crates/document_inspection/src/use_cases/extract_fragment_uc.rs", "crates/document_editing/src/use_cases/insert_fragment_uc.rs", "crates/common/src/parser_tools/list_grouper.rs"]}
{"id": "C54", "title": "Words under and around the cursor", "statement": "Selecting the word at a position inside a word, or at its end, selects exactly that word; a move by a word to the left ends at the nearest word start before the cursor, one to the right at the nearest word end after it, and both move whenever there is such a word.", "quantifier": "every reachable document, every position and every word segmentation of the text", "why_tests_cant": "Words are found paragraph by paragraph from byte offsets; paragraph ends, underscores and the scan limit only show at particular places.", "anchors": ["crates/public_api/src/cursor.rs find_word_boundaries, select, resolve_move"]}
{"id": "C55", "title": "Exported HTML shows the document", "statement": "to_html() returns a page with one reading; that reading shows the paragraphs of the document in order, each with its kind (paragraph, heading with its level, code block with its language, item of a bulleted or numbered list) and style, and in each paragraph its characters with their look (bold, italic, underline, strike-out, monospace, link target). The HTML of a fragment shows its paragraphs in the same way.", "quantifier": "every document reachable by edits, formatting and list operations, and every fragment", "why_tests_cant": "Nesting of tags, escaping, list grouping and styles combine without bound; tests look for substrings of a few pages.", "anchors": ["crates/document_io/src/use_cases/export_html_uc.rs execute, render_blocks_html, render_inline_html", "crates/public_api/src/fragment.rs to_html, push_inline_html, block_style_attr"]}
{"id": "C56", "title": "Exported Markdown shows the document", "statement": "to_markdown() returns a source that a CommonMark reader reads in one way; that reading shows the paragraphs of the document in order, each with its kind (paragraph, heading with its level, code block with its language, item of a bulleted or numbered list), and in each paragraph its characters with their look (bold, italic, strike-out, code, link target). The Markdown of a fragment shows its paragraphs in the same way.", "quantifier": "every document reachable by edits, formatting and list operations, and every fragment", "why_tests_cant": "Marks, escapes and block prefixes interact for all texts and neighbours; tests look for substrings of a few exports.", "anchors": ["crates/document_io/src/use_cases/export_markdown_uc.rs execute, render_frame_content, render_block_line, render_inline_segments, escape_markdown", "crates/public_api/src/fragment.rs to_markdown, render_inline_markdown, escape_markdown"]}
{"id": "C57", "title": "Importing Markdown gives the document the source describes", "statement": "set_markdown(source) replaces the content by the paragraphs of the source in order, each with its kind (paragraph, heading with its level, code block with its language, item of a bulleted or numbered list with its depth), and in each paragraph the characters of the source with their look (bold, italic, strike-out, code, link target); items of one list share a list of the document, so that the numbers shown are those of the source.", "quantifier": "every document reachable by edits, formatting and list operations, and every Markdown page: any nesting of marks and lists, any number of blocks", "why_tests_cant": "Reading keeps a dozen mutable variables across events of arbitrarily nested content; tests read a handful of sources.", "anchors": ["crates/common/src/parser_tools/content_parser.rs parse_markdown, format_runs_from_spans", "crates/common/src/parser_tools/list_grouper.rs", "crates/document_io/src/use_cases/import_markdown_uc.rs import_parsed_elements"]}
{"id": "C58", "title": "Importing HTML gives the document the page describes", "statement": "set_html(source) replaces the content by the paragraphs of the page in order, each with its kind (paragraph, heading with its level, code block with its language, item of a bulleted or numbered list with its depth) and the line height, wrapping, direction and background its style declares, and in each paragraph the characters of the page with their look (bold, italic, underline, strike-out, code, link target).", "quantifier": "every document reachable by edits, formatting and list operations, and every tree of elements: any nesting, names, attributes and texts", "why_tests_cant": "The walk mixes inline and block collection recursively over arbitrary trees; tests read a handful of pages.", "anchors": ["crates/common/src/parser_tools/content_parser.rs parse_html_elements, walk_node, collect_inline_spans, parse_block_styles", "crates/document_io/src/use_cases/import_html_uc.rs execute"]}
{"id": "C59", "title": "HTML export and import round trip", "statement": "set_html(to_html()) gives back the document: the same paragraphs in order with their kinds (paragraph, heading with its level, code block with its language, item of a bulleted or numbered list), line heights, wrapping, direction and background, and the same characters with their look; doing it again changes nothing.", "quantifier": "every pair of documents reachable by edits, formatting and list operations (the one exported and the one imported into)", "why_tests_cant": "Composition of a writer and a reader over all documents; tests compare a few short texts.", "anchors": ["crates/document_io/src/use_cases/export_html_uc.rs execute", "crates/document_io/src/use_cases/import_html_uc.rs execute", "crates/common/src/parser_tools/content_parser.rs parse_html_elements, parse_block_styles"]}
{"id": "C60", "title": "Markdown export and import round trip", "statement": "set_markdown(to_markdown()) gives back the document: the same paragraphs in order with their kinds (paragraph, heading with its level, code block with its language, item of a bulleted or numbered list), and the same characters with their look (code, bold, italic, strike-out, link); doing it again changes nothing.", "quantifier": "every pair of documents reachable by edits, formatting and list operations (the one exported and the one imported into), and every way a CommonMark reader divides the source into nodes", "why_tests_cant": "Composition of a writer and a reader over all documents; tests compare a few short texts.", "anchors": ["crates/document_io/src/use_cases/export_markdown_uc.rs execute", "crates/document_io/src/use_cases/import_markdown_uc.rs execute", "crates/common/src/parser_tools/content_parser.rs parse_markdown"]}
{"id": "C61", "title": "Undo and redo of lists, pastes, images and replacements", "statement": "Each call on a cursor or on the document that makes, joins, leaves or changes a list, pastes a fragment, inserts an image or a paragraph (at a caret or over a selection), sets a paragraph format or replaces text does what it does without a history and can be undone, one undo per call, giving back the document with its lists; redo then gives back what the call had made. A call that fails leaves nothing behind, and later edits can still be undone.", "quantifier": "all documents, all sequences of such calls of any length", "why_tests_cant": "histories of calls of any length, and the numbers given to new lists and paragraphs depend on the whole history; examples that undo one call at a time never see them", "anchors": ["crates/document_editing/src/use_cases/create_list_uc.rs:CreateListUseCase", "crates/document_editing/src/use_cases/insert_fragment_uc.rs:InsertFragmentUseCase", "crates/document_editing/src/use_cases/insert_image_uc.rs:InsertImageUseCase", "crates/document_search/src/use_cases/replace_text_uc.rs:ReplaceTextUseCase", "crates/public_api/src/cursor.rs:insert_fragment, insert_image, create_list, set_list_format, add_block_to_list", "crates/common/src/database/rope_store.rs:restore_without_counters", "crates/common/src/undo_redo.rs:UndoRedoManager"]}
{"id": "C62", "title": "Inserting Markdown and HTML", "statement": "insert_markdown(source) and insert_html(source) put into the document, at the cursor or in place of the selection, what set_markdown(source) and set_html(source) would show: the same paragraphs with the same characters, looks, kinds and lists, kept apart from the text around where the content starts or ends with a heading, an item or another paragraph with a format; nothing else changes and the cursor ends behind it. A fragment made from the source has the same paragraphs.", "quantifier": "every document reachable by edits, every position and selection, every source", "why_tests_cant": "Two readers, a conversion and the paste use case with its four branches are composed; tests insert a few short sources at a few places.", "anchors": ["crates/public_api/src/fragment.rs from_markdown, from_html, parsed_elements_to_fragment, span_to_fragment_element", "crates/public_api/src/cursor.rs insert_markdown, insert_html, insert_fragment", "crates/document_editing/src/use_cases/insert_fragment_uc.rs"]}
{"id": "C63", "title": "Exported LaTeX shows the document", "statement": "The LaTeX export, with or without preamble, is a source that LaTeX reads in one way only, and what it reads is the document: every paragraph as a heading of its depth, as verbatim code, as an item of its list or as ordinary text, set with its direction, margins, line height and background; every character of the text as itself, whatever it is, under the commands for its formatting, links and images; every command used is defined by the packages the preamble loads.", "quantifier": "every document reachable by edits without tables and block quotes, every document class, every line-height formatting", "why_tests_cant": "Each of ten special characters, six styles, links, images, nested settings and the list state machine interact; tests look for substrings of the output of a few documents.", "anchors": ["crates/document_io/src/use_cases/export_latex_uc.rs execute, render_frame_latex, render_blocks_latex, render_inline_latex, render_raw_text, escape_latex", "crates/public_api/src/document.rs to_latex"]}
{"id": "C64", "title": "Table edits keep the text", "statement": "insert_table leaves every paragraph with its text and makes empty cells; inserting and removing rows and columns, merging and splitting cells leave the text of every paragraph outside the table, and of every cell that stays, as it was, and new cells are empty; no text is lost except that of removed rows, columns and tables; removing the table leaves the paragraphs around it with their texts; typing, erasing and breaking in one paragraph, in a cell or outside, changes that paragraph only; every paragraph can be read at all times.", "quantifier": "every document without tables reachable by edits, every place and size of a table, every history of table operations and edits of paragraphs of any length", "why_tests_cant": "All text lives in one rope with a byte index; each operation rewrites both by arithmetic on offsets of other paragraphs, so a mistake shows up in a different paragraph some operations later; tests check one operation on a fresh table.", "anchors": ["crates/document_editing/src/use_cases/insert_table_uc.rs, insert_table_row_uc.rs, insert_table_column_uc.rs, remove_table_row_uc.rs, remove_table_column_uc.rs, remove_table_uc.rs, merge_table_cells_uc.rs, split_table_cell_uc.rs", "crates/common/src/database/rope_helpers.rs rope_insert_table_anchor, rope_remove_table_anchor, rope_insert_block_at, rope_remove_block, top_level_frame_end_byte", "crates/public_api/src/cursor.rs insert_table, remove_table, merge_table_cells, split_table_cell"]}
{"id": "C65", "title": "The modified flag", "statement": "is_modified() is true whenever the content differs from what it was when the document was created or set_modified(false) was last called; it becomes true only by set_modified(true) or a call that asks for a change, stays true until set_modified(false), and every change of it is told by one ModificationChanged event.", "quantifier": "every session of edits, formats, edit blocks, undo, redo, set_plain_text and set_modified, of any length", "why_tests_cant": "The flag is set in some thirty places and must be set by every way of changing the content; tests check it after one insertion.", "anchors": ["crates/public_api/src/document.rs is_modified, set_modified, undo, redo, set_plain_text", "crates/public_api/src/cursor.rs finish_edit_ext, remove_selected_text, set_char_format, merge_char_format, set_block_format"]}
{"id": "C66", "title": "Resources are found by name", "statement": "resource(name) gives the data that was last added under this name and is not undone, and nothing if there is none.", "quantifier": "every history of add_resource, resource, other edits, undo, redo and clearing the history, every order in which the store lists the resources", "why_tests_cant": "A cache of names outlives undo and redo, and the fallback scans a hash map in an arbitrary order; the answer depends on the whole history.", "anchors": ["crates/public_api/src/document.rs add_resource, resource", "crates/common/src/direct_access/use_cases/create.rs UndoableCreateUseCase", "crates/common/src/direct_access/resource/resource_repository.rs snapshot, restore"]}
{"id": "C67", "title": "Document properties and undo", "statement": "title(), text_direction() and default_wrap_mode() give the value last set and not undone; setting one is one step of undo and redo, changes neither the other properties nor the text, and stats() keep describing the text.", "quantifier": "every history of setting properties, editing, replacing the content, undo, redo and clearing", "why_tests_cant": "The properties share one entity with the stored counts, and undo writes the whole entity back; tests set one property and read it.", "anchors": ["crates/public_api/src/document.rs set_title, set_text_direction, set_default_wrap_mode", "crates/common/src/direct_access/use_cases/update.rs UndoableUpdateUseCase", "crates/common/src/direct_access/document/document_table.rs update_multi"]}
{"id": "C68", "title": "Formats are read back as set", "statement": "After set_char_format, merge_char_format, set_block_format, set_frame_format, set_table_format, set_table_cell_format or set_list_format, reading the format of a character, paragraph, frame, table, cell or list in reach of the call gives every field of the format passed and, for fields not given, what it gave before; everything else reads as before. char_format() gives the format of the text at the caret.", "quantifier": "every document reached by edits, every selection, every format with any combination of fields, every position read", "why_tests_cant": "Each field passes through two conversions and a store, with its own type; tests set one or two fields and read them at one place.", "anchors": ["crates/public_api/src/convert.rs to_set_dto, to_merge_dto, From<&CharacterFormat>, From<&BlockDto>", "crates/public_api/src/cursor.rs char_format, block_format, set_char_format, merge_char_format, set_block_format", "crates/document_formatting/src/use_cases/set_table_format_uc.rs", "crates/document_formatting/src/use_cases/set_table_cell_format_uc.rs", "crates/document_formatting/src/use_cases/set_frame_format_uc.rs", "crates/document_formatting/src/use_cases/set_list_format_uc.rs", "crates/public_api/src/text_frame.rs frame_dto_to_format, table_dto_to_format, cell_dto_to_format"]}
{"id": "C69", "title": "DOCX export shows the document", "statement": "Exporting a document as DOCX writes one paragraph for each paragraph, in order, with the same characters and heading level, line spacing, list membership, links and bold, italic, underlined, struck out and monospace text. A table has the same rows and columns at the same place, and each slot shows the text of the cell over it. A cancelled export writes no file or the complete one, and reports which.", "quantifier": "every document reached by edits, every table reached by operations on it, every moment at which the export is cancelled", "why_tests_cant": "The file depends on stored positions, on the runs of every paragraph and on how merged cells overlap; tests export small fresh documents and look whether the file exists.", "anchors": ["crates/document_io/src/use_cases/export_docx_uc.rs ExportDocxUseCase::execute, render_table_docx", "crates/public_api/src/document.rs to_docx"]}
{"id": "C70", "title": "Snapshots and lookup of paragraphs describe the document", "statement": "A flow snapshot has one element for each paragraph, in order, with its position, length, text, formats and list marker; joined by line feeds its texts are the plain text. The snapshot for a position is that of the paragraph with the position, and the same paragraph that block_at_position gives. blocks lists all paragraphs, block_by_number gives the paragraph with that number, blocks_in_range the paragraphs that meet a range, in order.", "quantifier": "every document reached by edits, every position, number and range", "why_tests_cant": "Layout engines repaint from these calls after every edit; each call computes positions in its own way, from stored positions, from the rope or by adding up lengths. Tests compare a few small documents.", "anchors": ["crates/public_api/src/document.rs snapshot_flow, snapshot_block_at_position, blocks, block_by_number, blocks_in_range", "crates/public_api/src/text_frame.rs build_flow_snapshot, snapshot_from_child_order", "crates/public_api/src/text_block.rs build_block_snapshot_with_position_and_parent"]}
{"id": "C71", "title": "Editing at positions in a document with a table", "statement": "In a document with a table, positions count the paragraphs above the table, those of the cells row by row, and those below, with one place between them. Inserting text, breaking a paragraph and deleting a selection change the text at these positions and nowhere else; afterwards stored positions, lengths and counts are right, and a snapshot shows every paragraph at its place and every cell with its row, column and paragraphs.", "quantifier": "every document with a table reached by table operations and edits, every position, selection and inserted text", "why_tests_cant": "Each operation finds its paragraph in its own way, by walking the document or by stored positions of paragraphs and cells; tests edit above a fresh table.", "anchors": ["crates/document_editing/src/use_cases/insert_text_uc.rs execute_insert_simple, find_block_at_position_sequential", "crates/document_editing/src/use_cases/insert_block_uc.rs execute_insert_block", "crates/document_editing/src/use_cases/delete_text_uc.rs execute_delete", "crates/public_api/src/text_frame.rs snapshot_from_child_order, build_table_snapshot_with_positions"]}
{"id": "C72", "title": "Inserting a frame", "statement": "Inserting a frame puts a frame with one empty paragraph right after the paragraph of the cursor, changes no other paragraph and counts one paragraph more. A snapshot shows the paragraphs and frames in order, each paragraph at its position. Text typed anywhere, in a frame or not, appears there and nowhere else. The plain text has every paragraph on a line of its own, at its place.", "quantifier": "every document reached by editing a text, then inserting frames and typing at any positions", "why_tests_cant": "A frame's place is an index into the parent's order computed from stored positions, which later frames and edits make differ; tests insert one frame into a fresh text.", "anchors": ["crates/document_editing/src/use_cases/insert_frame_uc.rs find_frame_at_position, execute_insert_frame", "crates/document_editing/src/use_cases/insert_text_uc.rs execute_insert_simple", "crates/document_io/src/use_cases/export_plain_text_uc.rs execute", "crates/public_api/src/text_frame.rs snapshot_from_child_order", "crates/public_api/src/cursor.rs insert_frame"]}
{"id": "C73", "title": "Undo and redo of table operations", "statement": "Undoing a number of table operations (inserting or removing a table, adding or removing rows and columns, merging and splitting cells) gives back the document there was before, with the same table, cells and paragraphs. Going back and forth with undo and redo always leads to the document as it was after as many of the operations, and never fails while there is something to undo or redo. With a history an operation does what it does without one; an operation that fails changes neither the document nor the history.", "quantifier": "all documents with at most one table, all sequences of table operations, all sequences of undo and redo", "why_tests_cant": "redo runs the operation again and gives out new numbers; whether a later redo still finds what it names depends on the whole history", "anchors": ["crates/document_editing/src/use_cases/insert_table_uc.rs InsertTableUseCase undo, redo", "crates/document_editing/src/use_cases/insert_table_row_uc.rs undo, redo", "crates/document_editing/src/use_cases/split_table_cell_uc.rs undo, redo", "crates/public_api/src/document.rs undo, redo", "crates/public_api/src/cursor.rs insert_table, insert_table_row"]}
{"id": "C74", "title": "Tables in exported documents", "statement": "A table that is exported has, when the result is read by the rules of the format, the same number of rows and columns and every cell in its row and column with its text: in HTML with the spans of merged cells, in Markdown with the text in the first slot of a merged cell and nothing in the others, in LaTeX with the spans of merged cells and everything they need in the preamble. Each table is exported once. A table exported as HTML and imported again is the same table.", "quantifier": "all tables that table operations and typing can give, all texts and formats in their cells, the three export formats", "why_tests_cant": "which slots a merged cell hides, and where the next cell goes, depends on the whole arrangement of cells above and to the left", "anchors": ["crates/document_io/src/use_cases/export_html_uc.rs: render_table_html render_frame_html", "crates/document_io/src/use_cases/export_markdown_uc.rs: render_table_markdown", "crates/document_io/src/use_cases/export_latex_uc.rs: render_table_latex", "crates/document_io/src/use_cases/import_html_uc.rs: ImportHtmlUseCase", "crates/common/src/parser_tools/content_parser.rs: parse_table_element", "crates/public_api/src/document.rs: TextDocument::to_html TextDocument::to_markdown TextDocument::to_latex"]}
{"id": "C75", "title": "Copying and pasting in a document with a table", "statement": "The fragment of a selection in a document with a table has the selected text: the parts of the paragraphs outside the table, each said to be whole when it is, and, between them, the selected cells with their rows, columns, spans and texts. The fragment of a whole document has everything in it. A fragment with a table, pasted in a cell of a table that has room for it, puts its texts into the cells.", "quantifier": "all documents with a table and text around it, all edits that led to them, all selections", "why_tests_cant": "which paragraphs a selection meets, and in which order the blocks of the frames and cells come, depends on the whole history of the document", "anchors": ["crates/document_inspection/src/use_cases/extract_fragment_uc.rs: ExtractFragmentUseCase::execute collect_block_ids_recursive_ro extract_full_block", "crates/document_editing/src/use_cases/insert_fragment_uc.rs: try_replace_table_cells", "crates/public_api/src/cursor.rs: TextCursor::selection TextCursor::insert_fragment", "crates/public_api/src/fragment.rs: DocumentFragment::from_document DocumentFragment::to_plain_text"]}
{"id": "C76", "title": "Searching and replacing in a document with a table", "statement": "Searching a document with a table reports every place of the query in the text of the whole document, cells in reading order included, with and without case, for whole words and regular expressions, and the nearest one from a position. Replacing changes exactly the found ranges that lie inside one paragraph, in a cell or outside, says how many it changed and how many it skipped, and leaves the table, the positions of paragraphs and the counts right.", "quantifier": "all documents with a table and text around it, all edits that led to them, all queries, options and replacements", "why_tests_cant": "the text that is searched and the paragraph of a match both depend on positions stored by all earlier edits, and several replacements shift each other", "anchors": ["crates/document_search/src/use_cases/find_all_uc.rs: build_full_text FindAllUseCase::execute", "crates/document_search/src/use_cases/find_text_uc.rs: FindTextUseCase::execute", "crates/document_search/src/use_cases/replace_text_uc.rs: fetch_blocks_and_build_text find_block_for_position match_in_single_block replace_in_block execute_replace", "crates/document_search/src/use_cases/search_helpers.rs: build_full_text_via_store find_all_matches"]}
{"id": "C77", "title": "Deleting a selection over several cells", "statement": "Deleting a selection that meets several cells of a table empties these cells and nothing else: the table keeps its rows, columns and cells, every other paragraph keeps its text, and the counts of characters and paragraphs are right. What is typed afterwards is where it was typed. The Delete key at the end of a cell takes no text away from the cell before or after it.", "quantifier": "all documents with a table and text around it, all edits that led to them, all selections", "why_tests_cant": "which cells a selection meets depends on positions stored by all earlier edits, and the order in which the cells are stored depends on all earlier table operations", "anchors": ["crates/document_editing/src/use_cases/delete_text_uc.rs: execute_delete clear_block delete_char_range_in_block", "crates/common/src/database/rope_helpers.rs: rope_replace_block_content", "crates/public_api/src/cursor.rs: TextCursor::delete_char TextCursor::remove_selected_text"]}
{"id": "C78", "title": "Inserting Markdown at a position", "statement": "Inserting Markdown at a position puts its text there with its character formats, one paragraph for each of its paragraphs; paragraphs at its ends without paragraph formatting are merged into the text around them, others are kept apart by breaks. The text before and after stays, with its formats; headings, code blocks and list items are what they were in the Markdown; the counts, the position returned and the number of new paragraphs returned are right.", "quantifier": "all documents without tables and frames with right stored positions, all positions in them, all parsed Markdown", "why_tests_cant": "the paragraph that is cut, what follows it and the bytes of its text depend on the whole history of the document, and the Markdown can have any number of paragraphs of any kind", "anchors": ["crates/document_editing/src/use_cases/insert_markdown_at_position_uc.rs: execute_content_insert execute_insert_markdown parsed_block_payload", "crates/common/src/parser_tools/content_parser.rs: flatten_to_blocks ParsedBlock::is_inline_only format_runs_from_spans", "crates/common/src/database/rope_helpers.rs: rope_replace_block_content rope_insert_block_at rope_insert_in_block"]}
{"id": "C79", "title": "Inserting HTML at a position", "statement": "Inserting HTML at a position puts its text there with its character formats, one paragraph for each of its paragraphs; paragraphs at its ends without paragraph formatting are merged into the text around them, others are kept apart by breaks where there is text to keep apart. The text before and after stays, with its character and paragraph formats; headings and list items are what they were in the HTML; the counts, the position returned and the number of new paragraphs returned are right.", "quantifier": "all documents without tables and frames with right stored positions, all positions in them, all parsed HTML", "why_tests_cant": "whether the current paragraph is overwritten, cut or merged, and what the counts become, depends on the place, on the text around it and on every paragraph of the HTML", "anchors": ["crates/document_editing/src/use_cases/insert_html_at_position_uc.rs: execute_content_insert execute_insert_html parsed_block_payload", "crates/common/src/parser_tools/content_parser.rs: parse_html flatten_to_blocks ParsedBlock::is_inline_only", "crates/common/src/parser_tools/list_grouper.rs: ListGrouper", "crates/common/src/database/rope_helpers.rs: rope_replace_block_content rope_insert_block_at"]}
{"id": "C80", "title": "Undo and redo of paragraph breaks, paragraph formats, new lists, pastes and inserted Markdown and HTML", "statement": "After any number of paragraph breaks, paragraph formats, new lists, pastes, and insertions of Markdown and HTML at positions, as many undos give back the document there was: text, formats, positions, counts and lists; as many redos then give again the text, the paragraph formats, the kinds of list, the positions and the counts there were before undoing, and edits made after the insertions can be redone too.", "quantifier": "all documents without tables and frames with right stored positions, all sequences of breaks, paragraph formats, new lists, pastes of fragments of text and insertions of parsed Markdown and HTML at places in them, all histories in which no group of edits is open", "why_tests_cant": "redo runs each insertion again on a restored document in which paragraphs and lists get new numbers; whether it does the same depends on the whole sequence", "anchors": ["crates/document_editing/src/use_cases/insert_markdown_at_position_uc.rs: InsertMarkdownAtPositionUseCase::undo redo", "crates/document_editing/src/use_cases/insert_html_at_position_uc.rs: InsertHtmlAtPositionUseCase::undo redo", "crates/document_editing/src/use_cases/insert_block_uc.rs: InsertBlockUseCase::undo redo", "crates/document_editing/src/use_cases/create_list_uc.rs: CreateListUseCase::undo redo", "crates/document_editing/src/use_cases/insert_fragment_uc.rs: InsertFragmentUseCase::undo redo", "crates/document_formatting/src/use_cases/set_block_format_uc.rs: SetBlockFormatUseCase::undo redo", "crates/document_editing/src/document_editing_controller.rs: insert_markdown_at_position insert_html_at_position", "crates/common/src/undo_redo.rs: UndoRedoManager"]}
