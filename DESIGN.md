# Formal model of text-document in Coq

Everything lives in `rocq/theories` (logical name `Verif`). Source references are relative to `/repo`.

## How the files are organised

| files | what they hold |
|---|---|
| `Base.v` | characters, UTF-8 lengths, byte/char conversions, `res` (Ok / Err / Panic) |
| `*Model.v` | executable Gallina transcription of the code, without proofs; every definition cites file and lines |
| `*Spec.v` | the small independent specifications the theorems are stated against |
| `*Facts.v`, `*Theorems.v`, `Doc*.v`, … | lemmas, invariants and the proofs |
| `Props_*.v` | only the property theorems, `Print Assumptions` beneath each, and `Example`s showing that concrete non-trivial cases meet the hypotheses |

A property the code violates is stated twice: `*_refuted : exists …` is a proof, by a concrete run of the
model, that the full statement is false of the code; `*_partial` is what does hold, with the condition
spelled out. Such properties are `partial` in `MANIFEST.json`.

## Representation, and what it leaves out

* A `char` is a code point (`N`); a `String` or rope is a list of chars. Byte offsets are computed from
  the UTF-8 length of each char. Rope chunks, `Arc`, locks and copy-on-write are not modelled.
* `u32`/`i64`/`usize` are unbounded `nat`/`Z`, except where a property is about the bit layout (C33, C20).
  A document has to stay below 4 GiB for the model to apply.
* A panic (`expect`, slice out of bounds, integer underflow, `to_usize` of a negative number) is the value `Panic`;
  an `anyhow` error is `Err`. Theorems say `Ok` where the code must not fail.
* Timestamps (`updated_at`) are dropped. `im::HashMap` tables are association lists or functions.
* The editing model (`DocModel`, `HistModel`, `SessionModel`, `QueryModel`, `CursorModel`, `HighlightModel`, `ListDocModel`) covers
  flat documents: one frame, no tables and no sub-frames. Tables have their own model (`TableModel`), with
  one table among top-level blocks, and cells given by their blocks.
* `reach` (in `HistSpec`/`DocReach`) is the set of documents obtained from a new document by any
  sequence of imports, edits, formatting, list changes and so on; theorems about documents are stated for every reachable one.
* Third-party engines are arguments: regular expressions, lower-casing, word and grapheme segmentation, user
  highlighters. Their hypotheses, where there are any, are in the statement, next to an instance that meets them.
* Threads appear in `EventModel` (callers and callbacks), `TxnModel` (no isolation) and `LongOpModel` (worker threads, one atomic
  access per step). Elsewhere each public call is atomic, because it holds the document mutex.

## Plan and status per property

| id | property | model | proof | status |
|---|---|---|---|---|
| C01 | Plain text round trip | DocModel import/export over RopeModel | refinement: `wf` relates the store to a list of paragraphs; induction on the lines | proved |
| C02 | Typing inserts exactly the typed text | DocModel insert_text use case | refinement to the list of items (character or separator, with format and paragraph attributes) | proved |
| C03 | Deleting a selection removes exactly it | DocModel delete_text use case | same; the two cases inside one paragraph and across several | proved |
| C04 | Paragraph break splits exactly one paragraph | DocModel insert_block use case | same | proved |
| C05 | Whole editing histories behave like edits on a plain string | HistModel: the editing methods of a cursor | induction over the history, with the invariant `reach` | proved |
| C06 | Characters keep their formatting while text moves | FormatRunsModel + DocModel | items carry their format; every edit is a splice of items | proved |
| C07 | Formatting a range formats exactly that range | DocModel set/merge text format | pointwise on items; witness for stale positions | partial |
| C08 | Character formats stay well formed | FormatRunsModel + DocModel | invariant over every reachable document | partial |
| C09 | Undo restores, redo reproduces | SessionModel: commands with undo and redo | for each command: execute, undo, redo compared through everything that can be read | partial |
| C10 | Undo/redo history discipline | UndoModel + SessionModel | session refined to a history (list of past and future documents) | partial |
| C11 | Composite edits are one undo step | UndoModel, any commands | induction over nested groups; witness for an owner left behind | partial |
| C12 | A failing edit changes nothing | TxnModel | a dropped transaction restores the savepoint, for any body | partial |
| C13 | Identifiers are never recycled by undo | TxnModel: id counters | invariant over histories of transactions and undos; witness | partial |
| C14 | Cursors follow the text | CursorModel: all cursors of a document | each edit against a specification of where a position goes; invariant over sessions | partial |
| C15 | Position to block lookup | QueryModel block_at_position | refinement to the list of paragraphs | proved |
| C16 | Search is sound and complete | SearchModel, engines as arguments | soundness and completeness by induction on the text | proved |
| C17 | Case-insensitive search reports document positions | SearchModel, lower-casing as argument | same under a one-to-one condition; witness U+0130 | partial |
| C18 | Replace all | SearchModel replace_text | same; witnesses for overlaps and stale positions | partial |
| C19 | Rendered fragments cover the text | QueryModel fragments | concatenation and tiling | proved |
| C20 | Highlighting never alters text and overlays in order | HighlightModel merge_highlight_spans | pointwise over places, images included | proved |
| C21 | Incremental rehighlight equals full rehighlight | HighlightModel rehighlight, the highlighter as argument | invariant "all computed" over histories; witness | partial |
| C22 | Each listener gets each event exactly once, in order | EventModel: queue, poll and callback cursors | invariant over all interleavings against a log of events | partial |
| C23 | Rolled-back work publishes no events | TxnModel event buffer | invariant over histories; witness | partial |
| C24 | Undo/redo change reports are accurate | DiffModel text difference | list lemmas | partial |
| C25 | Block list change reports are accurate | DiffModel flow difference, CursorModel reports | list lemmas; witness | partial |
| C26 | Tables stay a proper grid | TableModel | every slot is covered by exactly one cell: invariant over table operations; witnesses | partial |
| C27 | Row and column edits move the other cells unchanged | TableModel | each cell followed by id through each operation | partial |
| C28 | Cell selections expand to whole cells, minimally | TableModel expand_for_spans | least fixpoint: closed, contains, minimal | proved |
| C29 | Statistics are exact | DocModel counters | part of the editing invariant; witnesses | partial |
| C30 | List markers | ListModel markers | decoding function; strong induction for roman numerals | proved |
| C31 | Exported text is escaped losslessly | EscapeModel | decoder specifications; prefix-freeness | partial |
| C32 | Long operations: cancel and completion | LongOpModel: small steps of workers and callers | invariant over all schedules; witnesses | partial |
| C33 | Element identifiers are unique | QueryModel synth_element_id, bits of N | disjoint bit fields; witnesses | partial |
| C34 | Reordering keeps exactly the same children | ListModel reorder | list induction; witnesses | partial |
| C35 | Imported nested lists group like the source | ListModel list grouper | induction over the pieces against a specification of nesting | proved |
| C36 | Block positions shown to the user are right | QueryModel + RopeModel positions | refinement | proved |
| C37 | Typing merges into one undo step without losing anything | SessionModel merge of insert commands | induction over keystrokes | partial |
| C38 | text_at_position | QueryModel text_at_position | list slicing | proved |
| C39 | Cursor movement stays in range and makes progress | CursorModel movement, segmentation as argument | laws of the segmentation as hypotheses, shown satisfiable; Unicode tables are outside the model | partial |
| C40 | Images occupy one position | ImageModel: insert_image use case and cursor call | refinement to the list of items; witnesses | partial |
| C41 | Formatted insertion | DocModel insert_formatted_text | refinement; witnesses | partial |
| C42 | Paragraph format applies to exactly the selected paragraphs | DocModel set_block_format | refinement; witnesses | partial |
| C43 | Paragraph attributes follow their paragraphs | DocModel block attributes | paragraph attributes sit in the separators of the item list | proved |
| C44 | Lists: membership and numbering | ListDocModel | refinement; witnesses | partial |
| C45 | Positions and statistics around tables | TableModel positions and counters | invariants; witnesses | partial |
| C46 | Block handles survive edits elsewhere | DocModel identifiers | identifiers before and after each edit, by case | proved |
| C47 | An import that does not complete changes nothing | LongOpModel savepoints | invariant over all schedules; witness | partial |
| C48 | The text read is the current text | LongOpModel text cache | invariant over all schedules; witness | partial |
| C49 | Replacing the content clears the undo history | SessionModel, LongOpModel | direct; witnesses | partial |
| C50 | Copying takes exactly the selection | FragmentModel (extract_fragment, selection) | items of the extracted paragraphs from the positions of a tidy document; witnesses | partial |
| C51 | Pasting inserts exactly the fragment | FragmentModel (insert_fragment) | items, runs and positions tracked through the split, the inserted paragraphs and the final renumbering; witnesses | partial |
| C52 | Copy then paste carries the text over | FragmentModel | composition of C50, C03 and C51 | partial |
| C53 | Paragraph formats and lists travel with whole paragraphs | FragmentModel, ListDocModel | paragraph attributes and list grouping tracked through the same steps; witnesses | partial |
| C54 | Words under and around the cursor | WordModel | words located from the segmentation of each paragraph; case analysis of the single pass; induction on the backward scan; witnesses | partial |
| C55 | Exported HTML shows the document | ExportModel | a grammar of HTML with one reading per source; induction on segments and blocks with the open list as state; collisions as witnesses | partial |
| C56 | Exported Markdown shows the document | MdModel | a reader of Markdown lines and a grammar of text with one reading per source; induction on segments, lines and blocks; collisions and misreadings as witnesses | partial |
| C57 | Importing Markdown gives the document the source describes | ImportModel, MdReadModel | pages as trees, their events and paragraphs; induction on the tree with an invariant on the variables of the reader, on the spans for the runs, on the blocks for the document; misread pages as witnesses | partial |
| C58 | Importing HTML gives the document the page describes | ImportModel, HtmlReadModel | trees of nodes and their paragraphs; induction on the tree with the depth left as fuel, on the declarations of a style; misread pages as witnesses | partial |
| C59 | HTML export and import round trip | ExportModel, HtmlReadModel | the reading of the exported page (C55) turned into the tree of nodes; its height is bounded by induction on the export, its styles are read declaration by declaration; then C58; what is kept is kept again | partial |
| C60 | Markdown export and import round trip | MdModel, MdReadModel | the reading of the exported source (C56), turned into a page with the same paragraphs, then C57 for every such page; what is kept is kept again | partial |
| C61 | Undo and redo of lists, pastes, images and replacements | RichModel, UndoModel | each call against the functions of the other properties; one stack entry per call, each restoring the document before it; induction on the calls for undo and for redo; C51 on the restored document for pastes; the loop of create_list and the new paragraph of insert_list with two numbers; runs that get stuck as witnesses | partial |
| C62 | Inserting Markdown and HTML | FragmentReadModel, FragmentModel, ImportModel | the fragment of parsed blocks compared with the document imported from them, paragraph by paragraph; then the theorems of C51 and C53 on pastes; code blocks and quotes as witnesses | partial |
| C63 | Exported LaTeX shows the document | LatexModel, ExportModel | a relation that reads LaTeX, proved functional by induction on the source; then the exported source of each paragraph is read back, list state by list state, and what is read is compared with the document | partial |
| C64 | Table edits keep the text | TableTextModel, TableModel, RopeModel | the rope as segments: the paragraphs before the anchor, the anchor, the paragraphs after it, the cells in any order; invariant over all operations and edits, the text of each block read from its segment; then C27 for the slots; witnesses | partial |
| C65 | The modified flag | StateModel, SessionModel | the chain of C10 with the flag; induction on the calls; witnesses | partial |
| C66 | Resources are found by name | StateModel | invariant: every store of the history consists of resources made once, the cache points to a resource of that name; a second invariant without undo; witnesses | partial |
| C67 | Document properties and undo | StateModel | the entity and the stacks linked to a history of what is seen, step by step; one witness | partial |
| C68 | Formats are read back as set | FormatApiModel | the format read anywhere in a document from where its paragraphs start; fields through both conversions; line heights in binary32 from the standard library, all thousandths up to 4; five witnesses | partial |
| C69 | DOCX export shows the document | DocxModel, TableModel | the runs of a paragraph show its characters; sorting by ascending positions keeps the order, in general it permutes; for tables an invariant on the covered slots, then induction on the columns of a row and on the rows; six witnesses | partial |
| C70 | Snapshots and lookup of paragraphs describe the document | FlowModel | the position of each paragraph from its place in the rope; induction on the paragraphs with the running position; a range tested paragraph by paragraph; three witnesses | partial |
| C71 | Editing at positions in a document with a table | TableEditModel | an invariant of edited documents: recorded places, lengths and counts against the texts; the walk that finds a position; induction on histories; two witnesses for deletions | partial |
| C72 | Inserting a frame | FrameModel | an invariant that ties the order of paragraphs and frames to the rope; the walk that finds a position; the stored positions keep their order under typing; four witnesses | partial |
| C73 | Undo and redo of table operations | TableUndoModel | injective renamings of block, cell and table numbers commute with every table operation; a session invariant says that the document is a renamed copy of the one first seen there; two witnesses | partial |
| C74 | Tables in exported documents | TableExportModel | the slots marked as covered are those of cells that start earlier; the placing rules of HTML as an inductive relation; reading pipe tables back; five witnesses | partial |
| C75 | Copying and pasting in a document with a table | XCopyModel | the gathered blocks are the paragraphs in order with those of cells twice (a sorted permutation is unique); the parts cut from a list of texts; three witnesses | partial |
| C76 | Searching and replacing in a document with a table | XSearchModel | the sorted blocks are the paragraphs in order; the place of a match is unique; replacements from the last to the first, each keeping the invariant of edits, with the shifts of positions added up; two witnesses | partial |
| C77 | Deleting a selection over several cells | XDeleteModel | a weaker representation of the texts by the rope, in which empty blocks at its end share one place, is kept by clearing and still gives all texts; the cells met are those of the touched paragraphs; three witnesses | partial |
| C78 | Inserting Markdown at a position | MdInsertModel | rewriting a block in the rope and adding blocks after it keep the representation; the new paragraphs are those of a paste; three witnesses | partial |
| C79 | Inserting HTML at a position | HtmlInsertModel | as C78, with the first part overwritten and the second part left out where the code does so; five witnesses | partial |
| C80 | Undo and redo of paragraph breaks, paragraph formats, new lists, pastes and inserted Markdown and HTML | RichModel, with inserted Markdown and HTML | a step lemma for one break, paragraph format, new list, paste or insertion in any well-formed document with right positions gives text, counts and looks as functions of those before; induction over the run, once forward and once redoing on the restored document; one witness | partial |


## What is modelled, file by file

| model | code |
|---|---|
| `FormatRunsModel` | `common/src/format_runs.rs`: runs, image anchors, splicing, splitting, merging, coalescing, apply/merge over a range |
| `RopeModel` | `common/src/database/block_offset_index.rs`, `rope_helpers.rs`: rope text, offset index, markers, boundaries, positions, table anchors |
| `DocModel` | `common/src/direct_access/block/block_table.rs` (as far as the use cases need it); `document_editing` use cases insert_text, insert_formatted_text, delete_text, insert_block; `document_formatting` use cases set/merge_text_format, set_block_format; `document_io` import/export_plain_text; `document_inspection` statistics and lookups |
| `SearchModel` | `document_search` use cases find_text, find_all, replace_text, search_helpers |
| `HistModel`, `CursorModel`, `WordModel` | `public_api/src/cursor.rs` editing, selecting, moving (by words: the Unicode word segmentation and the alphanumeric characters are parameters); adjustment of the other cursors and the events of an edit (`inner.rs`) |
| `QueryModel` | `public_api` text_block, document, inner (queries); fragments and element ids |
| `DiffModel` | text difference after undo/redo (`document.rs`), flow difference (`inner.rs`) |
| `EventModel` | `public_api/src/inner.rs` event queue, `events.rs` subscriptions |
| `TxnModel` | `common/src/database/transactions.rs`, `rope_store.rs` savepoints, `event.rs` EventBuffer, unit-of-work pattern |
| `UndoModel`, `SessionModel` | `common/src/undo_redo.rs`; undo/redo/merge of the editing and formatting use cases; the calls of a session |
| `ListModel`, `ListDocModel` | markers (`text_block.rs`), `parser_tools/list_grouper.rs`, reorder (`block_table.rs`); create/add/remove/insert list, list format |
| `EscapeModel` | escaping in export_html, export_markdown, export_latex and `fragment.rs` |
| `ExportModel` | export_html (flat documents), `fragment.rs` to_html (without tables) |
| `MdModel` | export_markdown (flat documents), `fragment.rs` to_markdown (without tables) |
| `ImportModel`, `MdReadModel`, `HtmlReadModel` | `parser_tools/content_parser.rs` parse_markdown on the events of pulldown-cmark, parse_html_elements on the nodes of scraper, format_runs_from_spans; import_markdown and import_html from parsed blocks (without quotes and tables) |
| `TableModel` | insert_table, insert/remove row/column, merge/split cells, `flow.rs` expand_for_spans, cell selections |
| `TableTextModel` | what the table use cases, remove_table and edits of one paragraph do to the rope (one table, one frame) |
| `HighlightModel` | `public_api/src/highlight.rs`, what text_block shows of it |
| `ImageModel` | `insert_image_uc.rs`, `find_segment_at_offset`, `TextCursor::insert_image` (events left out) |
| `FragmentModel` | `document_inspection` extract_fragment, `document_editing` insert_fragment (text paragraphs; tables left out), `public_api` fragment from_plain_text/from_document, cursor selection/insert_fragment |
| `FragmentReadModel` | fragments made from parsed Markdown and HTML, insert_markdown and insert_html |
| `LatexModel` | LaTeX export of flat documents |
| `RichModel` | the use cases on lists, fragments, images, replacements, paragraph breaks and formats, inserted Markdown and HTML as undo/redo commands by snapshot; the cursor calls that group them with the deletion of a selection |
| `StateModel` | the modified flag, title/direction/wrap mode with undo, resources with their cache and undo |
| `FormatApiModel` | the formats of the public API, both conversions, `char_format()` and `block_format()` at a position, f32 line heights, formats of frames, tables, cells and lists |
| `DocxModel` | DOCX export: the paragraphs, runs and cells handed to the library, cancelling |
| `FlowModel` | flow snapshots, the snapshot for a position, lists of paragraphs |
| `TableEditModel` | typing, breaks, deletions at positions and snapshots in documents with a table |
| `FrameModel` | `insert_frame`, typing, snapshots and plain text of documents with frames |
| `TableUndoModel` | undo and redo of the eight table operations, the counters of numbers |
| `TableExportModel` | tables in the HTML, Markdown and LaTeX exporters, where the table stands in the exported body, tables in the HTML importer |
| `XCopyModel` | fragments of selections and of whole documents with a table, pasting a table over cells |
| `XSearchModel` | searching and replacing in documents with a table |
| `XDeleteModel` | deleting over several cells of a table |
| `MdInsertModel` | inserting parsed Markdown at a position of a flat document |
| `HtmlInsertModel` | inserting parsed HTML at a position of a flat document |
| `LongOpModel` | `common/src/long_operation.rs`, `public_api/src/operation.rs`, the transactions of the imports, the text cache |

Not modelled: the libraries pulldown-cmark, html5ever and docx-rs, block quotes in the exporters and importers, tables in the Markdown importer,
table fragments in copy and paste, `insert_html/markdown_at_position`, blockquotes and frames inside frames, the `direct_access` CRUD
controllers and the generated repositories beyond what is listed above, the macros crate, the CLI, Unicode tables, progress reports.

## What the code does not satisfy

| theorem | property | what the code does |
|---|---|---|
| `format_range_refuted` | C07 | formatting uses stored positions that typing earlier left behind: the wrong characters are formatted |
| `merge_format_refuted` | C07 | merge_char_format drops all but five attributes |
| `empty_formatted_insert_refuted` | C08 | inserting an empty formatted text stores an empty run |
| `undo_in_block_refuted` | C10 | undo inside an open edit block undoes the step before the block |
| `group_one_step_refuted` | C11 | a group on one stack after a group on another is split into single steps |
| `failed_image_refuted` | C12 | insert_image of width 0 over a selection returns an error after deleting the selection |
| `paste_failure_refuted` | C12 | pasting an empty fragment over a selection returns an error after deleting the selection |
| `ids_distinct_refuted` | C13 | undo by savepoint restore resets the id counter: an id is handed out twice |
| `cursors_import_refuted` | C14 | set_plain_text with a shorter text leaves other cursors beyond the end |
| `cursor_at_refuted` | C14 | cursor_at takes a position beyond the end as it is |
| `find_ignoring_case_refuted` | C17 | offsets in the lower-cased text are used as document positions (U+0130) |
| `replace_overlap_refuted` | C18 | overlapping occurrences are all replaced |
| `replace_stale_refuted` | C18 | replacing uses stale stored positions: the wrong characters are replaced |
| `rerun_refuted` | C21 | a paragraph made by a split has state -1, so the paragraph after it is not highlighted again |
| `callback_order_refuted` | C22 | a callback that edits lets the next callback see events out of order |
| `events_released_refuted` | C22 | without polling, delivered events are kept for ever |
| `committed_events_refuted` | C23 | after a savepoint restored inside a transaction, events raised until the commit are lost |
| `undo_report_refuted` | C24 | undoing the addition of an empty last paragraph reports no change of content |
| `flow_reports_refuted` | C25 | insert_text over a selection spanning paragraphs sends no flow event |
| `table_grid_row_refuted` | C26 | a row inserted through a merged cell gives overlapping cells |
| `table_grid_column_refuted` | C26 | the same for a column |
| `table_grid_merge_refuted` | C26 | merging a range that cuts a merged cell gives overlapping cells |
| `statistics_new_refuted` | C29 | a new document has one paragraph and a block count of 0 |
| `statistics_over_range_refuted` | C29 | deleting past the end subtracts more characters than removed |
| `paste_count_refuted` | C29 | the same paste before some text leaves a wrong character count |
| `markdown_export_refuted` | C31 | backquote, < and & are not escaped in exported Markdown |
| `markdown_fragment_refuted` | C31 | the same in Markdown of a fragment |
| `final_status_refuted` | C32 | an operation reported as Cancelled can turn Completed |
| `wait_refuted` | C32 | wait and is_done never see the end of a failed or cancelled operation |
| `cancel_stops_import_refuted` | C32 | an import cancelled after its last check replaces the document and reports Cancelled |
| `final_event_refuted` | C32 | a cancelled operation can send Cancelled and then Completed |
| `element_ids_image_refuted` | C33 | an image and the text at the same byte share an element id |
| `element_ids_mask_refuted` | C33 | block ids 2^30 apart share element ids |
| `reorder_foreign_refuted` | C34 | ids that are no children are accepted and added |
| `reorder_twice_refuted` | C34 | an id given twice is stored twice |
| `keystrokes_refuted` | C37 | typing on after typing over a selection: redo leaves the selected text in place |
| `previous_block_refuted` | C39 | "previous paragraph" over empty paragraphs does not move, or skips |
| `block_start_refuted` | C39 | "start of the paragraph" from the end of a paragraph goes to the start of the next one |
| `movement_new_refuted` | C39 | in a document never imported the last position cannot be reached (block_count starts at 0) |
| `image_formats_refuted` | C40 | inserting an image does not move the format runs: characters after it change their format |
| `image_reading_refuted` | C40 | inserting an image before formatted text makes reading the paragraph panic (a run edge inside U+FFFC) |
| `image_typing_refuted` | C40 | text typed at the position returned by insert_image comes before the image |
| `image_delete_refuted` | C40 | deleting the position an image takes deletes nothing |
| `image_fragments_refuted` | C40 | the fragments of a paragraph show the image and its U+FFFC: one position too many |
| `inserted_weight_refuted` | C41 | insert_formatted_text drops the requested weight |
| `inserted_unset_refuted` | C41 | attributes not requested are stored as defaults instead of left open |
| `block_format_stale_refuted` | C42 | paragraph formatting uses stale stored positions |
| `block_format_caret_refuted` | C42 | with the caret at the end of a paragraph nothing or another paragraph is formatted |
| `create_list_refuted` | C44 | create_list uses stale stored positions: the wrong paragraphs become items |
| `insert_list_refuted` | C44 | the new item is not in the rope: text typed in it is counted but lost |
| `table_positions_refuted` | C45 | positions around a table are wrong once a cell has text |
| `table_counts_refuted` | C45 | removing a row with a cell of several paragraphs or text leaves the counters too high |
| `table_removal_places_refuted` | C45 | remove_table moves the blocks after the table by the number of cell blocks only and does not change Document.character_count (remove_table_uc.rs:150-187): with text in a cell, the stored positions of the following blocks and the character count keep counting it after the table is gone. |
| `import_undone_refuted` | C47 | rolling back an import also removes edits made meanwhile |
| `text_current_refuted` | C48 | a read during an import is cached and returned after the import completed |
| `set_text_clears_refuted` | C49 | set_plain_text inside an edit block: the edits before it return to the history when the block ends |
| `import_clears_refuted` | C49 | set_markdown and set_html do not clear the undo history, which the documentation promises |
| `copy_break_refuted` | C50 | a paragraph break at the end of the selection is not copied |
| `copy_stale_refuted` | C50 | copying uses stale stored positions: after typing in an earlier paragraph the wrong text is copied |
| `paste_order_refuted` | C51 | typing and a break leave stored positions out of order; pasting several paragraphs then puts paragraphs in different orders in the text and in the list of paragraphs |
| `paste_positions_refuted` | C51 | pasting one formatted paragraph returns a wrong position and leaves wrong stored positions |
| `paste_added_refuted` | C51 | the same paste reports one added block and adds two |
| `paste_count_refuted` | C51 | the same paste before some text leaves a wrong character count |
| `paste_failure_refuted` | C51 | pasting an empty fragment over a selection returns an error after deleting the selection |
| `paste_format_refuted` | C53 | the text behind a paragraph pasted at the start of a paragraph loses its paragraph format |
| `paste_tabs_refuted` | C53 | tab positions do not count as paragraph formatting and are lost by a paste |
| `paste_list_refuted` | C53 | pasted items of lists that differ only in their prefix end up in one list |
| `select_word_refuted` | C54 | select the word with the cursor at the end of a paragraph selects the first word of the next paragraph |
| `select_word_end_refuted` | C54 | at the end of a word nothing is selected, unless it is the last word of its paragraph |
| `word_left_refuted` | C54 | the move to the previous word does not move at the start of a paragraph that begins with a word |
| `word_right_refuted` | C54 | the move to the next word does not move before an underscore that stands alone |
| `html_mixed_lists_refuted` | C55 | in exported HTML a numbered item that follows a bulleted one becomes a bulleted one |
| `html_merged_lists_refuted` | C55 | in exported HTML two numbered lists that follow each other become one: items 1 and 1 are shown as 1 and 2 |
| `html_code_item_refuted` | C55 | in exported HTML a code block of a list that follows a list item becomes a plain item |
| `html_color_refuted` | C55 | background colours are not escaped in exported HTML: they can close the tag and add paragraphs |
| `html_image_refuted` | C55 | the link around an image is left out of exported HTML |
| `fragment_link_refuted` | C55 | the HTML of a fragment leaves out a link that has a target but no anchor mark; the HTML of the document has it |
| `fragment_code_refuted` | C55 | the HTML of a fragment shows a code block as a plain paragraph |
| `fragment_heading_refuted` | C55 | the HTML of a fragment leaves out the alignment of headings |
| `markdown_backquote_refuted` | C56 | backquotes in text are not escaped in exported Markdown: typed "`a`" and code "a" give the same source |
| `markdown_target_refuted` | C56 | link targets are not escaped in exported Markdown: one link can be exported like two |
| `markdown_numbering_refuted` | C56 | exported Markdown numbers a list again from 1 after an intervening plain paragraph, although the next item is number 2 |
| `markdown_empty_refuted` | C56 | empty paragraphs disappear in exported Markdown |
| `markdown_indent_refuted` | C56 | an item of a list at indentation 2 is exported with four spaces and read as code |
| `markdown_fence_refuted` | C56 | three backquotes in a code block end it in exported Markdown |
| `markdown_level_refuted` | C56 | a heading of level 0 is a level-1 heading in exported HTML and no heading in exported Markdown |
| `markdown_bold_refuted` | C56 | bold text that ends with punctuation before a letter is exported with closing marks that cannot close |
| `markdown_fragment_image_refuted` | C56 | the Markdown of a fragment escapes the image syntax: an image becomes the text "![x](x)" |
| `markdown_fragment_link_refuted` | C56 | the Markdown of a fragment drops the link of linked code |
| `markdown_fragment_code_refuted` | C56 | the Markdown of a fragment shows a code block as a plain paragraph |
| `markdown_fragment_indent_refuted` | C56 | a paragraph at indentation 2 in a fragment is exported with four spaces and read as code |
| `import_nested_refuted` | C57 | set_markdown: bold ends where a bold part inside it ends |
| `import_empty_item_refuted` | C57 | set_markdown drops empty list items, and later items get their numbers |
| `import_item_code_refuted` | C57 | set_markdown merges the text of a tight list item into the code block that follows it in the item |
| `import_heading_break_refuted` | C57 | set_markdown turns the part of a heading after a hard break into an ordinary paragraph |
| `import_item_break_refuted` | C57 | set_markdown makes another list item of the part of an item after a hard break |
| `import_numbering_refuted` | C57 | set_markdown starts numbering again after an item of two paragraphs |
| `import_two_lists_refuted` | C57 | set_markdown reads two lists one after the other as one, and goes on numbering |
| `import_image_refuted` | C57 | set_markdown replaces an image by its alternative text |
| `import_code_lines_refuted` | C57 | set_markdown makes one paragraph with newline characters of a code block of several lines |
| `html_br_refuted` | C58 | set_html drops a line break in a paragraph and joins the words around it |
| `html_order_refuted` | C58 | set_html puts text outside blocks after all blocks |
| `html_nested_order_refuted` | C58 | set_html puts the text of a division before the blocks in it |
| `html_space_refuted` | C58 | set_html makes a paragraph of the white space between blocks |
| `html_empty_refuted` | C58 | set_html drops empty paragraphs |
| `html_item_paragraph_refuted` | C58 | set_html: a list item whose text is in a paragraph element is not an item |
| `html_deep_refuted` | C58 | set_html drops text inside more than 256 elements |
| `html_section_refuted` | C58 | set_html joins the texts of two sections into one paragraph |
| `html_newline_refuted` | C58 | set_html keeps line ends of the source as newline characters inside a paragraph |
| `html_round_empty_refuted` | C59 | to_html then set_html drops empty paragraphs |
| `html_round_lists_refuted` | C59 | to_html then set_html joins two neighbouring lists, so the second goes on counting |
| `html_round_style_refuted` | C59 | to_html then set_html turns lettered and roman lists into numbered ones |
| `html_round_align_refuted` | C59 | to_html writes text-align, set_html does not read it |
| `html_round_height_refuted` | C59 | a line height of 1.001 written by to_html is read back as 1.000 (truncated instead of rounded) |
| `markdown_round_underline_refuted` | C60 | to_markdown drops underline |
| `markdown_round_style_refuted` | C60 | to_markdown writes lettered and roman lists as numbered ones |
| `markdown_round_align_refuted` | C60 | to_markdown drops alignment |
| `markdown_round_lists_refuted` | C60 | to_markdown then set_markdown joins two neighbouring lists, so the second goes on counting |
| `redo_list_format_refuted` | C61 | Redo of create_list numbers the list anew (restoring a snapshot leaves the counters), so the redo of a later set_list_format on that list fails, and so does every further redo: the rest of the redo history is unreachable. |
| `redo_join_list_refuted` | C61 | The same for a paragraph: split a paragraph, add the new one to a list, undo twice, redo twice: the second redo looks for the old paragraph number and fails for ever. |
| `failed_group_refuted` | C61 | TextCursor::insert_image and insert_fragment return early on an error after begin_composite and the deletion of the selection: the text is gone, the group stays open, and no later edit can be undone. |
| `insert_code_refuted` | C62 | DocumentFragment::from_markdown and from_html set is_code_block and code_language to None: a code block inserted with insert_markdown becomes a plain paragraph. |
| `insert_pre_refuted` | C62 | The text of a pre element inserted with insert_html also loses the monospace font, which span_to_fragment_element only sets for code spans. |
| `insert_quote_refuted` | C62 | parsed_elements_to_fragment ignores the depth of block quotes: a quoted paragraph is inserted as an ordinary one. |
| `latex_empty_paragraph_refuted` | C63 | render_blocks_latex joins blocks with an empty line, and LaTeX reads any number of them as one paragraph break: an empty paragraph leaves no trace in the exported LaTeX. |
| `latex_item_bracket_refuted` | C63 | `\item ` is followed directly by the text: an item "[x] y" is read as the item " y" with the label "x". |
| `latex_verbatim_refuted` | C63 | Code blocks are written verbatim between \begin{verbatim} and \end{verbatim} without a check: code that contains the end mark gives a source LaTeX rejects. |
| `latex_color_refuted` | C63 | A background colour is copied into \colorbox{...} unescaped and without a colour model: "#ff0000" gives a source LaTeX rejects. |
| `latex_mixed_lists_refuted` | C63 | The exporter opens a list environment by the kind of the first item only: a numbered item behind a bullet is exported as a bullet. |
| `latex_merged_lists_refuted` | C63 | Two numbered lists that follow each other are exported as one environment: 1, 1 becomes 1, 2. |
| `latex_code_item_refuted` | C63 | A code block that is an item of a list is exported as plain item text. |
| `latex_alignment_refuted` | C63 | Paragraph alignment is not exported to LaTeX. |
| `latex_heading_refuted` | C63 | Heading levels 4, 5 and 6 are all exported as \paragraph. |
| `latex_image_size_refuted` | C63 | Image sizes are not exported to LaTeX. |
| `image_exported_twice_refuted` | C63 | insert_image puts U+FFFC into the text and the segments of a paragraph keep it: LaTeX, HTML and Markdown exports contain that character besides the image. |
| `latex_rtl_refuted` | C63 | Right-to-left paragraphs are wrapped in \RL{...}, which no package of the generated preamble defines: the file does not compile. |
| `table_text_merge_refuted` | C64 | merge_table_cells removes the blocks of all merged cells but the first: their text is in no cell any more. |
| `table_text_removal_refuted` | C64 | rope_remove_table_anchor, when the anchor is the last entry, shifts all offsets from the byte before the anchor on; an empty last paragraph starts at that byte, so its start moves back by 4: after remove_table "abcdef" and "" read "ab" and "def\n". |
| `table_text_removal_panic_refuted` | C64 | The same removal panics (byte offset underflow) when that empty paragraph starts before byte 4. |
| `table_text_breaking_refuted` | C64 | find_owner_frame (insert_block_uc.rs:174-198) follows child_order, which does not lead to the frames of cells, so the main frame is taken: insert_block in a table cell moves the rest of the paragraph to the end of the document. |
| `modified_told_refuted` | C65 | Edits set the modified flag directly; ModificationChanged is sent by set_modified only (document.rs:862-871): a listener does not learn that a document became modified. |
| `modified_refuted` | C65 | undo, redo, set_plain_text and clear never set the flag: after set_modified(false) they change the text and is_modified() stays false. |
| `resources_redo_refuted` | C66 | resource() caches name to id and keeps the entry while the id exists: adding a name twice, undoing, asking and redoing leaves the cache at the first resource, whose data is given instead of the second's. |
| `resources_undo_refuted` | C66 | With a name added three times and the last addition undone, the cache entry is stale and resource() takes the first match of get_all, in hash map order. |
| `properties_refuted` | C67 | set_title and the like write the whole Document entity and their undo writes the former one; set_markdown and set_html keep the undo stack, so undo afterwards restores character_count and block_count of the text that was replaced. |
| `caret_format_refuted` | C68 | At the end of a paragraph with text get_block_at_position answers with the next paragraph, so char_format() there gives the format of the next paragraph's first character. |
| `char_format_refuted` | C68 | TextFormat::to_set_dto passes on 12 of the 19 fields: anchor_href, anchor_names, is_anchor, tooltip and the three colours are dropped without an error. |
| `paragraph_format_refuted` | C68 | BlockFormat::to_set_dto has no tab_positions, so set_block_format ignores them. |
| `line_height_refuted` | C68 | The line height is stored as (v * 1000.0) as i64, which cuts: 1.004 has the product 1003.99994 and is read back as 1.003. |
| `frame_format_refuted` | C68 | FrameFormat::to_set_dto has no position, so set_frame_format ignores it. |
| `docx_order_refuted` | C69 | export_docx sorts the blocks of a frame by document_position. insert_text does not move the positions of later paragraphs, so after typing six characters in the first of two paragraphs and breaking it, the new paragraph is written after the one that follows it. |
| `docx_heading_refuted` | C69 | The style is chosen with level.clamp(1, 6): a paragraph whose heading level was set to 0 is written as Heading1. |
| `docx_list_refuted` | C69 | The exporter never reads the list of a block: list items are written as plain paragraphs. |
| `docx_link_refuted` | C69 | The exporter never reads anchor_href: the text of a link is written without its target. |
| `docx_table_refuted` | C69 | The cell that continues a vertical merge has no grid_span (export_docx_uc.rs:323-325): below a cell of two rows and two columns the row is one column short and the cells after it move left. |
| `docx_table_place_refuted` | C69 | Frames are written one after the other and the frame that anchors a table comes after the main frame, so a table between two paragraphs is written after both. |
| `snapshot_at_refuted` | C70 | snapshot_block_at_position takes the first paragraph with start <= position <= end, block_at_position goes by the rope and takes the next one at the end of a paragraph: an incremental layout that uses both repaints the wrong paragraph. |
| `blocks_in_range_point_refuted` | C70 | With length 0, document.rs:640-642 asks for start <= position < end: at the end of a paragraph, and anywhere in an empty document, no paragraph is returned. |
| `blocks_in_range_empty_refuted` | C70 | With length > 0 an empty paragraph counts when start < stop and position < end, so it is returned when the range starts before it and left out when the range starts at it. |
| `table_edit_deleting_refuted` | C71 | delete_text first rewrites the positions of the paragraphs outside the table as if there were no cells (delete_text_uc.rs:179-208), so that a selection after a table is taken as many places too far as the table is long: with one empty cell, selecting c deletes d. |
| `table_edit_deleting_places_refuted` | C71 | The same refresh writes these positions to the store: after a deletion above a table the paragraph below it starts where the first cell starts. |
| `frame_typing_refuted` | C72 | The paragraph of a nested frame is not registered in the rope (insert_frame_uc.rs:180-193), so rope_insert_in_block finds no place for it and returns without inserting: the character typed is counted in character_count and lost. |
| `frame_second_refuted` | C72 | The index among the paragraphs is used as an index into child_order (insert_frame_uc.rs:113-117), which also has the frames, and the stored positions do not count the paragraphs of frames. |
| `frame_shown_refuted` | C72 | The frame is looked for by stored positions. After typing they are too low, the end of the text is past the end of the main frame, and the new frame becomes a top-level one that no child_order mentions: nothing shows it. |
| `frame_text_refuted` | C72 | With more than one frame, export_plain_text writes the frames one after the other: the paragraph of a frame between two paragraphs is written after both. |
| `redo_row_refuted` | C73 | redo carries out the request again. A table made again gets a new number (snapshots do not take the counters back, rope_store.rs:101-115), and the request of the row still names the old one (insert_table_row_uc.rs:256-268): "Table not found", for every later redo. |
| `redo_split_refuted` | C73 | The same with the cells of a new row: made again they have new numbers, and splitting the merged cell names the old one. |
| `html_table_back_refuted` | C74 | The HTML importer does not read colspan and rowspan (content_parser.rs:615-666) and takes the number of columns from the first row: after merging two cells of the first row, the table that comes back has a column less than its other rows have cells. |
| `exported_md_table_refuted` | C74 | Text in a monospace font is exported between backticks without escaping (export_markdown_uc.rs:363-368). A bar in it ends the cell, so the header has more cells than the line of dashes and the result is no table. |
| `exported_latex_table_refuted` | C74 | Slots below a cell that takes several rows are left out of the rows below (export_latex_uc.rs:438-444); in LaTeX they have to be there as empty cells. The next cell stands one column too far left. |
| `latex_package_refuted` | C74 | \\multirow is used (export_latex_uc.rs:450-491), but the preamble does not load the package (export_latex_uc.rs:99-112). |
| `exported_once_refuted` | C74 | The exporters go over all frames of the document except those of cells (export_html_uc.rs:81-102). The frame of a table is one of these, and it is rendered already as part of the main frame, where it stands in the order of children: every table is exported twice. Block quotes are frames too. |
| `copy_in_cell_refuted` | C75 | extract_fragment goes over all frames of the document (extract_fragment_uc.rs:100-104). The main frame gives the blocks of the cells, and the frames of the cells, which are frames of the document too, give them again. Text selected in one cell is copied twice. |
| `copy_some_cells_refuted` | C75 | When a selection meets several cells, the whole table is copied (extract_fragment_uc.rs:158-219), whatever cells are selected. |
| `paste_over_cells_refuted` | C75 | try_replace_table_cells (insert_fragment_uc.rs:317-366) writes the formats of the pasted paragraphs but not their text: the cells keep the text they had. |
| `find_after_deletion_refuted` | C76 | delete_text writes positions that leave out the table (delete_text_uc.rs:179-208). Afterwards find_all sorts the blocks by these positions (find_all_uc.rs:51), so that a paragraph below the table comes before the cells and the reported places are wrong. |
| `replace_after_deletion_refuted` | C76 | After the same deletion replace_text looks for the block of a match by the stored positions (replace_text_uc.rs:76-91) and writes the replacement into another paragraph, over text that did not match. |
| `delete_between_cells_refuted` | C77 | delete_text empties every cell with a block the range meets, its ends included (delete_text_uc.rs:262-305). The Delete key at the end of a cell (cursor.rs:1557-1599) deletes the one position between two cells: both cells are emptied. The text returned as deleted is always empty (delete_text_uc.rs:583-589). |
| `delete_cells_below_refuted` | C77 | delete_text first gives the paragraphs of the main frame positions that leave out the table (delete_text_uc.rs:179-208). A paragraph below the table then has the position of a cell, and a part of it is deleted with the cell (382-438). |
| `type_after_delete_refuted` | C77 | rope_replace_block_content takes the end of a block for the end of the rope when the last block is empty (rope_helpers.rs:837-887: end < total is false), and removes the line feed between the two. Both blocks are then at the same byte, and text typed in the first one is read as that of the last. |
| `insert_markdown_before_empty_refuted` | C78 | execute_content_insert rewrites the current paragraph with rope_replace_block_content, which takes the block before an empty last block for the last one (rope_helpers.rs:837-887) and moves the last block to the end of the old text. What is merged into the first part is then read as part of no paragraph. |
| `inserted_count_refuted` | C78 | For one formatted paragraph the command makes two paragraphs (the new one and the second part of the current one) but returns blocks_added: 1 (insert_markdown_at_position_uc.rs:634). |
| `inserted_code_refuted` | C78 | Inserted paragraphs get fmt_is_code_block: None and fmt_code_language: None (insert_markdown_at_position_uc.rs:349-350, 552-553), although the parsed paragraph says it is a code block, and import_markdown keeps it. |
| `html_chars_refuted` | C79 | insert_html_at_position_uc.rs:342-348 starts the number of new characters with the change of length of the current paragraph, which loses the text after the place; that text is put into a new paragraph but never counted (454-462 count only the merged last paragraph). The Markdown command starts with the length of the first paragraph and is right. |
| `html_heading_chars_refuted` | C79 | The same for one formatted paragraph at the start of a paragraph: insert_html_at_position_uc.rs:733-754 adds head_delta only. |
| `html_format_lost_refuted` | C79 | When a formatted paragraph is inserted at the start of a paragraph, the existing block is reused for the new text (insert_html_at_position_uc.rs:645-654: alignment, margins and code block flag stay) and the text that was there gets a block with no list and no format (471-561, 679-701). |
| `insert_html_before_empty_refuted` | C79 | As insert_markdown_before_empty_refuted. |
| `html_count_refuted` | C79 | As inserted_count_refuted (insert_html_at_position_uc.rs:919). |
| `redo_inserted_list_refuted` | C80 | As redo_list_format_refuted: redo executes the insertion again (insert_markdown_at_position_uc.rs:701-716), the list gets a new id because counters are not restored, and set_list_format's redo looks for the old id. |


## Trusted base

* Coq 8.16.1's kernel (`coqchk` re-checks the compiled files), including `vm_compute`, used for witnesses and examples only.
* `Print Assumptions` beneath every theorem in `Props_*.v` answers "Closed under the global context": no theorem uses an axiom.
* The whole-library context listed by the checker contains seven parameters of the standard library's
  `Coq.ssr.ssrunder` (`Under_rel.Under_rel`, `Under_rel.Under_relE`, `Under_rel.Under_rel_from_rel`, `Under_rel.under_rel_done`,
  `Under_rel.Over_rel`, `Under_rel.over_rel`, `Under_rel.over_rel_done`), fields of a module signature loaded with the standard library.
  No theorem depends on them.
* Only the standard library is used.
* The faithfulness of the hand transcription: each definition cites the lines it models and says where it simplifies.
  `seeded/LOG.jsonl` records realistic wrong edits of the model and the theorems that reject them.
