# Formal model of benker (Rocq/Coq 8.16.1)

Source: `/repo` (python package `benker`), read as text only; nothing was built or run.
All Coq files are in `rocq/theories` (logical prefix `Verif`).

## Layout

| files | content |
|---|---|
| `Base.v` | exceptions as values (`result`), dictionaries, decimal printing, small list helpers |
| `M_*.v` | the model: one Gallina function per python function, with file/line citations, no proofs |
| `S_*.v` | specifications, written without the helpers of the model |
| `P_*.v` | proofs |
| `T_*.v` | property theorems only (`exact lemma.`), `Print Assumptions`, examples showing the hypotheses are met |

The names of the theorems begin with the id of the property. A suffix `_partial` means that the theorem
proves less than the property (the missing part is in the comment above it and in the list below);
`_refuted` means that the property, or a clause of it, is false of the model, with a witness computed by
the kernel. Each theorem is followed by an `Example` which meets its hypotheses.

## Conventions of the model

* A python `int` is a `Z`; a `str` is a Coq `string` (a sequence of bytes; only ASCII has a meaning).
* A python exception is a constructor of `exn`; every function which can raise returns a `result`.
* A `dict` is an association list in insertion order, which is the CPython (>= 3.7) iteration order.
* A python object which is mutated is a value: methods return the new object. Object identity is
  modelled only where the property is about identity (`M_Heap.v`, C13). Stateful objects are state
  transformers `SM S A := S -> S * result A`, so that the state after an exception is known (C22).
* Histories are lists of operations over a `step` function; "reachable" means after any history.
* lxml trees are values (`xnode`): tag, attributes, text, children, tail; comments and processing
  instructions are separate constructors. Tags are the expanded names (`{uri}local`).
* Floating point numbers: exact rationals (`M_Units.v`), or the formatting/reading function is a
  parameter of the model over which the theorems quantify (`M_Cals.v`, `M_CalsParser.v`, `M_Ooxml.v`).

## Trusted base

* the Coq 8.16.1 kernel (and `vm_compute` for the examples and witnesses);
* axioms: none. `Print Assumptions` stands under every property theorem and answers "Closed under the
  global context" for each of them; no axiom of the standard library is used;
* the reading of the python code into the model; lxml / CPython behaviour as written in the comments of
  the model files (`iterwalk` events, `append` moving the tail, `addprevious`, `strip_tags`, attribute
  values must be texts, `re` with backtracking, `sorted` being stable, `functools.total_ordering`,
  `bisect`, `MutableMapping`).

## What is modelled

| code | model | remarks |
|---|---|---|
| `coord.py`, `size.py`, `box.py` | `M_Geometry.v` | all operators, over a universe of python values |
| `alphabet.py` | `M_Alphabet.v` | any alphabet |
| `styled.py`, `cell.py` | `M_Cell.v`, `M_Heap.v` | values, and references for C13 |
| `grid.py` | `M_Grid.v` | all methods, the inherited mapping protocol included |
| `table.py` | `M_Table.v`, `M_Views.v`, `M_Loops.v` | tables and views; in `M_Table.v` a view is reached through its table, in `M_Views.v` views are objects which can be kept; `M_Loops.v` has the loops over the lists of views |
| `drawing.py` | `M_Drawing.v`, `M_Tiles.v` | default tiles (`M_Drawing.v`), tiles given by the caller (`M_Tiles.v`) |
| `units.py` | `M_Units.v`, `M_Regex.v` | exact rationals |
| `builders/base_builder.py` | `M_Builder.v` | `append_cell_elements`, `finalize_tree` (nothing) |
| `builders/cals.py`, `parsers/cals/frame_styles.py` | `M_Cals.v` | all; number formatting is a parameter |
| `builders/formex.py` | `M_Formex.v`, `M_FormexFinal.v`, `M_FormexFinish.v`, `M_NotesLoop.v` | all; elements without name space |
| `parsers/base_parser.py`, `parsers/cals/__init__.py` | `M_CalsParser.v`, `M_Transform.v` | all |
| `parsers/formex.py` | `M_FormexParser.v`, `M_FormexRead.v` | all handlers; the contents are the nodes as they were read |
| `parsers/ooxml/*` | `M_Ooxml.v` | all handlers; floats are parameters; the search of the section which follows is in `M_ConvertDoc.v` |
| `converters/*` | `M_Convert.v`, `M_ConvertDoc.v`, `M_Nested.v`, `M_NestedFormex.v`, `M_Files.v` | the keyword options, the parser and the builder composed, for one table and for a document (its root element; `M_Nested.v`, `M_NestedFormex.v`: tables inside tables); the files as a map from paths to contents, with an arbitrary XML library (`M_Files.v`) |
| `builders/namespace.py`, `ns_map` of the builders | `M_Names.v` | the declarations given to lxml; what lxml may write of the names of a tree is a relation |
| `common/lxml_iterwalk.py` | `M_Walk.v` | the events of the Python generator, as a list; the tree is not changed during the walk |
| `__repr__`, `__str__` of coordinates, sizes, boxes, rows | `M_Repr.v` | integers |

Not modelled: the XML syntax and the encodings (`etree.parse` and `tree.write` are arbitrary functions in `M_Files.v`), `schemas/`, the
constructors which store options, `__repr__` of cells, grids and styles, python 2 branches, the texts of the exceptions, XML
characters which lxml refuses.



## Per property: what is modelled, how it is proved, outcome

### C01 (proved): Coordinate and size arithmetic is a translation action

*Model and proof.* coord.py, size.py operators and `from_value`, with a universe of python values for operands; arithmetic, case analysis.

*Outcome.* The clause 'any other operand raises TypeError' holds for operands which are not tuples; a too short tuple raises IndexError (C01_short_tuple_refuted).

*Theorems.* `C01_coord_add_is_translation`, `C01_coord_sub_is_translation`, `C01_coord_sub_undoes_add`, `C01_coord_add_sizes`, `C01_coord_other_operand`, `C01_size_add_spec`, `C01_size_sub_spec`, `C01_size_other_operand`, `C01_size_mul_spec`, `C01_size_neg_spec`, `C01_short_tuple_refuted`

### C02 (proved): A Box is always a non-empty rectangle of positive coordinates

*Model and proof.* `Box.__new__` over argument lists of python values; case analysis on the argument types.

*Outcome.* All argument lists over the universe of python values of the model.

*Theorems.* `C02_box_forms`, `C02_box_copy`, `C02_box_other_forms`, `C02_box_always_valid`, `C02_box_size_describes`, `C02_derived_boxes_valid`

### C03 (proved): Box membership is membership in the set of coordinates

*Model and proof.* `Box.__contains__`, width, height; set semantics `covers`, counting of the coordinates.

*Theorems.* `C03_coord_membership`, `C03_box_membership`, `C03_other_membership`, `C03_number_of_coords`

### C04 (proved): Box.union is the smallest enclosing box

*Model and proof.* n-ary `union`; induction on the family.

*Theorems.* `C04_union_least`, `C04_union_depends_on_set`

### C05 (proved): Box.intersection is the exact common area

*Model and proof.* n-ary `intersection`; induction on the family.

*Theorems.* `C05_intersection_exact`

### C06 (partial): Box.intersect / isdisjoint decide whether two boxes share a coordinate

*Model and proof.* `intersect`, `isdisjoint` compared with sharing a coordinate.

*Outcome.* False of the code: crossing or diagonally shifted boxes are reported disjoint (C06_intersect_misses_overlap_refuted). Proved: soundness, symmetry, negation and an exact characterisation of the missed overlaps.

*Theorems.* `C06_intersect_misses_overlap_refuted`, `C06_intersect_partial`, `C06_intersect_exact_for_single`

### C07 (proved): Moving and resizing a box or a cell changes nothing else

*Model and proof.* `transform`, `move_to`, `resize` of boxes and cells; arithmetic.

*Theorems.* `C07_move_to`, `C07_resize`, `C07_type_errors`, `C07_move_back`, `C07_cell_like_box`

### C08 (partial): Boxes are totally ordered, row by row

*Model and proof.* `__lt__` and what `functools.total_ordering` makes of it.

*Outcome.* < is proved to be a row-major strict total order; <=, >, >= are inherited from tuple and contradict it (C08_operators_inconsistent_refuted).

*Theorems.* `C08_lt_total_order_partial`, `C08_operators_inconsistent_refuted`

### C09 (partial): Cells are totally ordered like their boxes

*Model and proof.* the same for cells.

*Outcome.* Proved for cells with different boxes; two different cells with equal boxes are each > the other (C09_equal_boxes_refuted).

*Theorems.* `C09_cell_lt_is_box_order_partial`, `C09_cell_ops_distinct_boxes`, `C09_equal_boxes_refuted`

### C10 (proved): Alphabetic numbering is a bijection

*Model and proof.* alphabet.py for any alphabet; strong induction.

*Outcome.* Non-empty alphabets without repetition.

*Theorems.* `C10_decode_encode`, `C10_encode_decode`, `C10_errors`, `C10_increasing`

### C11 (proved): The spreadsheet notation identifies coordinates and boxes

*Model and proof.* `__str__` of coord and box with decimal printing; injectivity of the two printers.

*Theorems.* `C11_coord_str_injective`, `C11_box_str_total`, `C11_box_str_injective`

### C12 (proved): The text of a cell is the text of its content, in order

*Model and proof.* `get_content_text` on a content type with texts, numbers, lists, XML nodes; structural induction.

*Theorems.* `C12_cell_text`, `C12_node_text`, `C12_none_text`, `C12_list_text`, `C12_add_text`

### C13 (proved): Cells, rows and tables own their styles

*Model and proof.* heap of style dictionaries; separation invariant over histories, and a refinement to the model with values.

*Outcome.* Dictionaries, styled objects and grids are references in a heap; for every history of the operations (creation, setter, in-place change through any reference, copy, insertion, deletion, merge, expand) nothing is shared (C13_separate) and an operation changes only what it is directed at (C13_frame, C13_untouched, C13_caller_dict, C13_one_object); given styles are copied (C13_setter, C13_new_cell, C13_new_table, C13_copied_cell); grids hold what the model with values holds (C13_grid_refines, C13_new_grid). Style values are taken as immutable.

*Theorems.* `C13_separate`, `C13_frame`, `C13_untouched`, `C13_caller_dict`, `C13_one_object`, `C13_setter`, `C13_new_cell`, `C13_new_table`, `C13_copied_cell`, `C13_grid_refines`, `C13_new_grid`

### C14 (proved): A grid always iterates its cells row by row, left to right

*Model and proof.* grid.py with histories of operations; invariant (pairwise no detected intersection, strictly sorted) by induction.

*Outcome.* Reachable = built by the constructor, then any sequence of successful or failing operations.

*Theorems.* `C14_histories_are_reachable`, `C14_iteration_in_order`

### C15 (partial): Cells of a grid never overlap

*Model and proof.* same invariant; the detected intersections are those of C06.

*Outcome.* False of the code: boxes crossing along the anti-diagonal are accepted (C15_overlap_refuted). Proved for all reachable grids: no corner of a cell lies in another cell, any overlap is anti-diagonal, no overlap for one-row or one-column cells, a 1x1 cell never overlaps.

*Theorems.* `C15_overlap_refuted`, `C15_no_clash_partial`, `C15_overlap_only_antidiagonal`, `C15_no_overlap_flat`, `C15_unit_cell_never_overlaps`

### C16 (proved): Lookup, membership and iteration agree

*Model and proof.* same invariant and a description of the bisection.

*Theorems.* `C16_lookup`, `C16_corners`

### C17 (proved): Inserting a cell adds exactly that cell

*Model and proof.* insertion in a sorted list.

*Outcome.* Grid level; the table level is C32.

*Theorems.* `C17_insert_success`, `C17_insert_outcome`

### C18 (proved): Deleting removes exactly the cell found by lookup

*Model and proof.* deletion.

*Theorems.* `C18_delete_success`, `C18_delete_outcome`, `C18_delete_then_insert`

### C19 (proved): A grid depends only on its set of cells

*Model and proof.* permutations and the invariant.

*Theorems.* `C19_constructor_outcome`, `C19_constructor_order_independent`, `C19_copy`

### C20 (proved): The bounding box is the smallest box around the cells

*Model and proof.* union of the boxes (C04).

*Theorems.* `C20_bounding_box`, `C20_insert_grows`, `C20_delete_shrinks`

### C21 (proved): Merging replaces exactly the cells of the area by one cell

*Model and proof.* merge with any appender.

*Outcome.* The appender is any partial function, which may raise; the clause about the content assumes that it never returns None.

*Theorems.* `C21_merge_success`, `C21_merge_outcome`, `C21_default_appender_never_none`

### C22 (proved): A failing operation leaves the grid and the table unchanged

*Model and proof.* state after an exception, for every operation of the grid and of the table.

*Outcome.* Grids and tables, every operation but the bulk method update (which is a sequence of insertions), every appender. A failing insert_cell may create empty views (as reading the row does).

*Theorems.* `C22_failure_atomic`, `C22_table_failure_atomic`, `C22_insert_cell_failure`

### C23 (partial): Expanding or shrinking a cell

*Model and proof.* expand as a merge.

*Outcome.* Expanding proved. Shrinking always raises ValueError (C23_shrink_always_fails, C23_shrink_refuted) although the documentation announces it.

*Theorems.* `C23_shrink_always_fails`, `C23_expand_partial`, `C23_expand_zero`, `C23_shrink_refuted`

### C24 (proved): iter_rows partitions the cells by rows

*Model and proof.* grouping of a sorted list.

*Theorems.* `C24_iter_rows`

### C25 (partial): A grid or table behaves like a mutable mapping

*Model and proof.* the mixins of `MutableMapping` written out.

*Outcome.* get, pop, setdefault proved for grids and tables, with all errors (C25_other_errors, C25_key_errors); items, values, popitem, clear, == and update(grid) raise TypeError on any non-empty grid (C25_mapping_protocol_refuted, C25_key_iteration_fails).

*Theorems.* `C25_get_pop_setdefault_partial`, `C25_key_iteration_fails`, `C25_mapping_protocol_refuted`, `C25_other_errors`, `C25_key_errors`, `C25_table_pop_setdefault_partial`, `C25_table_popitem_fails`, `C25_table_popitem_refuted`

### C26 (partial): Row and column views agree with the table

*Model and proof.* table.py with lazily created views; invariant relating views and grid.

*Outcome.* Membership proved for all reachable tables. Multiplicity is false in general: the first cell inserted through the table is listed twice in the views created by this insertion (C26_duplicate_refuted); proved after any successful delete/merge/expand and when the views are read first.

*Theorems.* `C26_duplicate_refuted`, `C26_multiplicity_refuted`, `C26_membership_partial`, `C26_every_position_has_a_view`, `C26_exact_after_rebuild`, `C26_exact_after_first_read`

### C27 (partial): Row views list their cells from left to right

*Model and proof.* order of the cells in the views, over row-wise histories.

*Outcome.* False in general: views list cells by order of insertion (C27_order_refuted). Proved after each delete/merge/expand, and for all row-wise histories (the calls made by the parsers) from an empty table whose rows are read first.

*Theorems.* `C27_order_refuted`, `C27_order_after_rebuild_partial`, `C27_order_row_wise_partial`

### C28 (proved): The number of row/column views follows the table

*Model and proof.* number of views.

*Theorems.* `C28_count_after_rebuild`, `C28_count_at_least`, `C28_reading_is_harmless`

### C29 (proved): insert_cell uses the next free position

*Model and proof.* next free position in a row or a column.

*Outcome.* Positions p >= 1.

*Theorems.* `C29_insert_cell`, `C29_unit_insertion_never_fails`

### C30 (proved): fill_missing fills exactly the holes

*Model and proof.* fill_missing as a sequence of insertions.

*Theorems.* `C30_fill_missing`, `C30_fill_twice`

### C31 (proved): Row and column attributes survive table changes

*Model and proof.* styles and natures kept by the rebuilding of the views.

*Outcome.* 'Within the bounding box' is required at each call which rebuilds the views.

*Theorems.* `C31_attributes_kept`, `C31_attributes_kept_history`, `C31_attributes_set`

### C32 (proved): A table holds the same cells as a grid with the same history

*Model and proof.* refinement of tables to grids.

*Outcome.* insert_cell for positions p >= 1; fill_missing corresponds to a sequence of insertions.

*Theorems.* `C32_table_refines_grid`, `C32_table_is_reachable_grid`, `C32_queries`

### C33 (partial): Drawing a grid gives a rectangle of text

*Model and proof.* computation of the lengths of the lines.

*Outcome.* False for texts with a line break among the first nine characters: ragged lines or IndexError (C33_line_break_refuted). Proved for all other texts and every reachable grid.

*Theorems.* `C33_rectangle_partial`, `C33_empty`, `C33_line_break_refuted`

### C34 (partial): The drawing shows each cell once with its borders

*Model and proof.* the characters of each tile.

*Outcome.* Borders and texts of every tile proved character by character. When the grid has accepted overlapping cells a text can be hidden (C34_hidden_text_refuted); without overlap every cell is shown once.

*Theorems.* `C34_tiles`, `C34_cell_shown_partial`, `C34_hidden_text_refuted`

### C35 (proved): Width strings are parsed as value and unit

*Model and proof.* regular expression as a backtracking matcher; induction on strings.

*Outcome.* The regular expression is modelled with a backtracking matcher; float() idealised as an exact rational. 'Longest numeral at the first place' is the specification.

*Theorems.* `C35_value_and_unit`, `C35_reads_something`, `C35_reads_one_way`, `C35_index_error`

### C36 (proved): Unit conversion is proportional

*Model and proof.* rational arithmetic, round half to even.

*Outcome.* Exact rationals, round half to even. Finding: the pica of the library has 6 points, not 12 (C36_pica_refuted); monotonicity and a there-and-back bound are also proved.

*Theorems.* `C36_convert`, `C36_same_unit`, `C36_idempotent`, `C36_monotone`, `C36_there_and_back`, `C36_key_error`, `C36_pica_refuted`

### C37 (partial): No text or element of a cell is lost when an entry is built

*Model and proof.* base_builder.py; induction on the content list.

*Outcome.* Proved for every content made of None, a text, a number, a node, or a list of texts and nodes; every other content raises TypeError and nothing else (C37_type_error), although str(cell) accepts it (C37_nested_content_refuted).

*Theorems.* `C37_content_partial`, `C37_type_error`, `C37_append_list`, `C37_nested_content_refuted`

### C38 (partial): CALS frame values and border styles correspond

*Model and proof.* frame_styles.py and `get_frame_attr`; case analysis.

*Outcome.* Round trip for the six values (also on top of other styles); the result is always one of six. Exactness holds when one of the six values can express the sides (C38_exact_partial); other combinations give 'none' (C38_exact_refuted).

*Theorems.* `C38_round_trip`, `C38_other_frames`, `C38_one_of_six`, `C38_exact_partial`, `C38_inexpressible`, `C38_exact_refuted`

### C39 (partial): The CALS tree describes the table

*Model and proof.* builders/cals.py against a description of the tree (`S_Cals.v`).

*Outcome.* C39_tree: columns, sections, rows and entries for every reachable table and option. One entry per cell is proved when the row views are exact (C26); otherwise a cell can be written twice: table[(1,1)] = cell on a new table (C39_cells_refuted). C39_succeeds: no exception when styles have the right types. The formatting of floats with two decimals is a parameter; XML-incompatible characters are not modelled.

*Theorems.* `C39_tree`, `C39_cells_partial`, `C39_cells_refuted`, `C39_succeeds`

### C40 (proved): Rows keep their order within each section

*Model and proof.* stable sorting.

*Outcome.* Sections sorted by their place in tgroup_sorting, rows of the same rank in the same order; C40_option describes the accepted options.

*Theorems.* `C40_order`, `C40_option`

### C41 (partial): A parsed CALS table has no hole and no overlap

*Model and proof.* event machine of the parser; invariant of the tables over row-wise histories.

*Outcome.* No hole: proved for every tree the parser accepts (C41_no_hole, also that the table is a reachable one, so no cell has its top-left or bottom-right corner in another one). No overlap is refuted (C41_overlap_refuted: an entry with morerows=2 and an entry of the next row spanning three columns share a coordinate) and proved when no entry has morerows, or when no entry has namest/nameend.

*Theorems.* `C41_no_hole`, `C41_overlap_refuted`, `C41_no_overlap_partial`

### C42 (partial): Writing a table as CALS and reading it back preserves it

*Model and proof.* builder and parser composed; the events of a generated tree drive the parser through the layout of the table.

*Outcome.* Refuted for all complete tables (C42_nature_refuted: a cell without nature comes back as body; C42_order_refuted: rows not in section order change places; C42_twice_refuted: a cell listed twice by its row gives two cells). Proved: when rows come in section order and list their cells left to right (as after any parser history, C27), the row and column views are no more than the cells cover and the contents have no CALS element, the tree is always readable and gives the same boxes, the same content, the nature of the row, the cell styles, the lines between cells, the frame and the other table attributes, and the styles of the rows and of the columns (the width as written in the unit of the builder); C42_rows_columns states the latter for any table whose tree can be read. The background of a row is lost (C42_row_background_refuted).

*Theorems.* `C42_round_trip_partial`, `C42_rows_columns`, `C42_same_cells_partial`, `C42_nature_refuted`, `C42_order_refuted`, `C42_twice_refuted`, `C42_row_background_refuted`

### C43 (partial): Nested tables do not disturb the enclosing table

*Model and proof.* the same machine with tables nested in entries.

*Outcome.* Refuted for CALS (C43_nested_refuted): at the end of a nested table the holes of the enclosing table are filled, so a table in an entry which is not the last one of a row after the first moves the next entries to the right. Proved: nested tables are ignored whenever the enclosing table has no hole when the nested table ends (read and build direction), in particular for tables nested in the first row. For Formex tables see C66.

*Theorems.* `C43_nested_refuted`, `C43_nested_partial`, `C43_nested_read_partial`, `C43_first_row_partial`

### C44 (partial): An entry is placed at the column it names

*Model and proof.* the layout of C55 for rows which name their columns.

*Outcome.* Refuted (C44_named_column_refuted: namest only serves to compute the width, the entry goes to the first free column; C44_only_namest_refuted: namest without nameend raises ValueError). Proved when the entries of each row name the columns in turn, without morerows and nested tables.

*Theorems.* `C44_named_column_refuted`, `C44_only_namest_refuted`, `C44_named_columns_partial`

### C45 (proved): Formex row style names are decoded exactly

*Model and proof.* regular expressions of the builder against a grammar; `M_FormexParser.v` for the other direction.

*Outcome.* The grammar of the style names is specified apart (row_style_name); decoding is exact for every name of the grammar and gives the default for every other string; what the Formex parser writes is read back for the five row types of Formex and every level. A TYPE outside the five makes the name unreadable (refuted for such types).

*Theorems.* `C45_decoded`, `C45_others`, `C45_round_trip`, `C45_titles`, `C45_other_types_refuted`

### C46 (partial): Formex blocks are rebuilt according to levels

*Model and proof.* stack of open blocks; invariant by induction on the rows.

*Outcome.* Proved for every document whose CORPUS elements contain no BLK/CORPUS child: every row (or the title which replaces it) is at the depth of its level, in order, in blocks which are uniquely determined; success conditions; the text of documents without title rows is kept. 'Nothing is lost' is refuted for title rows (TI.BLK) with several filled cells or a first cell marked empty; a processing instruction goes into the block of the row before it.

*Theorems.* `C46_blocks`, `C46_unique`, `C46_succeeds`, `C46_text_partial`, `C46_titles_refuted`, `C46_empty_cell_refuted`, `C46_marks_refuted`

### C47 (proved): Formex table numbering is hierarchical and unique

*Model and proof.* numbering with a stack; specification with paths in the document.

*Outcome.* update_no_seq, every document tree: hierarchical numbers (specification with digit strings), pairwise distinct, everything else unchanged. The removal of TBL elements which are children of TBL (cleanup_tbl_in_tbl) comes after the numbering; see C47 in DESIGN.md.

*Theorems.* `C47_numbers`, `C47_distinct`, `C47_else_same`, `C47_finished`

### C48 (proved): The Formex tree describes the table

*Model and proof.* builders/formex.py against a description of the tree (`S_Formex.v`).

*Outcome.* Tree described row by row and cell by cell for every table, with or without the CALS attributes and titles; success under explicit conditions on styles; one CELL per cell when the rows list each cell once, refuted otherwise (as for CALS, C39).

*Theorems.* `C48_tree`, `C48_cells_partial`, `C48_titles`, `C48_cells_refuted`, `C48_succeeds`

### C49 (partial): A Word table is laid out as Word displays it

*Model and proof.* parsers/ooxml; simulation of the grid by rows of regions.

*Outcome.* Proved for every regular table (a cell which continues the one above has its columns): the cells are exactly the visible regions, with their content, nature and area, plus the empty cells which complete the rows; no two overlap; with a grid at least as wide as the rows the whole grid is covered; natures of rows and widths of columns; success when the measures are readable. Refuted: ragged rows without w:tblGrid leave holes; w:gridBefore is ignored; the header flags 1/0/on/off raise KeyError; paragraphs inside a content control raise IndexError. Floats and the search of the following section are parameters of the model.

*Theorems.* `C49_layout`, `C49_no_overlap`, `C49_no_hole`, `C49_rows`, `C49_columns`, `C49_succeeds`, `C49_ragged_refuted`, `C49_before_refuted`, `C49_flag_refuted`, `C49_control_refuted`

### C50 (partial): Word style inheritance: the nearest style wins

*Model and proof.* chain of styles, induction with fuel.

*Outcome.* Proved: the nearest style which sets a border wins, over every finite chain of styles; the borders set by the table itself come first; the computation ends on every finite chain and only on them; names of the border styles. Refuted: termination for every sheet (a cycle of w:basedOn exhausts the recursion limit); the inside borders set by the table itself are lost.

*Theorems.* `C50_nearest`, `C50_terminates_partial`, `C50_only_finite`, `C50_table`, `C50_border_names`, `C50_every_sheet_refuted`, `C50_inside_refuted`

### C51 (partial): A converted document keeps everything around its tables

*Model and proof.* `transform_tables` as a replacement at paths; induction on trees.

*Outcome.* Documents whose tables are not nested and are not the root: each table is replaced in place with the same tail, everything else unchanged. A root table raises AttributeError (refuted). Nested tables are in C80. What becomes of whole documents with their tables, and of the GR.NOTES elements, is in C76 to C79.

*Theorems.* `C51_surroundings_partial`, `C51_fails_with_a_table_partial`, `C51_no_table`, `C51_root_refuted`

### C52 (partial): A generated CALS table has one section of each kind

*Model and proof.* grouping of the rows by nature.

*Outcome.* Refuted: natures header, body, header give two thead elements. Holds for contiguous natures (C52_one_section_partial).

*Theorems.* `C52_one_section_refuted`, `C52_one_section_partial`

### C53 (partial): CALS separators show the borders of the cells

*Model and proof.* separators of the builder against the inheritance rule of CALS.

*Outcome.* Holds with respect to the default of the table or tgroup (C53_separators_partial); refuted for the inheritance rule of CALS, where the colspec comes before the table (C53_separators_refuted).

*Theorems.* `C53_separators_partial`, `C53_separators_refuted`

### C54 (proved): The attributes of a CALS table are read exactly

*Model and proof.* the attributes read by the CALS parser, relation `table_attributes`.

*Outcome.* Spec table_attributes: frame, width (any readable width, converted and rounded), other styles, nature; for every regular tree which is parsed.

*Theorems.* `C54_table_attributes`

### C55 (proved): CALS entries are laid out row after row at the first free column

*Model and proof.* the event machine simulates the specification `laid_out` (first free column), which is proved deterministic and complete.

*Outcome.* For every regular tree (S_CalsParser.regular: tgroups, colspecs with positive numbers, sections, rows, entries; foreign elements anywhere; tables in entries). The specification laid_out includes the early filling caused by nested tables (see C43). C55_one_layout: the layout is unique; C55_succeeds: it is found whenever it exists and the attributes of the table are readable.

*Theorems.* `C55_layout`, `C55_one_layout`, `C55_succeeds`, `C55_row_misplaced`, `C55_colspec_misplaced`

### C56 (partial): A Word cell keeps its background, alignments, borders and its emptiness

*Model and proof.* the style reading functions of parsers/ooxml carried through the layout of C49.

*Outcome.* Proved for every regular Word table which is read without error: C56_cells (the cell at the place of a Word cell has exactly the background, vertical-align, align, borders and x-cell-empty of that cell), C56_completed (completing cells have neither content nor style), C56_rows (the insertion marks of the rows). Refuted for the heights of the rows: C56_height_refuted (the code reads hRule and val of w:trHeight from w:tblHeader, so the height of the row is lost). Keys outside of the list (border-collapse, border-spacing, box-shadow) are not specified.

*Theorems.* `C56_cells`, `C56_completed`, `C56_rows`, `C56_height_refuted`

### C57 (partial): The footers of a Formex table become its notes

*Model and proof.* `cleanup_tbl_in_tbl` and `extract_gr_notes` as functions on trees, against a relation on documents.

*Outcome.* Proved: C57_notes (for every document whose ROW elements are in the CORPUS of a TBL, the exact result: which rows go, which notes are written where, in which order, with which attributes), C57_succeeds, C57_flattened (tables in tables). Refuted: C57_headers_refuted (the TYPE of every row is removed, so header rows built from a table are not marked in the finished document), C57_other_cells_refuted (only the first cell of a footer row is kept), C57_nested_text_refuted (text and tail of a TBL in a TBL). A footer row with a table in another cell than the first one is not modelled faithfully here (the loop of the code stops there): see C89.

*Theorems.* `C57_notes`, `C57_succeeds`, `C57_flattened`, `C57_headers_refuted`, `C57_other_cells_refuted`, `C57_nested_text_refuted`

### C58 (proved): Finished Formex tables carry no redundant CALS attribute and lose no other

*Model and proof.* `drop_superfluous_attrs`; induction on trees.

*Outcome.* For every document whose elements have distinct attribute names.

*Theorems.* `C58_attributes`

### C59 (proved): The page size of a Formex table tells the orientation and the number of pages

*Model and proof.* the attribute PAGE.SIZE; case analysis.

*Outcome.* C59_page: the attribute PAGE.SIZE for each orientation and size, the limits being 649x918 and 918x649 points; the size of an A4 page when it is not known.

*Theorems.* `C59_page`

### C60 (proved): The CALS tree shows the styles of the table, the columns, the rows and the cells

*Model and proof.* relations between styles and attributes (`S_Attrs.v`).

*Outcome.* C60_cals: the attributes of table/tgroup, colspec, row and entry are those of the styles (relations table_look, column_look, row_look, cell_look of S_Attrs.v), the sections holding each row once; the marks around inserted rows are read back as XML attributes. The text of a number is a parameter (two decimals); the frame is exact when one of the six frames shows the borders (see C38).

*Theorems.* `C60_cals`

### C61 (proved): The Formex tree with CALS attributes shows the styles of the table, the columns, the rows and the cells

*Model and proof.* the same relations on the Formex tree.

*Outcome.* C61_cals: the same relations on CORPUS, colspec, ROW and CELL, for all rows but the title; the style of the cells is written as TYPE (C48).

*Theorems.* `C61_cals`

### C62 (proved): Formex cells and titles are laid out row after row at the first free column

*Model and proof.* the event machine of parsers/formex.py simulates a layout specification (`S_FormexRead.v`).

*Outcome.* M_FormexRead models parsers/formex.py (contextual parser over the events of iterwalk, all handlers). C62_layout: every successful parse of a proper CORPUS is the layout of S_FormexRead (first free column, spans, titles, notes, blanks, row and column styles); C62_one_layout: this layout is unique; C62_succeeds: whenever it exists (and the frame value is known) the parser finds it. C62_title_refuted: a TI.BLK with COL.START=2 and no COL.END raises ValueError.

*Theorems.* `C62_layout`, `C62_one_layout`, `C62_succeeds`, `C62_title_refuted`

### C63 (partial): A parsed Formex table has no hole and no overlap

*Model and proof.* invariant of the tables over row-wise histories.

*Outcome.* C63_no_hole holds for every tree. No overlap: refuted (C63_overlap_refuted: a wide cell slides under a cell of an upper row), proved when no cell spans several rows (C63_no_overlap_partial).

*Theorems.* `C63_no_hole`, `C63_overlap_refuted`, `C63_no_overlap_partial`

### C64 (proved): The attributes of a Formex table are read exactly

*Model and proof.* the attributes of CORPUS and TBL.

*Outcome.* C64_table_attributes, for every CORPUS whatever it contains (nested tables too).

*Theorems.* `C64_table_attributes`

### C65 (partial): The notes of a Formex table are its last rows

*Model and proof.* the layout of C62 at the end of the CORPUS.

*Outcome.* C65_notes_partial: proved when no cell hangs below the last row; C65_hanging_refuted: otherwise the note moves right and makes the table wider.

*Theorems.* `C65_notes_partial`, `C65_hanging_refuted`

### C66 (partial): Nested Formex tables do not disturb the enclosing table

*Model and proof.* nested CORPUS elements. `P_FormexTight.v`: when there is no hole the filling does nothing.

*Outcome.* Refuted: C66_nested_notes_refuted (the notes of a nested table become a footer row of the outer table and catch the following cells), C66_nested_refuted (holes are filled too early at the end of the nested CORPUS). Proved: nested tables without notes are ignored whenever the enclosing table has no hole when the nested table ends (C66_nested_read_partial, C66_nested_succeeds_partial), in particular in the first row (C66_first_row_partial); without nested tables the layout is the plain one (C66_nested_partial).

*Theorems.* `C66_nested_notes_refuted`, `C66_nested_refuted`, `C66_nested_partial`, `C66_nested_read_partial`, `C66_nested_succeeds_partial`, `C66_first_row_partial`

### C67 (partial): The styles which the Formex parser gives to cells are texts

*Model and proof.* types of the styles given to cells.

*Outcome.* C67_style_refuted: a CELL without TYPE in a HEADER row has cellstyle None (lxml then raises TypeError). C67_style_partial: proved when such cells have a TYPE or the row is NORMAL.

*Theorems.* `C67_style_refuted`, `C67_style_partial`

### C68 (partial): A table written as Formex and read back is the same

*Model and proof.* Formex builder and parser composed, as in C42.

*Outcome.* C68_round_trip_partial: for a tiled table whose rows list their cells from left to right and whose contents hold no table element or IE, reading the tree of the builder gives the same boxes and contents; the nature of each cell is the one of its TYPE or of its row (footers become body rows), the styles are kept as far as the CALS attributes are written (with use_cals) or not at all (without). C68_same_cells_partial: with header and body cells the natures are the same. The styles of columns are kept too, the width in the unit of the builder. Missing: tables written with a TITLE (C68_title_refuted). Refuted: footers are read as body (C68_footer_refuted), an IE of a content is read as an empty cell (C68_ie_refuted), a header which was read back cannot be written again with CALS attributes (C68_again_refuted). The trees are the ones of the builder, before the clean-up of the document.

*Theorems.* `C68_round_trip_partial`, `C68_same_cells_partial`, `C68_footer_refuted`, `C68_ie_refuted`, `C68_again_refuted`, `C68_title_refuted`

### C69 (partial): A table written in a finished Formex document and read back is the same

*Model and proof.* Formex builder, the four passes of `finalize_tree` and the parser composed.

*Outcome.* C69_finished_partial: for a tiled table whose rows list their cells from left to right, whose contents hold no table element, notes or IE, whose footers are its last rows (each one a cell over the whole width) and whose other rows are no titles of blocks, the finished document can be read and has the same boxes and contents; footers are read as footers; the types and levels of the other rows are those said by their rowstyle (with use_cals), and the natures follow; the styles are kept as far as CALS attributes are written; those of a footer row go to its cell. C69_same_cells_partial: if the row styles say the natures and cells have the natures of their rows, cells and natures are the same. Column styles are kept too. Missing: TITLE, titles of blocks, other elements around the table. Refuted: a header without rowstyle is read as body (C69_header_refuted), a footer which is not last is moved (C69_footer_first_refuted), the second cell of a footer row is lost (C69_footer_cells_refuted).

*Theorems.* `C69_finished_partial`, `C69_same_cells_partial`, `C69_header_refuted`, `C69_footer_first_refuted`, `C69_footer_cells_refuted`

### C70 (proved): Each parser gives a table made by its public methods, whose rows are its cells in order

*Model and proof.* one closure proof for the three parsers: every invariant kept by the calls a parser makes holds of what it returns (`P_Fit.v`).

*Outcome.* for any input of the three parsers whenever parsing succeeds: the table is reachable by public methods, the row views own exactly the cells which start in them, and the cells come in order.

*Theorems.* `C70_cals`, `C70_formex`, `C70_word`

### C71 (proved): A converter writes each cell of the source exactly once

*Model and proof.* parser and builder composed (`M_Convert.v`) with the keyword options of the converters; the layout theorems of the parsers (C55, C62, C49) meet the tree theorems of the builders (C39, C48) through C70.

*Outcome.* for the four converters (and CALS to CALS) with any options, whenever the conversion succeeds: the cells of the source layout (C55, C62, the regions Word displays) are a permutation of the written entries or CELLs (a first row made the TITLE excepted, with the option detect_titles); contents are the nodes given to the builder.

*Theorems.* `C71_cals2formex`, `C71_cals2cals`, `C71_formex2cals`, `C71_ooxml2cals`, `C71_ooxml2formex`

### C72 (partial): A converted table reads back as the source table

*Model and proof.* C70 gives well made tables, so that the round trips C42 and C68 of the builders apply to what the parsers of C55, C62 and C49 return; the specification (`S_Convert.v`, `S_ConvertWord.v`) compares the table read at the end with the layout of the source (`T_ConvertBack.v`); rectangles from the layout in `P_Rect.v`.

*Outcome.* proved for the four converters with any options: places, contents, row natures; with the CALS attributes also alignments, backgrounds, lines and the attributes of the table. Hypotheses: the layout is a rectangle (follows from C72_cals_rectangle and C72_formex_rectangle when columns are declared first and cells do not overlap), no element of the target format in contents, rows in the order of the sections (to CALS), no title detection. Refuted: lines of cells in Formex to CALS, footers in Formex, default name space of CALS attributes. The styles of the columns are kept (for Word tables the width), and those of the rows to CALS.

*Theorems.* `C72_cals2formex_partial`, `C72_formex2cals_partial`, `C72_ooxml2cals_partial`, `C72_ooxml2formex_partial`, `C72_cals_rectangle`, `C72_formex_rectangle`, `C72_cals_flat`, `C72_formex_flat`, `C72_rectangle_refuted`, `C72_lines_refuted`, `C72_footer_refuted`, `C72_namespace_refuted`

### C73 (proved): A Word table takes its page from the section after it

*Model and proof.* the styles which tbl_styles puts after the borders, read off the tree by paths (`S_ConvertWord.v`), then through C59 and C60 (`T_Options.v`).

*Outcome.* The reading of the numbers of a page size is a parameter (ox_page), as in C49.

*Theorems.* `C73_page`, `C73_cals`, `C73_formex`

### C74 (proved): The options of a converter decide the name spaces, the unit and the order of the sections

*Model and proof.* an independent reading of the keyword options (`S_Convert.v`: name spaces, unit, order, acceptable options) meets the tree theorems C40, C48, C60, C61 (`T_Options.v`).

*Outcome.* The namespace prefixes themselves are not in the model: a name is a name space and a local name.

*Theorems.* `C74_refused`, `C74_formex2cals`, `C74_ooxml2cals`, `C74_cals2formex`, `C74_ooxml2formex`

### C75 (proved): Converting a Word document replaces its tables and nothing else

*Model and proof.* the loop over the paths of the tables is shown equal to a structural recursion (`P_ConvertDoc.v`), and this one equivalent to an inductive relation between the source and the result which gives each table the trees before and after it (`S_ConvertDoc.v`); `T_ConvertDoc.v`.

*Outcome.* Model of the loop over the tables of a document whose tables are not nested (hypothesis not_nested); the document is its root element. C75_root: the code raises when the root itself is a table.

*Theorems.* `C75_word_to_cals`, `C75_word_to_cals_failure`, `C75_root`

### C76 (partial): In a document converted to Formex each table is finished as if it were alone, but for its number

*Model and proof.* the table of the builder has no TBL inside when the cells have none (`P_Source.v` for the parsers, `P_ConvertFinish.v`), so the numbering and cleaning passes are the identity on the converted document and the others act on each table separately.

*Outcome.* Hypotheses: no nested tables (see C80); no element of the source named TBL, ROW or CORPUS (such elements are also numbered and finished by the passes). Which error is raised when several tables cannot be converted is stated by C85.

*Theorems.* `C76_cals_to_formex`, `C76_word_to_formex`

### C77 (proved): A parser invents no content

*Model and proof.* an invariant of the parsers on the contents of the grid, for any predicate on pieces of content which holds of the source (`P_Source.v`).

*Outcome.* For every element, regular or not, whenever the parser succeeds; the nodes in the cells are compared without the text which follows them (the pieces of a content).

*Theorems.* `C77_cals`, `C77_word`, `C77_formex`

### C78 (proved): Converting a Formex document replaces its CORPUS elements and the notes before them, and nothing else

*Model and proof.* as C75, with the removal of the notes: the paths of the CORPUS which remain are shifted in the model, and the loop is shown equal to a structural recursion (`P_ConvertFormex.v`), equivalent to the relation `fconverted` (`S_ConvertDoc.v`); `T_ConvertFormex.v`.

*Outcome.* For documents without nested CORPUS; C78_text_refuted: the text which follows notes is lost.

*Theorems.* `C78_formex_to_cals`, `C78_failure`, `C78_root`, `C78_text_refuted`

### C79 (proved): No table is left behind

*Model and proof.* the elements written by the CALS builder have CALS names or come from the cells (`P_NoneLeft.v`); with C77 and the relations of C75 and C78.

*Outcome.* For documents without nested tables; C80 says it for all CALS and Word documents, and for Formex documents whose nested CORPUS have an element around them.

*Theorems.* `C79_no_corpus`, `C79_no_word_table`, `C79_no_cals_table`, `C79_no_word_table_formex`

### C80 (proved): Tables inside tables are converted too, each one in its place

*Model and proof.* the identity of the tables, which lxml keeps when the cells are moved, is modelled by labels on the tables (`M_Nested.v`); an invariant of the loop says which labels are pending, where they are and what surrounds them (`P_Nested.v`); the builders copy the nodes of the cells (`P_NestedKept.v`); equality with the loop of C51 for flat documents (`P_NestedFlat.v`); `T_Nested.v`. The section and the number of each Word table: what follows a pending table keeps its sections when a table before or around it is replaced (`P_NestedSect.v`, `T_NestedSect.v`). Formex: the loop with the notes taken away (`M_NestedFormex.v`); an invariant on the order of the ranks says that nothing before a table in its parent is still to be converted (`P_NestedFormex.v`, `P_NestedTops.v`); `T_NestedFormex.v`.

*Outcome.* Identity of nodes is modelled by labels (an attribute with an empty name, which no XML document has) on the tables; the statement speaks of the labelled document: each table is converted without its own label, while the tables of its cells have theirs. The section read with each Word table, also a nested one, and its number are stated in C80_word_sections_to_cals and C80_word_sections_to_formex for documents where no section is inside a table and no table inside a section; the number k of a CALS or Formex table is not stated (the numbers are those of C47 after finishing). Formex: hypothesis that a CORPUS inside a CORPUS is not a child of a CELL, TI.BLK, STI.BLK or GR.NOTES (a TBL is around it in Formex). The notes before a nested CORPUS are rows of the enclosing table, and the cells which follow it leave their row (C80_formex_notes_refuted). For documents without nested tables the two models agree (C80_cals_flat, C80_word_flat; C80_formex_flat for conversions which do not fail).

*Theorems.* `C80_cals_to_formex`, `C80_word_to_formex`, `C80_word_to_cals`, `C80_no_cals_table`, `C80_no_word_table_formex`, `C80_no_word_table_cals`, `C80_cals_flat`, `C80_word_flat`, `C80_cals_failure`, `C80_formex_to_cals`, `C80_no_corpus`, `C80_formex_failure`, `C80_formex_flat`, `C80_formex_notes_refuted`, `C80_word_sections_to_cals`, `C80_word_sections_to_formex`, `C80_inner_section_refuted`

### C81 (proved): A CALS document converted to Formex and back keeps its tables

*Model and proof.* composition of C76 and C78 at the level of the documents (`P_ThereBack.v`: a relation between converted documents composes when no element of the source is a CORPUS), of the trip through a finished Formex table (C69) and the reading and writing of CALS (C41, C42, C55); `S_ThereBack.v` states what comes back from the source only; `T_ThereBack.v`.

*Outcome.* The tables have no hole and no footer, their cells contain no table and no element with a Formex or CALS name, the rows named by rowstyle are not titles of blocks and come in the order of the sections; the options agree on the name space of the CALS attributes and the Formex name space is the default one. C81_lines_refuted: the lines of the cells (colsep, rowsep), the colour of the rows and the headers without rowstyle are lost.

*Theorems.* `C81_there_and_back`, `C81_lines_refuted`

### C82 (partial): Converting a converted document again changes nothing

*Model and proof.* a document without tables of the source format is only finished (`P_TwiceDoc.v`); each finishing pass is the identity on the shape left by the first conversion but for the types of rows (`P_Twice.v`: stages of the passes as invariants of every table); `S_Twice.v` states which attributes disappear; `T_Twice.v`.

*Outcome.* Towards CALS the second conversion is the identity (Word also with nested tables). Towards Formex the plain claim is false (C82_types_refuted): the second conversion removes the TYPE of the ROW elements, as the finishing pass takes the type from the CALS row style which the first pass removed; proved is that exactly this happens, that a third conversion changes nothing, and that nothing changes at all without the CALS attributes. Missing: documents with nested tables towards Formex, and documents which contain elements named TBL, ROW or CORPUS before the conversion towards Formex.

*Theorems.* `C82_word_to_cals`, `C82_formex_to_cals`, `C82_nested_word_to_cals`, `C82_cals_to_formex`, `C82_word_to_formex`, `C82_types_refuted`

### C83 (proved): A conversion changes the destination file or nothing

*Model and proof.* the files are a map from paths to contents and the XML library is a parameter (`M_Files.v`); `S_Files.v` says what is to be written and what is left unchanged; the effect of `convert_file` is computed from the conversion in memory of C80 (`P_Files.v`); `T_Files.v`.

*Outcome.* The XML library is arbitrary: reading is a function from bytes to a document, writing a function from an encoding and a document to bytes. Two paths are the same file when they are equal strings; a file which can be opened is written completely; nothing else writes the disk during the conversion.

*Theorems.* `C83_written`, `C83_complete`, `C83_failure`, `C83_causes`, `C83_missing`, `C83_reads`, `C83_in_place`

### C84 (proved): A parser can be used for several files

*Model and proof.* the loops with the counter of the builder (`M_Files.v`, `counted_tables`) are the loops of C80 with other numbers; a relation between documents which differ in the numbers of tables is kept by each turn, and the first finishing pass makes them equal (`P_NoSeq.v`); independence and order by induction on the list of conversions; `T_Files.v`.

*Outcome.* The state of a parser which survives a file is the counter of the Formex builder; the other attributes are set again for each table or document (cited in M_Files.v), which is part of the model.

*Theorems.* `C84_same_parser`, `C84_one_file`, `C84_each`, `C84_order`

### C85 (proved): The error of a conversion is the error of the first table which cannot be converted

*Model and proof.* a turn of the loop of C80 which raises an error comes after turns which succeeded: induction on the number of turns with the invariant of C80, so that the table converted by each turn is the one of the document in memory (`P_NestedFirst.v`, `P_FormexFirst.v`); `S_FirstError.v` says which table is the first one to fail; `T_FirstError.v`.

*Outcome.* The error is the class of the exception, not its text. From Formex no CORPUS may be directly in a CELL, TI.BLK, STI.BLK or GR.NOTES (the hypothesis wrapped of C80). The parent, the notes and the sections which the parser sees beside a table are those which exist, not fixed by the statement: from Word and Formex the table fails for some section or notes.

*Theorems.* `C85_cals_to_formex`, `C85_word_to_formex`, `C85_word_to_cals`, `C85_formex_to_cals`

### C86 (proved): A drawing with the tiles of the user

*Model and proof.* `draw` with the parameter `tiles`, the rows being made lazily one after the other (`M_Tiles.v`); `S_Tiles.v` says with relations what the rows of a tile are, how placeholders are replaced, and which tile is drawn at a coordinate; replacing keeps the lines of a tile (`P_Tiles.v`); `T_Tiles.v`.

*Outcome.* The tiles have no line break but newlines, and the texts of the cells none among their first nine characters (see C33_line_break_refuted). C86_cut_refuted: a tile which has more lines than the first one of its row is cut.

*Theorems.* `C86_lines`, `C86_succeeds`, `C86_error`, `C86_rectangle`, `C86_default`, `C86_empty`, `C86_cut_refuted`

### C87 (proved): A row or a column which is kept stays the row of the table, until the table becomes smaller

*Model and proof.* the views as objects in a heap, the lists as references (`M_Views.v`); a simulation with the model by value (`M_Table.v`) for each call, together with a relation between the heap before and after (listed objects keep rank and attributes, unlisted ones are frozen) (`P_Views.v`); `S_Views.v` says what an object and a list are; `T_Views.v`.

*Outcome.* Proved for all reachable states and histories, including the refinement of the model by value (M_Table.v) by the model with object identities. The two _refuted theorems show what the statement warns of: through a detached object a cell can be put at another place than the first free one, and an insertion can fail although a place is free.

*Theorems.* `C87_refines`, `C87_table_calls`, `C87_same_object`, `C87_reading_gives`, `C87_cells`, `C87_calls_on_object`, `C87_stays`, `C87_dropped_for_ever`, `C87_attributes`, `C87_dropped_attributes`, `C87_insert_on_object`, `C87_dropped_insert_refuted`, `C87_dropped_insert_fails_refuted`

### C88 (proved): A loop over the rows of a table visits each row once, unless it adds rows

*Model and proof.* the loop as repeated look-ups in the list of references, with a bound on the number of turns (`M_Loops.v`); the number of views after each call (`insert_len`), then induction over the turns: over the rows left when no row is added, over the bound when rows are (`P_Loops.v`);

*Outcome.* Proved for all reachable states. The bound on the number of turns (fuel) only serves to write the loop as a total function: the theorems on loops which end hold for every bound larger than the number of rows, those on loops which do not complete hold for every bound. The body of the loop is one call on the row; bodies which delete or merge cells of the table are not covered.

*Theorems.* `C88_each_row_once`, `C88_one_cell_each`, `C88_tall_never_completes`, `C88_tall_runs_for_ever`

### C89 (partial): Tables in footer cells do not keep the other notes from being extracted

*Model and proof.* the loop with the iterator of lxml, which finds the next row before the current one is treated (`M_NotesLoop.v`); by induction over the document it equals the pass of C57 when tables only stand in the first cells of footer rows (`P_NotesLoop.v`); otherwise, what follows the row is unchanged

*Outcome.* Proved: C89_notes_partial (when the tables in footer rows only stand in the first cells, the loop of the code treats every row: the result is the one of C57), C89_finalize_partial (the same for all the passes of finalize_tree, so that C56, C57, C58, C69 hold of the loop). Refuted: C89_every_row_refuted (a table built by calls, completed: a footer row with a table in its second cell; the next footer row stays in the CORPUS, marked "__GR.NOTES__"); C89_stops and C89_footer_left say it for all such documents: everything after the row in the CORPUS and after the CORPUS is unchanged. Read from lxml, which is not part of the repository: the iterator holds the next row, and does not leave a removed subtree.

*Theorems.* `C89_notes_partial`, `C89_finalize_partial`, `C89_stops`, `C89_footer_left`, `C89_every_row_refuted`

### C90 (partial): The spacing and the shadow of Word borders

*Model and proof.* `spacing` gives the three styles from the attributes of the sides, without the model (`S_Spacing.v`); each text is a function of the sides and the lists are compared side by side (`P_Spacing.v`), then lifted to cells and tables as in C50 and C56; three claims are false

*Outcome.* Proved: C90_cells (for every regular table read without error, exactly which values the three styles of each cell have), C90_separate (a cell has a spacing exactly when its borders are separate), C90_table (own borders, then the nearest style of the chain, for the table and for the borders inside). Refuted: C90_lengths_refuted (the sides without shadow are written "0ptpt", which is not a length), C90_shadow_refuted (a shadow on a border without size raises KeyError), C90_both_refuted (a table may at once be collapsed, by its own borders, and spaced, by its style).

*Theorems.* `C90_cells`, `C90_separate`, `C90_table`, `C90_both_refuted`, `C90_lengths_refuted`, `C90_shadow_refuted`

### C91 (partial): The printed forms of coordinates, sizes, boxes and rows

*Model and proof.* the printed texts are computed with the replacement of the name of the named tuple (`M_Repr.v`), in both versions of Python; the numbers are read back from the text because no digit or sign follows them; the cells of a row are the only list which has its members and is in order; the last claim about rows is false

*Outcome.* Proved: C91_repr (injective across the three kinds and both versions of Python), C91_text (the exact text), C91_size_str, C91_row. Refuted: C91_row_refuted (a comma in the text of a cell: rows with one and two cells have the same text). repr of cells, grids and styles (which contain texts and dictionaries of Python) is not modelled.

*Theorems.* `C91_repr`, `C91_text`, `C91_size_str`, `C91_row`, `C91_row_refuted`

### C92 (partial): Nothing which Word shows in a cell is lost

*Model and proof.* a visible cell of Word is a cell of the table (C49) whose mark of emptiness is known (C56), and the builders write the cells in full or with IE (C39, C48); `T_Pictures.v`; the claim about symbols and objects is false

*Outcome.* Proved: C92_cals (every visible cell is written in full), C92_formex (exactly which cells are replaced by IE), C92_pictures (every w:drawing and w:pict of a visible cell is in the result). Refuted: C92_symbols_refuted (a cell with only a symbol, w:sym, such as a tick, or an embedded object, w:object, is replaced by IE: the symbol is lost). Title detection off; the cells of a title are in C48_titles.

*Theorems.* `C92_cals`, `C92_formex`, `C92_pictures`, `C92_symbols_refuted`

### C93 (partial): The names in a converted file are the names of the converted document

*Model and proof.* the declarations given to lxml are computed from the options, what lxml may write of the names of a tree is a relation (any choice of prefixes), reading is the standard of name spaces; induction on the tree, with the description of the CALS tree (C39) for the default name space; `M_Names.v`, `S_Names.v`, `T_Names.v`; false for a default name space over elements without name space

*Outcome.* Proved: C93_document (no default name space: all names are the same), C93_cals and C93_formex (exactly for which options and contents the names of a table are the same), C93_word_to_cals (from Word the default name space is harmless). Refuted: C93_formex_to_cals_refuted (cals_ns without prefix: the elements of the contents, which have no name space, are read in the one of CALS), C93_cals_to_formex_refuted (use_cals with an empty cals_prefix: TBL and all other elements are read in the name space of CALS). What lxml may write is a relation: names without name space have no prefix, whatever the default is; the source nodes are supposed to declare no default name space of their own.

*Theorems.* `C93_document`, `C93_cals`, `C93_formex`, `C93_written`, `C93_word_to_cals`, `C93_formex_to_cals_refuted`, `C93_cals_to_formex_refuted`

### C94 (partial): A Word table converted to Formex through CALS has the cells of the one converted directly

*Model and proof.* T_Through.v. The table read from the built CALS tree covers the same areas (C42), its rows are sorted (C70); two rows sorted from left to right with the same boxes are related cell by cell, and C48 describes the CELL of both. A title is the centred cell over the whole width at the first place; the place and the alignment are kept, so both paths find it or neither. The cells which the CALS parser marks as empty have no content: induction on the layout of C55.

*Outcome.* C94_through_cals is about any table read by a parser and any blank contents; C94_word_partial about the three conversions. Missing: the hypotheses of C72_ooxml2cals_partial (rows not wider than the grid, header rows first, no CALS element in the paragraphs), the same detect_titles in both Formex builders, the same CALS name space in both steps; the attributes other than COL, COLSPAN, ROWSPAN and the TYPE of the rows. C94_equal_refuted: full equality of contents is false, a tick (w:sym) is kept through CALS and lost directly.

*Theorems.* `C94_through_cals`, `C94_word_partial`, `C94_equal_refuted`

### C95 (proved): The walk over a tree gives every asked element once, in document order

*Model and proof.* the generator of lxml_iterwalk.py is modelled by the list of its events (`M_Walk.v`); a node is known by its place (numbers of children), the order of the events is a relation on places (`S_Walk.v`) which is shown asymmetric, so that a sorted list with the right members is unique; the walks used in the models of the parsers are shown to have the same events, with parents, preceding siblings and BLK counts; induction on the tree, `T_Walk.v`

*Outcome.* C95_events, C95_unique, C95_named for the Python walk; C95_parsers, C95_parents (CALS, Word) and C95_context (Formex) for the walks of the models of the parsers. C95_elements_refuted is about a difference with lxml which the library never meets: without names the Python walk also gives the comments. Loops which change the tree while they walk are treated in C57, C58 and C89.

*Theorems.* `C95_events`, `C95_unique`, `C95_named`, `C95_elements_refuted`, `C95_parents`, `C95_parsers`, `C95_context`

### C96 (proved): A CALS table read and written again has the same rows and entries

*Model and proof.* T_Again.v. The table read from the written tree has the same cells and row natures (C42, as in C94), C39 describes both trees; the rows stay in place as the sections are in order, and the entries of a row are compared from left to right.

*Outcome.* C96_again for every table read by a parser (well_read: reachable, rows ordered, tiled) and any options of the second writer; C96_word for Word tables converted to CALS. Attributes other than cols, namest, nameend, morerows are those of C42, C54 and C60.

*Theorems.* `C96_again`, `C96_word`

### C97 (proved): A Formex table read and written again has the same rows and cells

*Model and proof.* T_FormexAgain.v. The tree is a proper CORPUS, so it is laid out as C62 says and the table which is read has the same cells and rows (C68); no cell gets the mark x-cell-empty from the parser, by induction over the layout; C48 describes both trees and the cells of a row are compared from left to right.

*Outcome.* C97_again for every table read by a parser (well_read), C97_word for Word tables converted to Formex; C97_footer_refuted shows the case which the statement excludes. That the second writing may raise TypeError with CALS attributes is C68_again_refuted; the statement is about writings which succeed.

*Theorems.* `C97_again`, `C97_footer_refuted`, `C97_word`

### C98 (partial): Word to Formex to CALS gives the same table as Word to CALS

*Model and proof.* T_ThroughFormex.v. The table read from the CORPUS has the cells and the row natures of the Word table (through_formex, from C68 and C62), C39 describes both CALS trees and the entries of a row are compared from left to right; a cell with the style None makes the CALS writer fail (case analysis of the writer).

*Outcome.* C98_through_formex (any table read by a parser, without footers) and C98_word_partial: whenever both conversions succeed, the rows and entries are the same, but for the cells which Formex marks as empty: they have no content. Refuted: success, as every table with a header cell fails on the second step (C98_header for any table read, C98_word_header for every Word table with a header row which has a cell of its own, C98_header_refuted: TypeError, see C67); equal contents, as a tick or an object is lost (C98_equal_refuted, see C92).

*Theorems.* `C98_through_formex`, `C98_word_partial`, `C98_header`, `C98_word_header`, `C98_header_refuted`, `C98_equal_refuted`

### C99 (proved): The rows inserted in Word, and only these, are marked in the converted table

*Model and proof.* T_Inserted.v. The styles of a row of the table read are those of w:ins (C56); the marks written for these styles are those of C60 (marks_spec), for Formex with and without the CALS attributes; the rows of the table and those of the tree are matched by their place.

*Outcome.* C99_cals: the sections of the CALS table, one after the other, hold for each Word row its row element, between the two instructions exactly if the row is inserted, with the id, author and date of w:ins; C99_formex: the same for the CORPUS, with and without the CALS attributes. Assumed: regular merges, rows which fit in the grid; for CALS the sections stay in order, for Formex no titles.

*Theorems.* `C99_cals`, `C99_formex`

## Findings in the code

Behaviour of the code which contradicts a property or its documentation; the refuted clauses above carry
the witnesses. The others were met while modelling.

* Geometry: `Box.intersect` misses overlaps (C06), so that a grid accepts overlapping cells (C15) and parsers
  produce them (C41, C63); `<=`, `>`, `>=` of boxes contradict `<` (C08); shrinking never works (C23); the
  mapping protocol of grids and tables raises TypeError (C25).
* Tables: the first cell put with `table[(1, 1)] = cell` is listed twice by its row (C26), hence written
  twice by both builders (C39, C48).
* Units: the pica has 6 points (C36).
* CALS builder: several `thead` when natures are not contiguous (C52); separators ignore the colspec (C53).
* CALS parser: holes of the enclosing table are filled at the end of a nested table (C43); `namest` does not
  place an entry, and alone raises ValueError (C44); an entry outside a row goes to the previous row, a row
  outside a section raises KeyError; a table at the root raises AttributeError (C51).
* Formex builder: an unknown TYPE in a row style loses the level; TI.BLK rows lose the other cells and those which start
  after the first column; a first title cell marked IE hides the text; the mark of an inserted row goes into the
  block of the row before (C46); `extract_gr_notes` removes TYPE from every ROW (C57, C69); other cells of
  footer rows and texts around a TBL in a TBL are lost (C57).
* Formex parser: `cellstyle` None for a CELL without TYPE in a HEADER row (C67, C68); notes of a nested table
  go to the outer one and holes are filled too early (C66); TI.BLK with COL.START and no COL.END raises
  ValueError (C62); a notes row makes the table wider when a cell hangs below the last row (C65); colsep and
  rowsep of a CELL go to "x-cell-border-*"; `int(COLSPAN)` is evaluated even if namest/nameend are used;
  text after GR.NOTES is lost; MARGIN raises NotImplementedError; the number of BLK counts ancestors outside the CORPUS.
* Word parser: flags 1/0/on/off of w:tblHeader raise KeyError; gridBefore is ignored; ragged rows leave holes;
  a cell without direct paragraph raises IndexError (C49); w:trHeight is read from w:tblHeader (C56); a
  cycle of basedOn exhausts the recursion limit, the table's own inside borders are lost (C50); shadow "1" or
  without sz raises KeyError, and the text of the shadow is "0ptpt".
* Converters: the lines of Formex cells are lost in CALS because parser and builder name them differently (C72);
  the default CALS name space of the Formex builder is not the one of the Formex parser, so the attributes
  written with use_cals are not read with the same options (C72). With cals_ns and no prefix the elements of the cells
  which have no name space are read back in the one of CALS, and so are all Formex elements with use_cals (C93).
* Word to Formex: a cell with only a symbol or an embedded object becomes IE (C92).

## Mutation testing

`seeded/LOG.jsonl` lists the edits of the model which were tried in a scratch copy, the claim each one breaks
and the first lemmas or theorems which do not prove any more. The mutants which survived led to tighter theorems (field
`tightened`) or are edits which do not change what the claim says.
