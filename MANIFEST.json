{
 "claims": [
  {
   "property": "C01",
   "status": "proved",
   "theorems": [
    "C01_coord_add_is_translation",
    "C01_coord_sub_is_translation",
    "C01_coord_sub_undoes_add",
    "C01_coord_add_sizes",
    "C01_coord_other_operand",
    "C01_size_add_spec",
    "C01_size_sub_spec",
    "C01_size_other_operand",
    "C01_size_mul_spec",
    "C01_size_neg_spec",
    "C01_short_tuple_refuted"
   ],
   "note": "The clause 'any other operand raises TypeError' holds for operands which are not tuples; a too short tuple raises IndexError (C01_short_tuple_refuted)."
  },
  {
   "property": "C02",
   "status": "proved",
   "theorems": [
    "C02_box_forms",
    "C02_box_copy",
    "C02_box_other_forms",
    "C02_box_always_valid",
    "C02_box_size_describes",
    "C02_derived_boxes_valid"
   ],
   "note": "All argument lists over the universe of python values of the model."
  },
  {
   "property": "C03",
   "status": "proved",
   "theorems": [
    "C03_coord_membership",
    "C03_box_membership",
    "C03_other_membership",
    "C03_number_of_coords"
   ],
   "note": ""
  },
  {
   "property": "C04",
   "status": "proved",
   "theorems": [
    "C04_union_least",
    "C04_union_depends_on_set"
   ],
   "note": ""
  },
  {
   "property": "C05",
   "status": "proved",
   "theorems": [
    "C05_intersection_exact"
   ],
   "note": ""
  },
  {
   "property": "C06",
   "status": "partial",
   "theorems": [
    "C06_intersect_misses_overlap_refuted",
    "C06_intersect_partial",
    "C06_intersect_exact_for_single"
   ],
   "note": "False of the code: crossing or diagonally shifted boxes are reported disjoint (C06_intersect_misses_overlap_refuted). Proved: soundness, symmetry, negation and an exact characterisation of the missed overlaps."
  },
  {
   "property": "C07",
   "status": "proved",
   "theorems": [
    "C07_move_to",
    "C07_resize",
    "C07_type_errors",
    "C07_move_back",
    "C07_cell_like_box"
   ],
   "note": ""
  },
  {
   "property": "C08",
   "status": "partial",
   "theorems": [
    "C08_lt_total_order_partial",
    "C08_operators_inconsistent_refuted"
   ],
   "note": "< is proved to be a row-major strict total order; <=, >, >= are inherited from tuple and contradict it (C08_operators_inconsistent_refuted)."
  },
  {
   "property": "C09",
   "status": "partial",
   "theorems": [
    "C09_cell_lt_is_box_order_partial",
    "C09_cell_ops_distinct_boxes",
    "C09_equal_boxes_refuted"
   ],
   "note": "Proved for cells with different boxes; two different cells with equal boxes are each > the other (C09_equal_boxes_refuted)."
  },
  {
   "property": "C10",
   "status": "proved",
   "theorems": [
    "C10_decode_encode",
    "C10_encode_decode",
    "C10_errors",
    "C10_increasing"
   ],
   "note": "Non-empty alphabets without repetition."
  },
  {
   "property": "C11",
   "status": "proved",
   "theorems": [
    "C11_coord_str_injective",
    "C11_box_str_total",
    "C11_box_str_injective"
   ],
   "note": ""
  },
  {
   "property": "C12",
   "status": "proved",
   "theorems": [
    "C12_cell_text",
    "C12_node_text",
    "C12_none_text",
    "C12_list_text",
    "C12_add_text"
   ],
   "note": ""
  },
  {
   "property": "C13",
   "status": "proved",
   "theorems": [
    "C13_separate",
    "C13_frame",
    "C13_untouched",
    "C13_caller_dict",
    "C13_one_object",
    "C13_setter",
    "C13_new_cell",
    "C13_new_table",
    "C13_copied_cell",
    "C13_grid_refines",
    "C13_new_grid"
   ],
   "note": "Dictionaries, styled objects and grids are references in a heap; for every history of the operations (creation, setter, in-place change through any reference, copy, insertion, deletion, merge, expand) nothing is shared (C13_separate) and an operation changes only what it is directed at (C13_frame, C13_untouched, C13_caller_dict, C13_one_object); given styles are copied (C13_setter, C13_new_cell, C13_new_table, C13_copied_cell); grids hold what the model with values holds (C13_grid_refines, C13_new_grid). Style values are taken as immutable."
  },
  {
   "property": "C14",
   "status": "proved",
   "theorems": [
    "C14_histories_are_reachable",
    "C14_iteration_in_order"
   ],
   "note": "Reachable = built by the constructor, then any sequence of successful or failing operations."
  },
  {
   "property": "C15",
   "status": "partial",
   "theorems": [
    "C15_overlap_refuted",
    "C15_no_clash_partial",
    "C15_overlap_only_antidiagonal",
    "C15_no_overlap_flat",
    "C15_unit_cell_never_overlaps"
   ],
   "note": "False of the code: boxes crossing along the anti-diagonal are accepted (C15_overlap_refuted). Proved for all reachable grids: no corner of a cell lies in another cell, any overlap is anti-diagonal, no overlap for one-row or one-column cells, a 1x1 cell never overlaps."
  },
  {
   "property": "C16",
   "status": "proved",
   "theorems": [
    "C16_lookup",
    "C16_corners"
   ],
   "note": ""
  },
  {
   "property": "C17",
   "status": "proved",
   "theorems": [
    "C17_insert_success",
    "C17_insert_outcome"
   ],
   "note": "Grid level; the table level is C32."
  },
  {
   "property": "C18",
   "status": "proved",
   "theorems": [
    "C18_delete_success",
    "C18_delete_outcome",
    "C18_delete_then_insert"
   ],
   "note": ""
  },
  {
   "property": "C19",
   "status": "proved",
   "theorems": [
    "C19_constructor_outcome",
    "C19_constructor_order_independent",
    "C19_copy"
   ],
   "note": ""
  },
  {
   "property": "C20",
   "status": "proved",
   "theorems": [
    "C20_bounding_box",
    "C20_insert_grows",
    "C20_delete_shrinks"
   ],
   "note": ""
  },
  {
   "property": "C21",
   "status": "proved",
   "theorems": [
    "C21_merge_success",
    "C21_merge_outcome",
    "C21_default_appender_never_none"
   ],
   "note": "The appender is any partial function, which may raise; the clause about the content assumes that it never returns None."
  },
  {
   "property": "C22",
   "status": "proved",
   "theorems": [
    "C22_failure_atomic",
    "C22_table_failure_atomic",
    "C22_insert_cell_failure"
   ],
   "note": "Grids and tables, every operation but the bulk method update (which is a sequence of insertions), every appender. A failing insert_cell may create empty views (as reading the row does)."
  },
  {
   "property": "C23",
   "status": "partial",
   "theorems": [
    "C23_shrink_always_fails",
    "C23_expand_partial",
    "C23_expand_zero",
    "C23_shrink_refuted"
   ],
   "note": "Expanding proved. Shrinking always raises ValueError (C23_shrink_always_fails, C23_shrink_refuted) although the documentation announces it."
  },
  {
   "property": "C24",
   "status": "proved",
   "theorems": [
    "C24_iter_rows"
   ],
   "note": ""
  },
  {
   "property": "C25",
   "status": "partial",
   "theorems": [
    "C25_get_pop_setdefault_partial",
    "C25_key_iteration_fails",
    "C25_mapping_protocol_refuted",
    "C25_other_errors",
    "C25_key_errors",
    "C25_table_pop_setdefault_partial",
    "C25_table_popitem_fails",
    "C25_table_popitem_refuted"
   ],
   "note": "get, pop, setdefault proved for grids and tables, with all errors (C25_other_errors, C25_key_errors); items, values, popitem, clear, == and update(grid) raise TypeError on any non-empty grid (C25_mapping_protocol_refuted, C25_key_iteration_fails)."
  },
  {
   "property": "C26",
   "status": "partial",
   "theorems": [
    "C26_duplicate_refuted",
    "C26_multiplicity_refuted",
    "C26_membership_partial",
    "C26_every_position_has_a_view",
    "C26_exact_after_rebuild",
    "C26_exact_after_first_read"
   ],
   "note": "Membership proved for all reachable tables. Multiplicity is false in general: the first cell inserted through the table is listed twice in the views created by this insertion (C26_duplicate_refuted); proved after any successful delete/merge/expand and when the views are read first."
  },
  {
   "property": "C27",
   "status": "partial",
   "theorems": [
    "C27_order_refuted",
    "C27_order_after_rebuild_partial",
    "C27_order_row_wise_partial"
   ],
   "note": "False in general: views list cells by order of insertion (C27_order_refuted). Proved after each delete/merge/expand, and for all row-wise histories (the calls made by the parsers) from an empty table whose rows are read first."
  },
  {
   "property": "C28",
   "status": "proved",
   "theorems": [
    "C28_count_after_rebuild",
    "C28_count_at_least",
    "C28_reading_is_harmless"
   ],
   "note": ""
  },
  {
   "property": "C29",
   "status": "proved",
   "theorems": [
    "C29_insert_cell",
    "C29_unit_insertion_never_fails"
   ],
   "note": "Positions p >= 1."
  },
  {
   "property": "C30",
   "status": "proved",
   "theorems": [
    "C30_fill_missing",
    "C30_fill_twice"
   ],
   "note": ""
  },
  {
   "property": "C31",
   "status": "proved",
   "theorems": [
    "C31_attributes_kept",
    "C31_attributes_kept_history",
    "C31_attributes_set"
   ],
   "note": "'Within the bounding box' is required at each call which rebuilds the views."
  },
  {
   "property": "C32",
   "status": "proved",
   "theorems": [
    "C32_table_refines_grid",
    "C32_table_is_reachable_grid",
    "C32_queries"
   ],
   "note": "insert_cell for positions p >= 1; fill_missing corresponds to a sequence of insertions."
  },
  {
   "property": "C33",
   "status": "partial",
   "theorems": [
    "C33_rectangle_partial",
    "C33_empty",
    "C33_line_break_refuted"
   ],
   "note": "False for texts with a line break among the first nine characters: ragged lines or IndexError (C33_line_break_refuted). Proved for all other texts and every reachable grid."
  },
  {
   "property": "C34",
   "status": "partial",
   "theorems": [
    "C34_tiles",
    "C34_cell_shown_partial",
    "C34_hidden_text_refuted"
   ],
   "note": "Borders and texts of every tile proved character by character. When the grid has accepted overlapping cells a text can be hidden (C34_hidden_text_refuted); without overlap every cell is shown once."
  },
  {
   "property": "C35",
   "status": "proved",
   "theorems": [
    "C35_value_and_unit",
    "C35_reads_something",
    "C35_reads_one_way",
    "C35_index_error"
   ],
   "note": "The regular expression is modelled with a backtracking matcher; float() idealised as an exact rational. 'Longest numeral at the first place' is the specification."
  },
  {
   "property": "C36",
   "status": "proved",
   "theorems": [
    "C36_convert",
    "C36_same_unit",
    "C36_idempotent",
    "C36_monotone",
    "C36_there_and_back",
    "C36_key_error",
    "C36_pica_refuted"
   ],
   "note": "Exact rationals, round half to even. Finding: the pica of the library has 6 points, not 12 (C36_pica_refuted); monotonicity and a there-and-back bound are also proved."
  },
  {
   "property": "C37",
   "status": "partial",
   "theorems": [
    "C37_content_partial",
    "C37_type_error",
    "C37_append_list",
    "C37_nested_content_refuted"
   ],
   "note": "Proved for every content made of None, a text, a number, a node, or a list of texts and nodes; every other content raises TypeError and nothing else (C37_type_error), although str(cell) accepts it (C37_nested_content_refuted)."
  },
  {
   "property": "C38",
   "status": "partial",
   "theorems": [
    "C38_round_trip",
    "C38_other_frames",
    "C38_one_of_six",
    "C38_exact_partial",
    "C38_inexpressible",
    "C38_exact_refuted"
   ],
   "note": "Round trip for the six values (also on top of other styles); the result is always one of six. Exactness holds when one of the six values can express the sides (C38_exact_partial); other combinations give 'none' (C38_exact_refuted)."
  },
  {
   "property": "C39",
   "status": "partial",
   "theorems": [
    "C39_tree",
    "C39_cells_partial",
    "C39_cells_refuted",
    "C39_succeeds"
   ],
   "note": "C39_tree: columns, sections, rows and entries for every reachable table and option. One entry per cell is proved when the row views are exact (C26); otherwise a cell can be written twice: table[(1,1)] = cell on a new table (C39_cells_refuted). C39_succeeds: no exception when styles have the right types. The formatting of floats with two decimals is a parameter; XML-incompatible characters are not modelled."
  },
  {
   "property": "C40",
   "status": "proved",
   "theorems": [
    "C40_order",
    "C40_option"
   ],
   "note": "Sections sorted by their place in tgroup_sorting, rows of the same rank in the same order; C40_option describes the accepted options."
  },
  {
   "property": "C41",
   "status": "partial",
   "theorems": [
    "C41_no_hole",
    "C41_overlap_refuted",
    "C41_no_overlap_partial"
   ],
   "note": "No hole: proved for every tree the parser accepts (C41_no_hole, also that the table is a reachable one, so no cell has its top-left or bottom-right corner in another one). No overlap is refuted (C41_overlap_refuted: an entry with morerows=2 and an entry of the next row spanning three columns share a coordinate) and proved when no entry has morerows, or when no entry has namest/nameend."
  },
  {
   "property": "C42",
   "status": "partial",
   "theorems": [
    "C42_round_trip_partial",
    "C42_rows_columns",
    "C42_same_cells_partial",
    "C42_nature_refuted",
    "C42_order_refuted",
    "C42_twice_refuted",
    "C42_row_background_refuted"
   ],
   "note": "Refuted for all complete tables (C42_nature_refuted: a cell without nature comes back as body; C42_order_refuted: rows not in section order change places; C42_twice_refuted: a cell listed twice by its row gives two cells). Proved: when rows come in section order and list their cells left to right (as after any parser history, C27), the row and column views are no more than the cells cover and the contents have no CALS element, the tree is always readable and gives the same boxes, the same content, the nature of the row, the cell styles, the lines between cells, the frame and the other table attributes, and the styles of the rows and of the columns (the width as written in the unit of the builder); C42_rows_columns states the latter for any table whose tree can be read. The background of a row is lost (C42_row_background_refuted)."
  },
  {
   "property": "C43",
   "status": "partial",
   "theorems": [
    "C43_nested_refuted",
    "C43_nested_partial",
    "C43_nested_read_partial",
    "C43_first_row_partial"
   ],
   "note": "Refuted for CALS (C43_nested_refuted): at the end of a nested table the holes of the enclosing table are filled, so a table in an entry which is not the last one of a row after the first moves the next entries to the right. Proved: nested tables are ignored whenever the enclosing table has no hole when the nested table ends (read and build direction), in particular for tables nested in the first row. For Formex tables see C66."
  },
  {
   "property": "C44",
   "status": "partial",
   "theorems": [
    "C44_named_column_refuted",
    "C44_only_namest_refuted",
    "C44_named_columns_partial"
   ],
   "note": "Refuted (C44_named_column_refuted: namest only serves to compute the width, the entry goes to the first free column; C44_only_namest_refuted: namest without nameend raises ValueError). Proved when the entries of each row name the columns in turn, without morerows and nested tables."
  },
  {
   "property": "C45",
   "status": "proved",
   "theorems": [
    "C45_decoded",
    "C45_others",
    "C45_round_trip",
    "C45_titles",
    "C45_other_types_refuted"
   ],
   "note": "The grammar of the style names is specified apart (row_style_name); decoding is exact for every name of the grammar and gives the default for every other string; what the Formex parser writes is read back for the five row types of Formex and every level. A TYPE outside the five makes the name unreadable (refuted for such types)."
  },
  {
   "property": "C46",
   "status": "partial",
   "theorems": [
    "C46_blocks",
    "C46_unique",
    "C46_succeeds",
    "C46_text_partial",
    "C46_titles_refuted",
    "C46_empty_cell_refuted",
    "C46_marks_refuted"
   ],
   "note": "Proved for every document whose CORPUS elements contain no BLK/CORPUS child: every row (or the title which replaces it) is at the depth of its level, in order, in blocks which are uniquely determined; success conditions; the text of documents without title rows is kept. 'Nothing is lost' is refuted for title rows (TI.BLK) with several filled cells or a first cell marked empty; a processing instruction goes into the block of the row before it."
  },
  {
   "property": "C47",
   "status": "proved",
   "theorems": [
    "C47_numbers",
    "C47_distinct",
    "C47_else_same",
    "C47_finished"
   ],
   "note": "update_no_seq, every document tree: hierarchical numbers (specification with digit strings), pairwise distinct, everything else unchanged. The removal of TBL elements which are children of TBL (cleanup_tbl_in_tbl) comes after the numbering; see C47 in DESIGN.md."
  },
  {
   "property": "C48",
   "status": "proved",
   "theorems": [
    "C48_tree",
    "C48_cells_partial",
    "C48_titles",
    "C48_cells_refuted",
    "C48_succeeds"
   ],
   "note": "Tree described row by row and cell by cell for every table, with or without the CALS attributes and titles; success under explicit conditions on styles; one CELL per cell when the rows list each cell once, refuted otherwise (as for CALS, C39)."
  },
  {
   "property": "C49",
   "status": "partial",
   "theorems": [
    "C49_layout",
    "C49_no_overlap",
    "C49_no_hole",
    "C49_rows",
    "C49_columns",
    "C49_succeeds",
    "C49_ragged_refuted",
    "C49_before_refuted",
    "C49_flag_refuted",
    "C49_control_refuted"
   ],
   "note": "Proved for every regular table (a cell which continues the one above has its columns): the cells are exactly the visible regions, with their content, nature and area, plus the empty cells which complete the rows; no two overlap; with a grid at least as wide as the rows the whole grid is covered; natures of rows and widths of columns; success when the measures are readable. Refuted: ragged rows without w:tblGrid leave holes; w:gridBefore is ignored; the header flags 1/0/on/off raise KeyError; paragraphs inside a content control raise IndexError. Floats and the search of the following section are parameters of the model."
  },
  {
   "property": "C50",
   "status": "partial",
   "theorems": [
    "C50_nearest",
    "C50_terminates_partial",
    "C50_only_finite",
    "C50_table",
    "C50_border_names",
    "C50_every_sheet_refuted",
    "C50_inside_refuted"
   ],
   "note": "Proved: the nearest style which sets a border wins, over every finite chain of styles; the borders set by the table itself come first; the computation ends on every finite chain and only on them; names of the border styles. Refuted: termination for every sheet (a cycle of w:basedOn exhausts the recursion limit); the inside borders set by the table itself are lost."
  },
  {
   "property": "C51",
   "status": "partial",
   "theorems": [
    "C51_surroundings_partial",
    "C51_fails_with_a_table_partial",
    "C51_no_table",
    "C51_root_refuted"
   ],
   "note": "Documents whose tables are not nested and are not the root: each table is replaced in place with the same tail, everything else unchanged. A root table raises AttributeError (refuted). Nested tables are in C80. What becomes of whole documents with their tables, and of the GR.NOTES elements, is in C76 to C79."
  },
  {
   "property": "C52",
   "status": "partial",
   "theorems": [
    "C52_one_section_refuted",
    "C52_one_section_partial"
   ],
   "note": "Refuted: natures header, body, header give two thead elements. Holds for contiguous natures (C52_one_section_partial)."
  },
  {
   "property": "C53",
   "status": "partial",
   "theorems": [
    "C53_separators_partial",
    "C53_separators_refuted"
   ],
   "note": "Holds with respect to the default of the table or tgroup (C53_separators_partial); refuted for the inheritance rule of CALS, where the colspec comes before the table (C53_separators_refuted)."
  },
  {
   "property": "C54",
   "status": "proved",
   "theorems": [
    "C54_table_attributes"
   ],
   "note": "Spec table_attributes: frame, width (any readable width, converted and rounded), other styles, nature; for every regular tree which is parsed."
  },
  {
   "property": "C55",
   "status": "proved",
   "theorems": [
    "C55_layout",
    "C55_one_layout",
    "C55_succeeds",
    "C55_row_misplaced",
    "C55_colspec_misplaced"
   ],
   "note": "For every regular tree (S_CalsParser.regular: tgroups, colspecs with positive numbers, sections, rows, entries; foreign elements anywhere; tables in entries). The specification laid_out includes the early filling caused by nested tables (see C43). C55_one_layout: the layout is unique; C55_succeeds: it is found whenever it exists and the attributes of the table are readable."
  },
  {
   "property": "C56",
   "status": "partial",
   "theorems": [
    "C56_cells",
    "C56_completed",
    "C56_rows",
    "C56_height_refuted"
   ],
   "note": "Proved for every regular Word table which is read without error: C56_cells (the cell at the place of a Word cell has exactly the background, vertical-align, align, borders and x-cell-empty of that cell), C56_completed (completing cells have neither content nor style), C56_rows (the insertion marks of the rows). Refuted for the heights of the rows: C56_height_refuted (the code reads hRule and val of w:trHeight from w:tblHeader, so the height of the row is lost). Keys outside of the list (border-collapse, border-spacing, box-shadow) are not specified."
  },
  {
   "property": "C57",
   "status": "partial",
   "theorems": [
    "C57_notes",
    "C57_succeeds",
    "C57_flattened",
    "C57_headers_refuted",
    "C57_other_cells_refuted",
    "C57_nested_text_refuted"
   ],
   "note": "Proved: C57_notes (for every document whose ROW elements are in the CORPUS of a TBL, the exact result: which rows go, which notes are written where, in which order, with which attributes), C57_succeeds, C57_flattened (tables in tables). Refuted: C57_headers_refuted (the TYPE of every row is removed, so header rows built from a table are not marked in the finished document), C57_other_cells_refuted (only the first cell of a footer row is kept), C57_nested_text_refuted (text and tail of a TBL in a TBL). A footer row with a table in another cell than the first one is not modelled faithfully here (the loop of the code stops there): see C89."
  },
  {
   "property": "C58",
   "status": "proved",
   "theorems": [
    "C58_attributes"
   ],
   "note": "For every document whose elements have distinct attribute names."
  },
  {
   "property": "C59",
   "status": "proved",
   "theorems": [
    "C59_page"
   ],
   "note": "C59_page: the attribute PAGE.SIZE for each orientation and size, the limits being 649x918 and 918x649 points; the size of an A4 page when it is not known."
  },
  {
   "property": "C60",
   "status": "proved",
   "theorems": [
    "C60_cals"
   ],
   "note": "C60_cals: the attributes of table/tgroup, colspec, row and entry are those of the styles (relations table_look, column_look, row_look, cell_look of S_Attrs.v), the sections holding each row once; the marks around inserted rows are read back as XML attributes. The text of a number is a parameter (two decimals); the frame is exact when one of the six frames shows the borders (see C38)."
  },
  {
   "property": "C61",
   "status": "proved",
   "theorems": [
    "C61_cals"
   ],
   "note": "C61_cals: the same relations on CORPUS, colspec, ROW and CELL, for all rows but the title; the style of the cells is written as TYPE (C48)."
  },
  {
   "property": "C62",
   "status": "proved",
   "theorems": [
    "C62_layout",
    "C62_one_layout",
    "C62_succeeds",
    "C62_title_refuted"
   ],
   "note": "M_FormexRead models parsers/formex.py (contextual parser over the events of iterwalk, all handlers). C62_layout: every successful parse of a proper CORPUS is the layout of S_FormexRead (first free column, spans, titles, notes, blanks, row and column styles); C62_one_layout: this layout is unique; C62_succeeds: whenever it exists (and the frame value is known) the parser finds it. C62_title_refuted: a TI.BLK with COL.START=2 and no COL.END raises ValueError."
  },
  {
   "property": "C63",
   "status": "partial",
   "theorems": [
    "C63_no_hole",
    "C63_overlap_refuted",
    "C63_no_overlap_partial"
   ],
   "note": "C63_no_hole holds for every tree. No overlap: refuted (C63_overlap_refuted: a wide cell slides under a cell of an upper row), proved when no cell spans several rows (C63_no_overlap_partial)."
  },
  {
   "property": "C64",
   "status": "proved",
   "theorems": [
    "C64_table_attributes"
   ],
   "note": "C64_table_attributes, for every CORPUS whatever it contains (nested tables too)."
  },
  {
   "property": "C65",
   "status": "partial",
   "theorems": [
    "C65_notes_partial",
    "C65_hanging_refuted"
   ],
   "note": "C65_notes_partial: proved when no cell hangs below the last row; C65_hanging_refuted: otherwise the note moves right and makes the table wider."
  },
  {
   "property": "C66",
   "status": "partial",
   "theorems": [
    "C66_nested_notes_refuted",
    "C66_nested_refuted",
    "C66_nested_partial",
    "C66_nested_read_partial",
    "C66_nested_succeeds_partial",
    "C66_first_row_partial"
   ],
   "note": "Refuted: C66_nested_notes_refuted (the notes of a nested table become a footer row of the outer table and catch the following cells), C66_nested_refuted (holes are filled too early at the end of the nested CORPUS). Proved: nested tables without notes are ignored whenever the enclosing table has no hole when the nested table ends (C66_nested_read_partial, C66_nested_succeeds_partial), in particular in the first row (C66_first_row_partial); without nested tables the layout is the plain one (C66_nested_partial)."
  },
  {
   "property": "C67",
   "status": "partial",
   "theorems": [
    "C67_style_refuted",
    "C67_style_partial"
   ],
   "note": "C67_style_refuted: a CELL without TYPE in a HEADER row has cellstyle None (lxml then raises TypeError). C67_style_partial: proved when such cells have a TYPE or the row is NORMAL."
  },
  {
   "property": "C68",
   "status": "partial",
   "theorems": [
    "C68_round_trip_partial",
    "C68_same_cells_partial",
    "C68_footer_refuted",
    "C68_ie_refuted",
    "C68_again_refuted",
    "C68_title_refuted"
   ],
   "note": "C68_round_trip_partial: for a tiled table whose rows list their cells from left to right and whose contents hold no table element or IE, reading the tree of the builder gives the same boxes and contents; the nature of each cell is the one of its TYPE or of its row (footers become body rows), the styles are kept as far as the CALS attributes are written (with use_cals) or not at all (without). C68_same_cells_partial: with header and body cells the natures are the same. The styles of columns are kept too, the width in the unit of the builder. Missing: tables written with a TITLE (C68_title_refuted). Refuted: footers are read as body (C68_footer_refuted), an IE of a content is read as an empty cell (C68_ie_refuted), a header which was read back cannot be written again with CALS attributes (C68_again_refuted). The trees are the ones of the builder, before the clean-up of the document."
  },
  {
   "property": "C69",
   "status": "partial",
   "theorems": [
    "C69_finished_partial",
    "C69_same_cells_partial",
    "C69_header_refuted",
    "C69_footer_first_refuted",
    "C69_footer_cells_refuted"
   ],
   "note": "C69_finished_partial: for a tiled table whose rows list their cells from left to right, whose contents hold no table element, notes or IE, whose footers are its last rows (each one a cell over the whole width) and whose other rows are no titles of blocks, the finished document can be read and has the same boxes and contents; footers are read as footers; the types and levels of the other rows are those said by their rowstyle (with use_cals), and the natures follow; the styles are kept as far as CALS attributes are written; those of a footer row go to its cell. C69_same_cells_partial: if the row styles say the natures and cells have the natures of their rows, cells and natures are the same. Column styles are kept too. Missing: TITLE, titles of blocks, other elements around the table. Refuted: a header without rowstyle is read as body (C69_header_refuted), a footer which is not last is moved (C69_footer_first_refuted), the second cell of a footer row is lost (C69_footer_cells_refuted)."
  },
  {
   "property": "C70",
   "status": "proved",
   "theorems": [
    "C70_cals",
    "C70_formex",
    "C70_word"
   ],
   "note": "for any input of the three parsers whenever parsing succeeds: the table is reachable by public methods, the row views own exactly the cells which start in them, and the cells come in order."
  },
  {
   "property": "C71",
   "status": "proved",
   "theorems": [
    "C71_cals2formex",
    "C71_cals2cals",
    "C71_formex2cals",
    "C71_ooxml2cals",
    "C71_ooxml2formex"
   ],
   "note": "for the four converters (and CALS to CALS) with any options, whenever the conversion succeeds: the cells of the source layout (C55, C62, the regions Word displays) are a permutation of the written entries or CELLs (a first row made the TITLE excepted, with the option detect_titles); contents are the nodes given to the builder."
  },
  {
   "property": "C72",
   "status": "partial",
   "theorems": [
    "C72_cals2formex_partial",
    "C72_formex2cals_partial",
    "C72_ooxml2cals_partial",
    "C72_ooxml2formex_partial",
    "C72_cals_rectangle",
    "C72_formex_rectangle",
    "C72_cals_flat",
    "C72_formex_flat",
    "C72_rectangle_refuted",
    "C72_lines_refuted",
    "C72_footer_refuted",
    "C72_namespace_refuted"
   ],
   "note": "proved for the four converters with any options: places, contents, row natures; with the CALS attributes also alignments, backgrounds, lines and the attributes of the table. Hypotheses: the layout is a rectangle (follows from C72_cals_rectangle and C72_formex_rectangle when columns are declared first and cells do not overlap), no element of the target format in contents, rows in the order of the sections (to CALS), no title detection. Refuted: lines of cells in Formex to CALS, footers in Formex, default name space of CALS attributes. The styles of the columns are kept (for Word tables the width), and those of the rows to CALS."
  },
  {
   "property": "C73",
   "status": "proved",
   "theorems": [
    "C73_page",
    "C73_cals",
    "C73_formex"
   ],
   "note": "The reading of the numbers of a page size is a parameter (ox_page), as in C49."
  },
  {
   "property": "C74",
   "status": "proved",
   "theorems": [
    "C74_refused",
    "C74_formex2cals",
    "C74_ooxml2cals",
    "C74_cals2formex",
    "C74_ooxml2formex"
   ],
   "note": "The namespace prefixes themselves are not in the model: a name is a name space and a local name."
  },
  {
   "property": "C75",
   "status": "proved",
   "theorems": [
    "C75_word_to_cals",
    "C75_word_to_cals_failure",
    "C75_root"
   ],
   "note": "Model of the loop over the tables of a document whose tables are not nested (hypothesis not_nested); the document is its root element. C75_root: the code raises when the root itself is a table."
  },
  {
   "property": "C76",
   "status": "partial",
   "theorems": [
    "C76_cals_to_formex",
    "C76_word_to_formex"
   ],
   "note": "Hypotheses: no nested tables (see C80); no element of the source named TBL, ROW or CORPUS (such elements are also numbered and finished by the passes). Which error is raised when several tables cannot be converted is stated by C85."
  },
  {
   "property": "C77",
   "status": "proved",
   "theorems": [
    "C77_cals",
    "C77_word",
    "C77_formex"
   ],
   "note": "For every element, regular or not, whenever the parser succeeds; the nodes in the cells are compared without the text which follows them (the pieces of a content)."
  },
  {
   "property": "C78",
   "status": "proved",
   "theorems": [
    "C78_formex_to_cals",
    "C78_failure",
    "C78_root",
    "C78_text_refuted"
   ],
   "note": "For documents without nested CORPUS; C78_text_refuted: the text which follows notes is lost."
  },
  {
   "property": "C79",
   "status": "proved",
   "theorems": [
    "C79_no_corpus",
    "C79_no_word_table",
    "C79_no_cals_table",
    "C79_no_word_table_formex"
   ],
   "note": "For documents without nested tables; C80 says it for all CALS and Word documents, and for Formex documents whose nested CORPUS have an element around them."
  },
  {
   "property": "C80",
   "status": "proved",
   "theorems": [
    "C80_cals_to_formex",
    "C80_word_to_formex",
    "C80_word_to_cals",
    "C80_no_cals_table",
    "C80_no_word_table_formex",
    "C80_no_word_table_cals",
    "C80_cals_flat",
    "C80_word_flat",
    "C80_cals_failure",
    "C80_formex_to_cals",
    "C80_no_corpus",
    "C80_formex_failure",
    "C80_formex_flat",
    "C80_formex_notes_refuted",
    "C80_word_sections_to_cals",
    "C80_word_sections_to_formex",
    "C80_inner_section_refuted"
   ],
   "note": "Identity of nodes is modelled by labels (an attribute with an empty name, which no XML document has) on the tables; the statement speaks of the labelled document: each table is converted without its own label, while the tables of its cells have theirs. The section read with each Word table, also a nested one, and its number are stated in C80_word_sections_to_cals and C80_word_sections_to_formex for documents where no section is inside a table and no table inside a section; the number k of a CALS or Formex table is not stated (the numbers are those of C47 after finishing). Formex: hypothesis that a CORPUS inside a CORPUS is not a child of a CELL, TI.BLK, STI.BLK or GR.NOTES (a TBL is around it in Formex). The notes before a nested CORPUS are rows of the enclosing table, and the cells which follow it leave their row (C80_formex_notes_refuted). For documents without nested tables the two models agree (C80_cals_flat, C80_word_flat; C80_formex_flat for conversions which do not fail)."
  },
  {
   "property": "C81",
   "status": "proved",
   "theorems": [
    "C81_there_and_back",
    "C81_lines_refuted"
   ],
   "note": "The tables have no hole and no footer, their cells contain no table and no element with a Formex or CALS name, the rows named by rowstyle are not titles of blocks and come in the order of the sections; the options agree on the name space of the CALS attributes and the Formex name space is the default one. C81_lines_refuted: the lines of the cells (colsep, rowsep), the colour of the rows and the headers without rowstyle are lost."
  },
  {
   "property": "C82",
   "status": "partial",
   "theorems": [
    "C82_word_to_cals",
    "C82_formex_to_cals",
    "C82_nested_word_to_cals",
    "C82_cals_to_formex",
    "C82_word_to_formex",
    "C82_types_refuted"
   ],
   "note": "Towards CALS the second conversion is the identity (Word also with nested tables). Towards Formex the plain claim is false (C82_types_refuted): the second conversion removes the TYPE of the ROW elements, as the finishing pass takes the type from the CALS row style which the first pass removed; proved is that exactly this happens, that a third conversion changes nothing, and that nothing changes at all without the CALS attributes. Missing: documents with nested tables towards Formex, and documents which contain elements named TBL, ROW or CORPUS before the conversion towards Formex."
  },
  {
   "property": "C83",
   "status": "proved",
   "theorems": [
    "C83_written",
    "C83_complete",
    "C83_failure",
    "C83_causes",
    "C83_missing",
    "C83_reads",
    "C83_in_place"
   ],
   "note": "The XML library is arbitrary: reading is a function from bytes to a document, writing a function from an encoding and a document to bytes. Two paths are the same file when they are equal strings; a file which can be opened is written completely; nothing else writes the disk during the conversion."
  },
  {
   "property": "C84",
   "status": "proved",
   "theorems": [
    "C84_same_parser",
    "C84_one_file",
    "C84_each",
    "C84_order"
   ],
   "note": "The state of a parser which survives a file is the counter of the Formex builder; the other attributes are set again for each table or document (cited in M_Files.v), which is part of the model."
  },
  {
   "property": "C85",
   "status": "proved",
   "theorems": [
    "C85_cals_to_formex",
    "C85_word_to_formex",
    "C85_word_to_cals",
    "C85_formex_to_cals"
   ],
   "note": "The error is the class of the exception, not its text. From Formex no CORPUS may be directly in a CELL, TI.BLK, STI.BLK or GR.NOTES (the hypothesis wrapped of C80). The parent, the notes and the sections which the parser sees beside a table are those which exist, not fixed by the statement: from Word and Formex the table fails for some section or notes."
  },
  {
   "property": "C86",
   "status": "proved",
   "theorems": [
    "C86_lines",
    "C86_succeeds",
    "C86_error",
    "C86_rectangle",
    "C86_default",
    "C86_empty",
    "C86_cut_refuted"
   ],
   "note": "The tiles have no line break but newlines, and the texts of the cells none among their first nine characters (see C33_line_break_refuted). C86_cut_refuted: a tile which has more lines than the first one of its row is cut."
  },
  {
   "property": "C87",
   "status": "proved",
   "theorems": [
    "C87_refines",
    "C87_table_calls",
    "C87_same_object",
    "C87_reading_gives",
    "C87_cells",
    "C87_calls_on_object",
    "C87_stays",
    "C87_dropped_for_ever",
    "C87_attributes",
    "C87_dropped_attributes",
    "C87_insert_on_object",
    "C87_dropped_insert_refuted",
    "C87_dropped_insert_fails_refuted"
   ],
   "note": "Proved for all reachable states and histories, including the refinement of the model by value (M_Table.v) by the model with object identities. The two _refuted theorems show what the statement warns of: through a detached object a cell can be put at another place than the first free one, and an insertion can fail although a place is free."
  },
  {
   "property": "C88",
   "status": "proved",
   "theorems": [
    "C88_each_row_once",
    "C88_one_cell_each",
    "C88_tall_never_completes",
    "C88_tall_runs_for_ever"
   ],
   "note": "Proved for all reachable states. The bound on the number of turns (fuel) only serves to write the loop as a total function: the theorems on loops which end hold for every bound larger than the number of rows, those on loops which do not complete hold for every bound. The body of the loop is one call on the row; bodies which delete or merge cells of the table are not covered."
  },
  {
   "property": "C89",
   "status": "partial",
   "theorems": [
    "C89_notes_partial",
    "C89_finalize_partial",
    "C89_stops",
    "C89_footer_left",
    "C89_every_row_refuted"
   ],
   "note": "Proved: C89_notes_partial (when the tables in footer rows only stand in the first cells, the loop of the code treats every row: the result is the one of C57), C89_finalize_partial (the same for all the passes of finalize_tree, so that C56, C57, C58, C69 hold of the loop). Refuted: C89_every_row_refuted (a table built by calls, completed: a footer row with a table in its second cell; the next footer row stays in the CORPUS, marked \"__GR.NOTES__\"); C89_stops and C89_footer_left say it for all such documents: everything after the row in the CORPUS and after the CORPUS is unchanged. Read from lxml, which is not part of the repository: the iterator holds the next row, and does not leave a removed subtree."
  },
  {
   "property": "C90",
   "status": "partial",
   "theorems": [
    "C90_cells",
    "C90_separate",
    "C90_table",
    "C90_both_refuted",
    "C90_lengths_refuted",
    "C90_shadow_refuted"
   ],
   "note": "Proved: C90_cells (for every regular table read without error, exactly which values the three styles of each cell have), C90_separate (a cell has a spacing exactly when its borders are separate), C90_table (own borders, then the nearest style of the chain, for the table and for the borders inside). Refuted: C90_lengths_refuted (the sides without shadow are written \"0ptpt\", which is not a length), C90_shadow_refuted (a shadow on a border without size raises KeyError), C90_both_refuted (a table may at once be collapsed, by its own borders, and spaced, by its style)."
  },
  {
   "property": "C91",
   "status": "partial",
   "theorems": [
    "C91_repr",
    "C91_text",
    "C91_size_str",
    "C91_row",
    "C91_row_refuted"
   ],
   "note": "Proved: C91_repr (injective across the three kinds and both versions of Python), C91_text (the exact text), C91_size_str, C91_row. Refuted: C91_row_refuted (a comma in the text of a cell: rows with one and two cells have the same text). repr of cells, grids and styles (which contain texts and dictionaries of Python) is not modelled."
  },
  {
   "property": "C92",
   "status": "partial",
   "theorems": [
    "C92_cals",
    "C92_formex",
    "C92_pictures",
    "C92_symbols_refuted"
   ],
   "note": "Proved: C92_cals (every visible cell is written in full), C92_formex (exactly which cells are replaced by IE), C92_pictures (every w:drawing and w:pict of a visible cell is in the result). Refuted: C92_symbols_refuted (a cell with only a symbol, w:sym, such as a tick, or an embedded object, w:object, is replaced by IE: the symbol is lost). Title detection off; the cells of a title are in C48_titles."
  },
  {
   "property": "C93",
   "status": "partial",
   "theorems": [
    "C93_document",
    "C93_cals",
    "C93_formex",
    "C93_written",
    "C93_word_to_cals",
    "C93_formex_to_cals_refuted",
    "C93_cals_to_formex_refuted"
   ],
   "note": "Proved: C93_document (no default name space: all names are the same), C93_cals and C93_formex (exactly for which options and contents the names of a table are the same), C93_word_to_cals (from Word the default name space is harmless). Refuted: C93_formex_to_cals_refuted (cals_ns without prefix: the elements of the contents, which have no name space, are read in the one of CALS), C93_cals_to_formex_refuted (use_cals with an empty cals_prefix: TBL and all other elements are read in the name space of CALS). What lxml may write is a relation: names without name space have no prefix, whatever the default is; the source nodes are supposed to declare no default name space of their own."
  },
  {
   "property": "C94",
   "status": "partial",
   "theorems": [
    "C94_through_cals",
    "C94_word_partial",
    "C94_equal_refuted"
   ],
   "note": "C94_through_cals is about any table read by a parser and any blank contents; C94_word_partial about the three conversions. Missing: the hypotheses of C72_ooxml2cals_partial (rows not wider than the grid, header rows first, no CALS element in the paragraphs), the same detect_titles in both Formex builders, the same CALS name space in both steps; the attributes other than COL, COLSPAN, ROWSPAN and the TYPE of the rows. C94_equal_refuted: full equality of contents is false, a tick (w:sym) is kept through CALS and lost directly."
  },
  {
   "property": "C95",
   "status": "proved",
   "theorems": [
    "C95_events",
    "C95_unique",
    "C95_named",
    "C95_elements_refuted",
    "C95_parents",
    "C95_parsers",
    "C95_context"
   ],
   "note": "C95_events, C95_unique, C95_named for the Python walk; C95_parsers, C95_parents (CALS, Word) and C95_context (Formex) for the walks of the models of the parsers. C95_elements_refuted is about a difference with lxml which the library never meets: without names the Python walk also gives the comments. Loops which change the tree while they walk are treated in C57, C58 and C89."
  },
  {
   "property": "C96",
   "status": "proved",
   "theorems": [
    "C96_again",
    "C96_word"
   ],
   "note": "C96_again for every table read by a parser (well_read: reachable, rows ordered, tiled) and any options of the second writer; C96_word for Word tables converted to CALS. Attributes other than cols, namest, nameend, morerows are those of C42, C54 and C60."
  },
  {
   "property": "C97",
   "status": "proved",
   "theorems": [
    "C97_again",
    "C97_footer_refuted",
    "C97_word"
   ],
   "note": "C97_again for every table read by a parser (well_read), C97_word for Word tables converted to Formex; C97_footer_refuted shows the case which the statement excludes. That the second writing may raise TypeError with CALS attributes is C68_again_refuted; the statement is about writings which succeed."
  },
  {
   "property": "C98",
   "status": "partial",
   "theorems": [
    "C98_through_formex",
    "C98_word_partial",
    "C98_header",
    "C98_word_header",
    "C98_header_refuted",
    "C98_equal_refuted"
   ],
   "note": "C98_through_formex (any table read by a parser, without footers) and C98_word_partial: whenever both conversions succeed, the rows and entries are the same, but for the cells which Formex marks as empty: they have no content. Refuted: success, as every table with a header cell fails on the second step (C98_header for any table read, C98_word_header for every Word table with a header row which has a cell of its own, C98_header_refuted: TypeError, see C67); equal contents, as a tick or an object is lost (C98_equal_refuted, see C92)."
  },
  {
   "property": "C99",
   "status": "proved",
   "theorems": [
    "C99_cals",
    "C99_formex"
   ],
   "note": "C99_cals: the sections of the CALS table, one after the other, hold for each Word row its row element, between the two instructions exactly if the row is inserted, with the id, author and date of w:ins; C99_formex: the same for the CORPUS, with and without the CALS attributes. Assumed: regular merges, rows which fit in the grid; for CALS the sections stay in order, for Formex no titles."
  }
 ]
}
