{"id": "C01", "title": "Coordinate and size arithmetic is a translation action", "statement": "Adding a Size (or a pair, or an integer) to a Coord and subtracting it again gives back the same Coord; adding two sizes one after the other is adding their sum; Size supports +, -, * and unary minus with the usual laws; an operand of any other type raises TypeError and nothing else.", "quantifier": "every integer x, y, width, height (unbounded, of any sign) and every operand, well typed or not", "why_tests_cant": "infinitely many integers and operand types", "anchors": ["benker/coord.py: Coord.__add__, Coord.__sub__, Coord.from_value", "benker/size.py: Size.__add__, Size.__sub__, Size.__mul__, Size.__neg__, Size.from_value"]}
{"id": "C02", "title": "A Box is always a non-empty rectangle of positive coordinates", "statement": "Box(...) accepts exactly the documented argument forms (Coord+Coord, Coord+Size, Coord, four ints, two ints, a Box); it raises TypeError for every other form, ValueError exactly when 0 < min <= max fails in one dimension, and otherwise returns the box with the described corners. Every box the library hands out has width >= 1 and height >= 1, and its size describes its corners.", "quantifier": "every argument list", "why_tests_cant": "the argument space (types and integers) is infinite", "anchors": ["benker/box.py: Box.__new__, Box.width, Box.height, Box.size"]}
{"id": "C03", "title": "Box membership is membership in the set of coordinates", "statement": "`coord in box` holds exactly for the coordinates between the two corners (both included); `box2 in box1` holds exactly when every coordinate of box2 belongs to box1; the number of coordinates of a box is width * height.", "quantifier": "every box, every coordinate, every pair of boxes", "why_tests_cant": "quantifies over all coordinates of boxes of unbounded size", "anchors": ["benker/box.py: Box.__contains__, Box.width, Box.height"]}
{"id": "C04", "title": "Box.union is the smallest enclosing box", "statement": "box.union(*others) never raises; the result contains every given box and is contained in every box which contains all of them; the result does not depend on the order of the boxes and a repeated box changes nothing.", "quantifier": "every non-empty finite family of boxes", "why_tests_cant": "all families of boxes, any number of them; minimality quantifies over all other boxes", "anchors": ["benker/box.py: Box.union, Box.__or__"]}
{"id": "C05", "title": "Box.intersection is the exact common area", "statement": "box.intersection(*others) returns a box whose coordinates are exactly those common to all the boxes; it raises ValueError exactly when the boxes have no common coordinate.", "quantifier": "every non-empty finite family of boxes", "why_tests_cant": "all families of boxes and all coordinates", "anchors": ["benker/box.py: Box.intersection, Box.__and__"]}
{"id": "C06", "title": "Box.intersect / isdisjoint decide whether two boxes share a coordinate", "statement": "b1.intersect(b2) is True exactly when some coordinate belongs to both boxes, isdisjoint is its negation, and both are symmetric.", "quantifier": "every pair of boxes", "why_tests_cant": "all relative positions and sizes of two rectangles (crossing, corner, containing...)", "anchors": ["benker/box.py: Box.intersect, Box.isdisjoint"]}
{"id": "C07", "title": "Moving and resizing a box or a cell changes nothing else", "statement": "move_to(c) gives a box with top-left corner c and the same size; resize(s) keeps the top-left corner and gives size s; moving back restores the box; a cell keeps its content, styles and nature; ValueError is raised exactly when the target is not a valid box, TypeError exactly when the argument is not a coordinate / size.", "quantifier": "every box or cell, every target coordinate and size, well typed or not", "why_tests_cant": "all integers and argument types", "anchors": ["benker/box.py: Box.transform, Box.move_to, Box.resize", "benker/cell.py: Cell.transform, Cell.move_to, Cell.resize"]}
{"id": "C08", "title": "Boxes are totally ordered, row by row", "statement": "The comparison operators <, <=, >, >= and == on boxes are mutually consistent and form a total order which sorts boxes by rows first, then by columns.", "quantifier": "every pair and triple of boxes", "why_tests_cant": "order laws quantify over all pairs/triples", "anchors": ["benker/box.py: Box.__lt__, functools.total_ordering on Box"]}
{"id": "C09", "title": "Cells are totally ordered like their boxes", "statement": "The comparison operators on cells (and between cells and boxes) are consistent with the order of the boxes: exactly one of a < b, a > b, 'same box' holds.", "quantifier": "every pair and triple of cells", "why_tests_cant": "order laws quantify over all pairs/triples", "anchors": ["benker/cell.py: Cell.__lt__, functools.total_ordering on Cell"]}
{"id": "C10", "title": "Alphabetic numbering is a bijection", "statement": "int_to_alphabet and alphabet_to_int are mutually inverse between the non-negative integers and the words over the alphabet, for every alphabet without repeated letters; the numbering is increasing for the length-then-dictionary order; negative integers and unknown letters raise ValueError.", "quantifier": "every non-negative integer, every word, every alphabet", "why_tests_cant": "infinitely many integers, words and alphabets", "anchors": ["benker/alphabet.py: int_to_alphabet, alphabet_to_int"]}
{"id": "C11", "title": "The spreadsheet notation identifies coordinates and boxes", "statement": "str(coord) and str(box) (like 'B3' and 'A1:B3') are different for different coordinates with positive x / different boxes, and never fail for boxes.", "quantifier": "every pair of boxes", "why_tests_cant": "all pairs of unbounded coordinates", "anchors": ["benker/coord.py: Coord.__str__", "benker/box.py: Box.__str__"]}
{"id": "C12", "title": "The text of a cell is the text of its content, in order", "statement": "str(cell) of a list is the concatenation of the texts of the items, None gives the empty string, and the text of an XML node is the text of its descendants in document order including tails, comments and processing instructions contributing only their tail.", "quantifier": "every content (texts, numbers, nested lists, XML trees)", "why_tests_cant": "contents are trees of arbitrary depth and width", "anchors": ["benker/cell.py: get_content_text, _get_node_text, _safe_text, Cell.__str__"]}
{"id": "C13", "title": "Cells, rows and tables own their styles", "statement": "Styles are copied when given to a cell, row or table, when a cell is copied by move_to/resize/transform, inserted in a grid, or merged: changing a style dictionary reachable from one of them never changes the styles of another one, nor of the dictionary given by the caller.", "quantifier": "every history of creating, copying, inserting, merging and style changes", "why_tests_cant": "aliasing depends on the whole history of operations", "anchors": ["benker/styled.py: Styled.__init__, Styled.styles", "benker/cell.py: Cell.__init__, Cell.transform", "benker/grid.py: Grid.__setitem__, Grid.merge"]}
{"id": "C14", "title": "A grid always iterates its cells row by row, left to right", "statement": "After any sequence of operations, successful or failing, iterating the grid yields the cells in strictly increasing order of their top-left corner (row first, then column).", "quantifier": "every initial collection of cells and every history of insert, delete, merge, expand", "why_tests_cant": "unbounded histories and any number of cells", "anchors": ["benker/grid.py: Grid.__init__, Grid.__setitem__, Grid.__delitem__, Grid.merge, Grid.expand, Grid.__iter__"]}
{"id": "C15", "title": "Cells of a grid never overlap", "statement": "After any sequence of operations, no coordinate belongs to two cells of the grid: an insertion which would overlap raises KeyError, a merge which would cut a cell raises ValueError.", "quantifier": "every history of grid operations, every cell shape", "why_tests_cant": "all histories and all shapes of rectangles", "anchors": ["benker/grid.py: Grid.__setitem__, Grid.merge", "benker/box.py: Box.intersect"]}
{"id": "C16", "title": "Lookup, membership and iteration agree", "statement": "After any history: `c in grid` is True exactly when grid[c] succeeds, exactly when some iterated cell covers c; grid[c] then returns an iterated cell covering c; looking up the top-left or the bottom-right corner of an iterated cell returns that very cell; otherwise KeyError. Coordinates which are not pairs of integers raise TypeError.", "quantifier": "every history and every coordinate", "why_tests_cant": "all histories and all coordinates", "anchors": ["benker/grid.py: Grid.__contains__, Grid.__getitem__, Grid.get"]}
{"id": "C17", "title": "Inserting a cell adds exactly that cell", "statement": "A successful grid[c] = cell makes the grid contain its old cells unchanged plus one copy of the cell (same content, styles, nature and size) whose top-left corner is c; grid[c] returns it. The insertion raises KeyError exactly when the library sees an intersection with an existing cell, ValueError exactly when c is not a positive coordinate.", "quantifier": "every reachable grid, every cell, every coordinate", "why_tests_cant": "all grids and cells; the frame part quantifies over all other cells", "anchors": ["benker/grid.py: Grid.__setitem__"]}
{"id": "C18", "title": "Deleting removes exactly the cell found by lookup", "statement": "del grid[c] removes the cell grid[c] and nothing else, raises KeyError exactly when c is not in the grid; inserting the removed cell again restores the grid.", "quantifier": "every reachable grid and coordinate", "why_tests_cant": "all grids", "anchors": ["benker/grid.py: Grid.__delitem__"]}
{"id": "C19", "title": "A grid depends only on its set of cells", "statement": "Building a grid from a collection of cells gives the same grid whatever the order of the collection; a grid built from another grid is equal to it; if the cells clash, KeyError is raised whatever the order.", "quantifier": "every finite collection of cells and every permutation of it", "why_tests_cant": "all permutations of any number of cells", "anchors": ["benker/grid.py: Grid.__init__"]}
{"id": "C20", "title": "The bounding box is the smallest box around the cells", "statement": "grid.bounding_box is None exactly for an empty grid; otherwise it contains every cell and is included in every box which contains all cells; inserting grows it to the union, deleting never grows it.", "quantifier": "every reachable grid", "why_tests_cant": "all grids; minimality quantifies over all boxes", "anchors": ["benker/grid.py: Grid.bounding_box"]}
{"id": "C21", "title": "Merging replaces exactly the cells of the area by one cell", "statement": "A successful merge(start, end) replaces the cells included in the area by one cell with exactly this area; all other cells are unchanged; its content is the left-to-right, top-to-bottom combination of the non-None contents, its styles are the union where later cells win, its nature is the one of the top-left-most cell. It raises ValueError exactly when there is no cell in the area, or one is seen as partially overlapping, or the area is not a box.", "quantifier": "every reachable grid, every area, every content appender", "why_tests_cant": "all grids, areas and appenders", "anchors": ["benker/grid.py: Grid.merge"]}
{"id": "C22", "title": "A failing operation leaves the grid and the table unchanged", "statement": "When an insertion, deletion, merge or expansion raises an exception (including an exception raised by the user-supplied content appender), the cells (and for a table its row and column views) are the same as before the call.", "quantifier": "every reachable grid or table, every operation, every appender that may raise at any call", "why_tests_cant": "all states, all failure points", "anchors": ["benker/grid.py: Grid.__setitem__, Grid.__delitem__, Grid.merge, Grid.expand", "benker/table.py: Table.__setitem__, Table.__delitem__, Table.merge, Table.expand"]}
{"id": "C23", "title": "Expanding or shrinking a cell", "statement": "expand(c, width, height) gives the cell at c exactly that many more columns and rows, swallowing the cells of the new area; with 0, 0 it changes nothing; with negative numbers it shrinks the cell.", "quantifier": "every reachable grid, every cell, all integers width and height", "why_tests_cant": "all grids and amounts", "anchors": ["benker/grid.py: Grid.expand"]}
{"id": "C24", "title": "iter_rows partitions the cells by rows", "statement": "The groups yielded by iter_rows are non-empty, each contains all the cells starting on one row and no other, row numbers increase strictly, and chaining the groups gives the iteration of the grid.", "quantifier": "every reachable grid", "why_tests_cant": "all grids", "anchors": ["benker/grid.py: Grid.iter_rows"]}
{"id": "C25", "title": "A grid or table behaves like a mutable mapping", "statement": "The inherited mapping methods get, pop, setdefault, update, keys, items, values, popitem, clear and == work on a grid as on any mapping from coordinates to cells.", "quantifier": "every reachable grid and argument", "why_tests_cant": "all grids", "anchors": ["benker/grid.py: class Grid(MutableMapping), Grid.__iter__", "benker/table.py: class Table(Styled, MutableMapping)"]}
{"id": "C26", "title": "Row and column views agree with the table", "statement": "At every moment table.rows[p] owns exactly the cells whose top row is p and catches exactly the cells which span row p, each once; the same for table.cols.", "quantifier": "every history of table operations, every position", "why_tests_cant": "views are cached and updated incrementally: correctness depends on the whole history", "anchors": ["benker/table.py: TableViewList.adopt_cell, TableViewList.refresh_all, TableViewList._fit_to_size, TableView.adopt_cell, RowView.can_own, RowView.can_catch, Table._refresh_views, ViewsProperty.__get__"]}
{"id": "C27", "title": "Row views list their cells from left to right", "statement": "row.owned_cells lists the cells of the row by increasing column (the builders emit them in this order).", "quantifier": "every history of table operations", "why_tests_cant": "the order depends on the history of insertions", "anchors": ["benker/table.py: TableView.adopt_cell, TableView.owned_cells"]}
{"id": "C28", "title": "The number of row/column views follows the table", "statement": "After a deletion, merge or expansion len(table.rows) and len(table.cols) are exactly the bottom row and right column of the bounding box (0 for an empty table); at any moment they are at least that, and reading a view never removes cells.", "quantifier": "every history of table operations", "why_tests_cant": "all histories", "anchors": ["benker/table.py: TableViewList._fit_to_size, TableViewList.refresh_all, TableViewList.__getitem__, TableViewList.__len__"]}
{"id": "C29", "title": "insert_cell uses the next free position", "statement": "row.insert_cell puts the cell at the smallest column such that the coordinate of this row is free; a 1x1 insertion never fails; the nature is the given one or the one of the row; no other cell changes; a too large cell either raises KeyError without effect or is inserted. The same for columns.", "quantifier": "every reachable table, every row, every cell size", "why_tests_cant": "all tables and sizes", "anchors": ["benker/table.py: RowView.insert_cell, ColView.insert_cell"]}
{"id": "C30", "title": "fill_missing fills exactly the holes", "statement": "fill_missing(box, content, styles, nature) never fails, leaves all existing cells unchanged, adds one 1x1 cell with the given content, styles and nature at each coordinate of the box which was free, and nothing else; doing it twice adds nothing more.", "quantifier": "every reachable table and every box", "why_tests_cant": "all tables and boxes of any size", "anchors": ["benker/table.py: Table.fill_missing"]}
{"id": "C31", "title": "Row and column attributes survive table changes", "statement": "The nature and styles set on a row or column are never changed by inserting, deleting, merging, expanding or filling cells while the row or column is still within the bounding box.", "quantifier": "every history of table operations", "why_tests_cant": "all histories", "anchors": ["benker/table.py: TableViewList.refresh_all, TableViewList._fit_to_size"]}
{"id": "C32", "title": "A table holds the same cells as a grid with the same history", "statement": "Whatever the calls made to a table (including through its rows and columns), its cells, lookups, iteration, bounding box and exceptions are the ones of a plain grid receiving the corresponding calls.", "quantifier": "every history of table operations", "why_tests_cant": "refinement over all histories", "anchors": ["benker/table.py: Table.__setitem__, Table.__getitem__, Table.__delitem__, Table.merge, Table.expand, Table.__iter__, Table.__len__"]}
{"id": "C33", "title": "Drawing a grid gives a rectangle of text", "statement": "str(grid) never fails; for an empty grid it is the empty string; otherwise it has 2 * rows + 1 lines of 12 * columns + 1 characters each.", "quantifier": "every reachable grid and all cell texts", "why_tests_cant": "all grids and texts", "anchors": ["benker/drawing.py: draw, iter_lines, iter_tiles, TILES"]}
{"id": "C34", "title": "The drawing shows each cell once with its borders", "statement": "In the drawing each cell's text (first 9 characters, centred) appears in exactly one tile, lying inside the cell; a tile has a left (top) border exactly at the left (top) edge of its cell, a right (bottom) border exactly at the right (bottom) edge of the grid.", "quantifier": "every reachable grid", "why_tests_cant": "all grids", "anchors": ["benker/drawing.py: iter_tiles, TILES"]}
{"id": "C35", "title": "Width strings are parsed as value and unit", "statement": "parse_width reads a decimal number with optional sign and optional unit at the first place where there is one, uses the default unit if there is none, and fails with IndexError exactly when the string contains no digit.", "quantifier": "every string", "why_tests_cant": "all strings", "anchors": ["benker/units.py: parse_width"]}
{"id": "C36", "title": "Unit conversion is proportional", "statement": "convert_value (in exact arithmetic) is within 0.0005 of value * unit_in / unit_out; converting to the same unit changes nothing beyond rounding to 3 decimals and rounding is idempotent; unknown units raise KeyError.", "quantifier": "every value and every pair of units", "why_tests_cant": "infinitely many values", "anchors": ["benker/units.py: convert_value, UNITS"]}
{"id": "C37", "title": "No text or element of a cell is lost when an entry is built", "statement": "append_cell_elements puts the content in the element so that the text read back is the text of the content, the child elements are the elements of the content in the same order, with the texts between them attached at the right place.", "quantifier": "every cell content", "why_tests_cant": "mixed contents of any length", "anchors": ["benker/builders/base_builder.py: BaseBuilder.append_cell_elements"]}
{"id": "C38", "title": "CALS frame values and border styles correspond", "statement": "For the six CALS frame values, converting to border styles and back is the identity; for any border styles the frame attribute is one of the six values and shows exactly the sides having a border.", "quantifier": "every frame value, every style dictionary", "why_tests_cant": "all style dictionaries", "anchors": ["benker/parsers/cals/frame_styles.py", "benker/builders/cals.py: get_frame_attr"]}
{"id": "C39", "title": "The CALS tree describes the table", "statement": "The generated table has one colspec per column numbered 1..n, @cols = n, every row of the table appears exactly once, in a thead/tfoot/tbody according to its nature, with one entry per owned cell carrying exactly the spans of the cell (namest/nameend/morerows).", "quantifier": "every table", "why_tests_cant": "all tables", "anchors": ["benker/builders/cals.py: build_table, build_tgroup, build_colspec, build_row, build_cell"]}
{"id": "C40", "title": "Rows keep their order within each section", "statement": "In the generated CALS table the sections come in the order of tgroup_sorting, and within one nature rows keep their relative order.", "quantifier": "every table, every tgroup_sorting", "why_tests_cant": "all tables", "anchors": ["benker/builders/cals.py: build_tgroup, CalsBuilder.__init__"]}
{"id": "C41", "title": "A parsed CALS table has no hole and no overlap", "statement": "After parsing a CALS table every coordinate of the bounding box belongs to exactly one cell; each entry becomes one cell at the next free column of its row with the span given by its attributes, and holes are filled with empty cells.", "quantifier": "every CALS table (any rows, entries, spans)", "why_tests_cant": "all documents", "anchors": ["benker/parsers/cals/__init__.py: parse_table, parse_cals_row, parse_cals_entry"]}
{"id": "C42", "title": "Writing a table as CALS and reading it back preserves it", "statement": "For a table whose cells tile its bounding box, building the CALS tree and parsing it again gives the same cells at the same place with the same content text and nature.", "quantifier": "every complete table", "why_tests_cant": "all tilings of all sizes", "anchors": ["benker/builders/cals.py", "benker/parsers/cals/__init__.py"]}
{"id": "C43", "title": "Nested tables do not disturb the enclosing table", "statement": "The layout of a parsed table depends only on its own rows and entries, not on tables nested in the entries; nested tables are handled separately.", "quantifier": "every document with nested tables", "why_tests_cant": "all nestings", "anchors": ["benker/parsers/cals/__init__.py: parse_table", "benker/parsers/formex.py: parse_table", "benker/parsers/ooxml/__init__.py: parse_table"]}
{"id": "C44", "title": "An entry is placed at the column it names", "statement": "A CALS entry with namest/nameend is placed from the column namest to the column nameend.", "quantifier": "every CALS table", "why_tests_cant": "all documents", "anchors": ["benker/parsers/cals/__init__.py: parse_cals_entry"]}
{"id": "C45", "title": "Formex row style names are decoded exactly", "statement": "The information (row tag, type, level) encoded by the Formex parser in a row style name is decoded unchanged by the Formex builder.", "quantifier": "every row type and level", "why_tests_cant": "all strings and integers", "anchors": ["benker/parsers/formex.py: parse_fmx_row", "benker/builders/formex.py: guess_row_info"]}
{"id": "C46", "title": "Formex blocks are rebuilt according to levels", "statement": "Grouping rows in BLK elements puts each row at the nesting depth given by its level and keeps the order of rows; nothing is lost.", "quantifier": "every sequence of rows and levels", "why_tests_cant": "all sequences", "anchors": ["benker/builders/formex.py: insert_blk"]}
{"id": "C47", "title": "Formex table numbering is hierarchical and unique", "statement": "NO.SEQ numbers of the tables of a document are pairwise distinct; a nested table has the number of its enclosing table as prefix and siblings are numbered 0001, 0002... in document order.", "quantifier": "every document", "why_tests_cant": "all trees", "anchors": ["benker/builders/formex.py: update_no_seq"]}
{"id": "C48", "title": "The Formex tree describes the table", "statement": "The generated CORPUS has one ROW per table row in order, one CELL per owned cell with its column in COL and its spans in COLSPAN / ROWSPAN exactly when greater than 1.", "quantifier": "every table", "why_tests_cant": "all tables", "anchors": ["benker/builders/formex.py: build_corpus, build_row, build_cell"]}
{"id": "C49", "title": "A Word table is laid out as Word displays it", "statement": "For a regular Word table (rows of cells with gridSpan and vMerge restart/continue) the parsed table has one cell per visible merged region, with exactly its area.", "quantifier": "every regular Word table", "why_tests_cant": "all tables", "anchors": ["benker/parsers/ooxml/__init__.py: parse_table, parse_tc, parse_tr"]}
{"id": "C50", "title": "Word style inheritance: the nearest style wins", "statement": "The borders of a table style are the ones of the style itself, completed by those of the styles it is based on, the nearest one winning; the computation terminates for every style sheet.", "quantifier": "every style sheet", "why_tests_cant": "all inheritance chains", "anchors": ["benker/parsers/ooxml/__init__.py: _get_style_borders"]}
{"id": "C51", "title": "A converted document keeps everything around its tables", "statement": "Converting the tables of a document replaces each table by the generated one at the same place with the same tail and leaves everything else unchanged, whatever the position of the tables in the document.", "quantifier": "every document", "why_tests_cant": "all documents", "anchors": ["benker/parsers/base_parser.py: transform_tables", "benker/parsers/cals/__init__.py: transform_tables"]}
{"id": "C52", "title": "A generated CALS table has one section of each kind", "statement": "The generated CALS table has at most one thead, one tfoot and one tbody, whatever the natures of the rows.", "quantifier": "every table", "why_tests_cant": "all sequences of row natures", "anchors": ["benker/builders/cals.py: build_tgroup"]}
{"id": "C53", "title": "CALS separators show the borders of the cells", "statement": "In the generated CALS table the separator in force at the right of an entry and below it (its own attribute or the inherited one) is shown exactly when the border style of the cell is a line other than none; entries of the last column or row have none of their own.", "quantifier": "every table, every border style", "why_tests_cant": "all tables and styles", "anchors": ["benker/builders/cals.py: build_cell, build_colspec, get_colsep_attr, get_rowsep_attr"]}
{"id": "C54", "title": "The attributes of a CALS table are read exactly", "statement": "A parsed CALS table has the four borders shown by @frame, the width of @width converted to the wanted unit, the orientation, page width, background and separators given by the attributes of table and tgroup, a nature made of tabstyle and tgroupstyle, and no other style.", "quantifier": "every CALS table (any attributes, any number of tgroups)", "why_tests_cant": "all attribute values and combinations", "anchors": ["benker/parsers/cals/__init__.py: parse_cals_table, parse_cals_tgroup"]}
{"id": "C55", "title": "CALS entries are laid out row after row at the first free column", "statement": "Parsing a CALS table gives exactly one cell per entry at the first free column of its row, with the span of namest/nameend/morerows, the content, styles and nature of the entry; the rows and columns have the styles of row and colspec; parsing fails only when an entry has no room (or a number cannot be read).", "quantifier": "every regular CALS tree", "why_tests_cant": "all documents", "anchors": ["benker/parsers/cals/__init__.py: parse_table, parse_cals_colspec, parse_cals_row, parse_cals_entry"]}
{"id": "C56", "title": "A Word cell keeps its background, alignments, borders and its emptiness", "statement": "Each cell of a parsed Word table has the background, the vertical alignment, the alignment of most of its paragraphs (the first one among equals) and the borders of the Word cell it comes from, and the mark of empty cells exactly when it holds neither text nor picture; the cells which complete a row have no style; each row has the height of the Word row and the marks of its insertion.", "quantifier": "every regular Word table, every cell", "why_tests_cant": "all cells, any paragraphs and properties", "anchors": ["benker/parsers/ooxml/__init__.py: parse_tr, parse_tc"]}
{"id": "C57", "title": "The footers of a Formex table become its notes", "statement": "In the finished Formex document the content of each footer row of a table stands before the CORPUS of the table, in order, in a GR.NOTES element; the other rows and their types stay as they are; a table which is directly in a table gives way to its content; no text is lost.", "quantifier": "every document (any tables, nested or not)", "why_tests_cant": "all trees", "anchors": ["benker/builders/formex.py: extract_gr_notes, cleanup_tbl_in_tbl, finalize_tree"]}
{"id": "C58", "title": "Finished Formex tables carry no redundant CALS attribute and lose no other", "statement": "In the finished Formex document the rows, cells, titles and notes of the tables have none of the attributes namest, nameend, morerows, rowstyle of the CALS namespace; every other attribute and everything else is unchanged, also outside of the tables.", "quantifier": "every document, every CALS namespace", "why_tests_cant": "all trees and attributes", "anchors": ["benker/builders/formex.py: drop_superfluous_attrs"]}
{"id": "C59", "title": "The page size of a Formex table tells the orientation and the number of pages", "statement": "A table of a landscape section is marked SINGLE.LANDSCAPE if its page is at most the size of an A4 page (in either direction, with a margin) and DOUBLE.LANDSCAPE if it is larger; a table of a portrait section is marked DOUBLE.PORTRAIT only if its page is larger; without an orientation nothing is written. A page of unknown size is an A4 page.", "quantifier": "every table, orientation and page size", "why_tests_cant": "all sizes, at the limits too", "anchors": ["benker/builders/formex.py: build_tbl"]}
{"id": "C60", "title": "The CALS tree shows the styles of the table, the columns, the rows and the cells", "statement": "The frame, the separators, the orientation, the width, the background colour and the style of the table, the widths, alignments and separators of its columns, the vertical alignment, separator and style of its rows, and the alignments, separators, spans, background and style of its cells are the ones of their styles; a separator which is not written is the one of the table, and the cells of the last column (row) have none. A row inserted under revision is between two marks which give the identifier, the author and the date.", "quantifier": "every table made by the methods of the library, every option of the builder", "why_tests_cant": "all combinations of styles", "anchors": ["benker/builders/cals.py: CalsBuilder"]}
{"id": "C61", "title": "The Formex tree with CALS attributes shows the styles of the table, the columns, the rows and the cells", "statement": "With the option use_cals, the CORPUS, the columns, the ROWs and the CELLs of the Formex tree carry in the CALS namespace the attributes of the CALS tree, with the same meaning; a ROW also shows its background colour.", "quantifier": "every table made by the methods of the library, every option of the builder", "why_tests_cant": "all combinations of styles", "anchors": ["benker/builders/formex.py: FormexBuilder"]}
{"id": "C62", "title": "Formex cells and titles are laid out row after row at the first free column", "statement": "Parsing a Formex CORPUS gives one row per ROW, TI.BLK, STI.BLK and GR.NOTES in document order; each CELL becomes one cell at the first free column of its row with the span of its attributes, each title spans the columns of COL.START and COL.END, each cell has the content, the styles and the nature of its element, the rows and columns the styles of ROW (with the level of the blocks around) and colspec; what remains is filled with empty cells; parsing fails only when a cell has no room or a number cannot be read.", "quantifier": "every proper CORPUS, any blocks, titles, notes and options", "why_tests_cant": "all documents", "anchors": ["benker/parsers/formex.py: parse_table, parse_fmx_row, parse_fmx_ti_blk, parse_fmx_cell, parse_fmx_colspec"]}
{"id": "C63", "title": "A parsed Formex table has no hole and no overlap", "statement": "After parsing a Formex CORPUS each coordinate of the bounding box of the table belongs to exactly one cell.", "quantifier": "every CORPUS", "why_tests_cant": "all documents", "anchors": ["benker/parsers/formex.py: parse_table"]}
{"id": "C64", "title": "The attributes of a Formex table are read exactly", "statement": "A parsed Formex table has the borders, the width, the orientation, the background, the separators given by the CALS attributes of CORPUS, the orientation of the page size of TBL when there is no other, and a nature made of the class of TBL and the style of the table.", "quantifier": "every CORPUS in a TBL or not, whatever it contains", "why_tests_cant": "all attribute values and combinations", "anchors": ["benker/parsers/formex.py: parse_fmx_corpus, parse_tbl_styles"]}
{"id": "C65", "title": "The notes of a Formex table are its last rows", "statement": "Each GR.NOTES before a CORPUS becomes one footer row, below the rows of the table and in order, with one cell which spans exactly the columns of the table; the rest of the table is the same as without notes.", "quantifier": "every CORPUS and notes", "why_tests_cant": "all documents", "anchors": ["benker/parsers/formex.py: parse_gr_notes, parse_table"]}
{"id": "C66", "title": "Nested Formex tables do not disturb the enclosing table", "statement": "The layout of a parsed Formex table depends only on its own rows, cells, titles and notes, not on the tables which are nested in the cells.", "quantifier": "every document with nested tables", "why_tests_cant": "all nestings", "anchors": ["benker/parsers/formex.py: parse_table"]}
{"id": "C67", "title": "The styles which the Formex parser gives to cells are texts", "statement": "Each style of each cell of a parsed Formex table is a text (a builder can write it in an attribute).", "quantifier": "every CORPUS", "why_tests_cant": "all documents", "anchors": ["benker/parsers/formex.py: parse_fmx_cell"]}
{"id": "C68", "title": "A table written as Formex and read back is the same", "statement": "Writing a table as a Formex tree and reading the tree gives a table with the same number of columns and the same cells at the same place with the same content and nature; with the CALS attributes also the alignments, backgrounds and lines of the cells, the styles of the rows and the frame, style, orientation and separators of the table are the same.", "quantifier": "every table without hole or overlap made by the methods of the library, every option of the builder and of the parser", "why_tests_cant": "the writer and the reader are each tested on a few documents, never composed over all tables, spans and styles", "anchors": ["benker/builders/formex.py: generate_table_tree", "benker/parsers/formex.py: parse_table"]}
{"id": "C69", "title": "A table written in a finished Formex document and read back is the same", "statement": "Writing a table as a Formex tree, finishing the document (numbers, notes, blocks, removal of redundant attributes) and reading it gives a table with the same number of columns and the same cells at the same place with the same content and nature, footers included; the levels and types of the rows, and with the CALS attributes the alignments, backgrounds and lines, are the same.", "quantifier": "every table without hole or overlap made by the methods of the library, every option of the builder and of the parser", "why_tests_cant": "the clean-up passes and the reader are each tested on a few documents, never composed over all tables, row styles and footers", "anchors": ["benker/builders/formex.py: generate_table_tree, finalize_tree, extract_gr_notes, insert_blk, drop_superfluous_attrs", "benker/parsers/formex.py: parse_table"]}
{"id": "C70", "title": "Each parser gives a table made by its public methods, whose rows are its cells in order", "statement": "Whatever the input, a table returned by the CALS, the Formex or the Word parser is one which the public methods of a table can make; the row y of the table owns exactly the cells which start in y, and the cells of a row come in increasing order of columns, so each cell of the table is found in exactly one row.", "quantifier": "every document, regular or not, whenever the parser succeeds", "why_tests_cant": "all documents and all sequences of parser calls", "anchors": ["benker/parsers/cals/__init__.py: parse_table", "benker/parsers/formex.py: parse_table", "benker/parsers/ooxml/__init__.py: parse_table"]}
{"id": "C71", "title": "A converter writes each cell of the source exactly once", "statement": "Converting a table between CALS, Formex and Word writes each cell of the source layout exactly once at its own place: in the row and at the column where the source shows it, with its spans and its content, and writes nothing else.", "quantifier": "every regular source table, all options of the converter, whenever the conversion succeeds", "why_tests_cant": "all documents and all options", "anchors": ["benker/converters/cals2formex.py: convert_cals2formex", "benker/converters/formex2cals.py: convert_formex2cals", "benker/converters/ooxml2cals.py: convert_ooxml2cals", "benker/converters/ooxml2formex.py: convert_ooxml2formex"]}
{"id": "C72", "title": "A converted table reads back as the source table", "statement": "Converting a table from CALS or Word to Formex, or from Formex or Word to CALS, and reading the result with the parser of the target format gives the cells of the source at the same places with the same contents and row natures, and the attributes which both formats have.", "quantifier": "every regular source table whose layout is a rectangle, all options of the converter, whenever the conversion succeeds", "why_tests_cant": "all documents and all options, and two parsers and a builder are involved at once", "anchors": ["benker/converters/cals2formex.py: convert_cals2formex", "benker/converters/formex2cals.py: convert_formex2cals", "benker/converters/ooxml2cals.py: convert_ooxml2cals", "benker/converters/ooxml2formex.py: convert_ooxml2formex", "benker/parsers/cals/__init__.py: CalsParser.parse_table", "benker/parsers/formex.py: FormexParser.parse_table"]}
{"id": "C73", "title": "A Word table takes its page from the section after it", "statement": "The table read from a Word table has the background of the table, the orientation, the size and the number of columns of the pages of the section which follows the table, and the converters write them: orientation, page width and background in CALS, the page size in Formex.", "quantifier": "every regular Word table and every section", "why_tests_cant": "all tables, sections and their attributes", "anchors": ["benker/parsers/ooxml/__init__.py: parse_tbl", "benker/parsers/ooxml/w_pg_sz.py: PgSz", "benker/parsers/ooxml/w_shd.py: Shd"]}
{"id": "C74", "title": "The options of a converter decide the name spaces, the unit and the order of the sections", "statement": "A converter reads and writes the CALS names in the name space which is given (an empty one is none; by default none, and the one of the library in Formex), writes the widths in the given unit (mm by default), puts the table properties in table or tgroup, sorts the sections in the given order and numbers the Formex tables; a prefix without name space or an order without one of the three sections is refused with ValueError whatever the document.", "quantifier": "all options, every document", "why_tests_cant": "all combinations of options", "anchors": ["benker/builders/cals.py: CalsBuilder.__init__", "benker/builders/formex.py: FormexBuilder.__init__", "benker/parsers/cals/__init__.py: CalsParser.__init__", "benker/parsers/formex.py: FormexParser.__init__"]}
{"id": "C75", "title": "Converting a Word document replaces its tables and nothing else", "statement": "The converted document is the source in which each table is replaced, at the same place and with the same text after it, by the table made from it with the first section which comes after it and with the style sheet which is given or the first one of the document; the conversion fails only with an error of the options or of a table, and when the root is a table.", "quantifier": "every Word document without nested tables, all options", "why_tests_cant": "all documents: any number of tables, sections and style sheets at any place", "anchors": ["benker/converters/ooxml2cals.py: convert_ooxml2cals", "benker/parsers/ooxml/__init__.py: transform_tables, parse_tbl", "benker/parsers/base_parser.py: parse_file"]}
{"id": "C76", "title": "In a document converted to Formex each table is finished as if it were alone, but for its number", "statement": "The document converted to Formex is the source in which each table is replaced by the finished table (notes, blocks, attributes) which is made from it alone; only its number, one plus the number of the tables which come before it, depends on the other tables, and the rest of the document is untouched by the passes which finish the tables.", "quantifier": "every CALS or Word document without nested tables and without elements named TBL, ROW or CORPUS, all options", "why_tests_cant": "the passes work on the whole document; all numbers and places of tables, all surroundings", "anchors": ["benker/converters/cals2formex.py: convert_cals2formex", "benker/converters/ooxml2formex.py: convert_ooxml2formex", "benker/builders/formex.py: finalize_tree"]}
{"id": "C77", "title": "A parser invents no content", "statement": "Each character and each node in a cell of a parsed table comes from an entry of the CALS table, from a paragraph or table of a cell of the Word table, or from a cell, a title or the notes of the Formex table; whatever the element which is read, regular or not.", "quantifier": "every element given to a parser", "why_tests_cant": "all documents, also irregular ones for which no layout is specified", "anchors": ["benker/parsers/cals/__init__.py: parse_table", "benker/parsers/formex.py: parse_table", "benker/parsers/ooxml/__init__.py: parse_table"]}
{"id": "C78", "title": "Converting a Formex document replaces its CORPUS elements and the notes before them, and nothing else", "statement": "The converted document is the source in which each CORPUS is replaced, at the same place and with the same text after it, by the table made from it, from the attributes of its parent, from the number of BLK around it and from the notes which come before it in its parent since the last table; these notes are taken away (with the text after them, which is lost) and nothing else changes. The conversion fails only with an error of the options or of a table, and when the root is a CORPUS.", "quantifier": "every Formex document without nested CORPUS, all options", "why_tests_cant": "all documents: any number of CORPUS and GR.NOTES, in the same parent or not, at any depth", "anchors": ["benker/converters/formex2cals.py: convert_formex2cals", "benker/parsers/formex.py: transform_tables, parse_table"]}
{"id": "C79", "title": "No table is left behind", "statement": "After the conversion of a document no element of it, at any depth, is a table of the source format: no CORPUS from Formex to CALS, no w:tbl from Word, no CALS table from CALS to Formex, not in the cells either.", "quantifier": "every document without nested tables, all options", "why_tests_cant": "all documents, all depths, all contents of cells", "anchors": ["benker/converters/formex2cals.py: convert_formex2cals", "benker/converters/ooxml2cals.py: convert_ooxml2cals", "benker/builders/cals.py: generate_table_tree"]}
{"id": "C80", "title": "Tables inside tables are converted too, each one in its place", "statement": "When a table is in a cell of another table, at any depth, both are converted: in the result each table is replaced by the element made from it, the tables in its cells are replaced in turn at the place where they were in the cell, each one keeps the text which followed it, and everything else is unchanged. No table of the source format is left at any depth. For Formex, the notes before a table go with it and are taken away. A failure comes from a table, from a table which is the root, or from the finishing of the document.", "quantifier": "every CALS or Word document with tables nested at any depth, every Formex document whose nested CORPUS elements have an element around them in their cell, all options of the four converters concerned", "why_tests_cant": "the depth and the number of nested tables is not limited; the tables are found before the first one is replaced and copied with their cells", "anchors": ["benker/parsers/base_parser.py: transform_tables", "benker/converters/cals2formex.py: convert_cals2formex", "benker/converters/ooxml2formex.py: convert_ooxml2formex", "benker/converters/ooxml2cals.py: convert_ooxml2cals", "benker/parsers/formex.py: transform_tables", "benker/converters/formex2cals.py: convert_formex2cals"]}
{"id": "C81", "title": "A CALS document converted to Formex and back keeps its tables", "statement": "A CALS document is converted to Formex, and the result is converted to CALS again: everything around the tables is unchanged, and each table of the source is now a CALS table, alone in the TBL of the first conversion, with the same number of columns, the same cells at the same places with the same contents; the nature of a row is the one which its rowstyle says. With the CALS attributes, the styles of the table and of its cells which CALS can say are kept as well. The lines of a cell, the colour of a row and a header without rowstyle do not come back.", "quantifier": "every CALS document with any number of tables which are not nested, have no hole and no footer; all options of both converters which agree on the name space of the CALS attributes", "why_tests_cant": "the composition of two conversions, each one a parser, a builder and a finishing pass; any documents and any tables", "anchors": ["benker/converters/cals2formex.py: convert_cals2formex", "benker/converters/formex2cals.py: convert_formex2cals"]}
{"id": "C82", "title": "Converting a converted document again changes nothing", "statement": "When a document which was converted to CALS is given again to any converter which reads the source format, it comes back unchanged whatever the options of the second conversion; when a document which was converted to Formex is given again to the converter, only the attribute TYPE of the ROW elements is removed, and a third conversion changes nothing.", "quantifier": "every CALS, Formex or Word document whose conversion succeeds, all options of both conversions", "why_tests_cant": "the composition of two conversions of whole documents; all documents and all pairs of options", "anchors": ["benker/converters/cals2formex.py: convert_cals2formex", "benker/converters/formex2cals.py: convert_formex2cals", "benker/converters/ooxml2cals.py: convert_ooxml2cals", "benker/converters/ooxml2formex.py: convert_ooxml2formex", "benker/builders/formex.py: finalize_tree"]}
{"id": "C83", "title": "A conversion changes the destination file or nothing", "statement": "convert_file reads the source file, and the style sheet when a path is given to the Word converter, and no other file. When it succeeds, the destination has the converted document written in the asked encoding, with what was around its root element, and no other file is changed. When it fails, for whatever reason, every file is as before, an old destination included. A file can be converted in place.", "quantifier": "every XML library (any reading and writing functions), every content of the disk, all four converters, all options, all paths including equal ones", "why_tests_cant": "failures at every stage on every disk; tests check the produced file of some conversions, not that nothing else happens", "anchors": ["benker/converters/base_converter.py: convert_file", "benker/parsers/base_parser.py: parse_file", "benker/parsers/ooxml/__init__.py: transform_tables", "benker/builders/formex.py: finalize_tree"]}
{"id": "C84", "title": "A parser can be used for several files", "statement": "A parser object which converts files one after the other writes the same files and raises the same errors as a new converter for each file, whatever it has converted before and whether or not that succeeded; in particular the tables of each Formex file are numbered from one. Conversions which do not read what the others write do not influence each other, and their order does not matter.", "quantifier": "every sequence of conversions, every counter left by earlier ones, all converters, options and disks", "why_tests_cant": "all histories of a stateful object, with failures in the middle", "anchors": ["benker/parsers/base_parser.py: parse_file", "benker/builders/formex.py: FormexBuilder._no_seq, update_no_seq", "benker/converters/base_converter.py: convert_file"]}
{"id": "C85", "title": "The error of a conversion is the error of the first table which cannot be converted", "statement": "When the conversion of a document fails, the error is the one raised by the first table, in the order of the document and including the tables inside tables, which cannot be converted; each table before it can be converted. Else the options are refused, or the root of the document is itself a table, which can be converted (AttributeError), or, towards Formex, every table was converted and the finishing pass raised the error.", "quantifier": "every document of any size and nesting, all options, all errors", "why_tests_cant": "no set of documents covers all positions and combinations of failing tables", "anchors": ["benker/parsers/base_parser.py: BaseParser.parse_file", "benker/parsers/cals/__init__.py: CalsParser.transform_tables", "benker/parsers/formex.py: FormexParser.transform_tables", "benker/parsers/ooxml/__init__.py: OoxmlParser.transform_tables"]}
{"id": "C86", "title": "A drawing with the tiles of the user", "statement": "With a set of tiles given by the user, the drawing has the rows of the grid one below the other, each one made of the tiles side by side with as many lines as its first tile has; each tile is chosen by the borders of the cell seen at the coordinate, and its placeholders are replaced by the centred text at the middle of the cell and by spaces elsewhere. The drawing succeeds exactly when the tiles which are needed are in the set and no tile has less lines than the first one of its row; otherwise the first row which cannot be drawn gives a KeyError (missing tile) or an IndexError (short tile). Tiles of a regular size give a rectangle in which each tile is at its place; without tiles, or with an empty set, the default ones are used.", "quantifier": "all reachable grids whose texts have no line break, all sets of tiles whose lines end with newlines", "why_tests_cant": "all tile sets and grids; the interaction between the sizes of tiles and spanning cells", "anchors": ["benker/drawing.py: draw, iter_lines, iter_tiles"]}
{"id": "C87", "title": "A row or a column which is kept stays the row of the table, until the table becomes smaller", "statement": "A row or a column object obtained from a table remains the one which the table gives at its position, always lists the cells which are there now, and calls on it are the calls on the row of the table. Only a successful deletion, merge, expansion or pop can detach it, exactly when its position is then beyond the last row or column; a detached object never comes back, keeps for ever the cells it had, and setting its attributes does not touch the table. Inserting a cell through a kept object puts it at the first place which is free of the cells which the object lists; for a detached one this is not always the first free place of the table.", "quantifier": "every table, every sequence of calls on it and on the objects kept, failing or not", "why_tests_cant": "all histories and all kept objects: aliasing between the objects of the user and the lists of the table", "anchors": ["benker/table.py: TableViewList, RowView.insert_cell, ColView.insert_cell, Table._refresh_views"]}
{"id": "C88", "title": "A loop over the rows of a table visits each row once, unless it adds rows", "statement": "A `for` loop over `table.rows` (or `table.cols`) which sets attributes of each row, or inserts in it a cell of one row, visits each row of the table exactly once, first to last, and ends as the same calls on the positions 1, 2, ... in turn, stopping at the first error. Inserting a cell of one row and one column never fails and gives each row exactly one new cell, at the first place which was free before the loop. When the cell takes two rows or more the loop never completes: it ends by an error or, for instance when all cells start on the first row and the new ones are one column wide, it runs for ever.", "quantifier": "every table, every content, styles, nature and size of the inserted cells, every number of turns", "why_tests_cant": "the list of rows is changed while it is iterated; a non terminating execution cannot be observed by a test", "anchors": ["benker/table.py: TableViewList.__iter__, RowView.insert_cell, ColView.insert_cell"]}
{"id": "C89", "title": "Tables in footer cells do not keep the other notes from being extracted", "statement": "When a Formex document is completed, the notes of every footer row are put before the CORPUS of its table and no row stays marked as notes, wherever tables stand in the cells of the footer rows; in particular a table in one cell never stops the treatment of the rows which follow.", "quantifier": "all documents whose rows are in the CORPUS of a table, with any depth of tables in the cells; all tables built by any sequence of calls", "why_tests_cant": "The loop modifies the tree it iterates over, and the iterator has already chosen the next row: what is visited depends on where tables stand in the cells of removed rows; the tests have no table in a footer row.", "anchors": ["benker/builders/formex.py:697-749", "benker/builders/formex.py:639-659"]}
{"id": "C90", "title": "The spacing and the shadow of Word borders", "statement": "The border-collapse, border-spacing and box-shadow styles of a cell read from Word say what its borders say: the borders are collapsed exactly when a space is given and all the spaces given are zero, separated when one is not zero, and then the spaces are listed side by side in the order top, right, bottom, left and diagonals; a shadow is listed when a side has one, with the size of the border as its width. Those of a table come from its own borders, otherwise from the nearest of its styles which gives them. The shadow is a list of lengths, and a shadow never stops the parsing.", "quantifier": "all regular Word tables, style sheets, borders and texts of numbers", "why_tests_cant": "Three styles are computed together from the attributes of six sides, each absent or not, named in two ways, merged along chains of styles; tests compare a few sample tables", "anchors": ["benker/parsers/ooxml/__init__.py: _get_border_properties", "benker/parsers/ooxml/__init__.py: _border_properties_to_styles", "benker/parsers/ooxml/__init__.py: _get_style_borders"]}
{"id": "C91", "title": "The printed forms of coordinates, sizes, boxes and rows", "statement": "Two coordinates, sizes or boxes which are printed alike by repr are the same value, of the same kind, and the text is the call which makes it, the same in Python 2 and 3; str of a size identifies it. The text of a row is the texts of the cells which start in it, from left to right, and tells the cells of the row.", "quantifier": "all coordinates, sizes and boxes with integers of any sign; all rows of all tables built by calls whose rows list their cells from left to right", "why_tests_cant": "Injectivity is a statement about all pairs of values; tests compare a few printed values with literals", "anchors": ["benker/coord.py:69-70", "benker/size.py:62-66", "benker/box.py:181-182", "benker/table.py:220-222"]}
{"id": "C92", "title": "Nothing which Word shows in a cell is lost", "statement": "When a Word table is converted to CALS, each visible cell is an entry which has all the paragraphs and tables of the Word cell, in order. When it is converted to Formex, a cell is replaced by the empty element IE only if it has no text and no picture; otherwise all its paragraphs and tables are written, so that every picture of the table is in the result. Whatever Word shows (symbols, embedded objects) is kept as well.", "quantifier": "all regular Word tables and all options without title detection", "why_tests_cant": "Emptiness is decided from the text and the descendants of any cell, which may be nested at any depth; the tests use a few samples with images (issue 13)", "anchors": ["benker/parsers/ooxml/__init__.py:1114-1133", "benker/builders/formex.py:626-637", "benker/builders/cals.py:476-571"]}
{"id": "C93", "title": "The names in a converted file are the names of the converted document", "statement": "When the file written by a conversion is read again, each element and each attribute of the converted tables has the name, name space included, which the converter gave to it, and the elements of the contents of the cells keep their names. This holds for every choice of the name space and of the prefix of CALS which the converter accepts.", "quantifier": "all tables, all options, all ways in which the library may declare and choose prefixes", "why_tests_cant": "A default name space applies to every element below the table, written by the converter or not; tests compare a few trees before they are written", "anchors": ["benker/builders/cals.py:138-155", "benker/builders/formex.py:145-165", "benker/builders/namespace.py", "benker/parsers/base_parser.py:81"]}
{"id": "C94", "title": "A Word table converted to Formex through CALS has the cells of the one converted directly", "statement": "Let a rectangular Word table be converted to CALS and the result to Formex, and let the same table be converted to Formex directly. The two Formex tables have a title both or neither, with the same content; they have the same number of rows, the rows have the same types, and each row has the same CELL elements in the same order: same column, same spans, same content. The only difference allowed is a cell which the direct conversion marks as empty: through CALS it may keep elements which show neither text nor picture.", "quantifier": "for every Word table (merged cells, header rows, any contents without CALS elements), every option of the three conversions (titles looked for on both paths or on neither)", "why_tests_cant": "Tests of a chain of two conversions compare a few sample documents; that the two paths agree holds for every table or not at all, and the paths share no code but the table.", "anchors": ["benker/converters/ooxml2cals.py", "benker/converters/cals2formex.py", "benker/converters/ooxml2formex.py", "benker/parsers/ooxml/__init__.py", "benker/parsers/cals/__init__.py", "benker/builders/cals.py", "benker/builders/formex.py"]}
{"id": "C95", "title": "The walk over a tree gives every asked element once, in document order", "statement": "The parsers read a table with a walk over its elements. For a tree which is not changed meanwhile, the walk written in Python (for lxml before 4.2.1) gives exactly one event of each asked kind ('start', 'end') for each node with one of the asked names; a node starts before everything it holds and ends after it, and siblings come in order; no other list of events is such. With names no comment or processing instruction has an event. The events which the CALS, Word and Formex parsers rely on are these, with the true parent, the true preceding siblings and the true number of enclosing BLK.", "quantifier": "for every tree, every set of kinds and every tag argument (None, '*', one name, several names)", "why_tests_cant": "A recursive generator is right for all depths and shapes or for none; tests walk a few documents, and only one of the two implementations exists in a given environment.", "anchors": ["benker/common/lxml_iterwalk.py:22-42", "benker/parsers/cals/__init__.py:151", "benker/parsers/formex.py:139", "benker/parsers/ooxml/__init__.py:821"]}
{"id": "C96", "title": "A CALS table read and written again has the same rows and entries", "statement": "Let a table be written as CALS, and let the result be read and written as CALS again, perhaps with other options. The second tree has the same number of columns and of colspec elements, the same rows in the same order, each one in a section of the same name (thead, tbody, tfoot), and each row has the same entries in the same order: same columns (namest, nameend), same morerows, same content.", "quantifier": "for every table without holes and overlaps given by a parser (any merged cells, natures and styles, contents without CALS elements) and every option of both writers which leaves the sections in order", "why_tests_cant": "A test compares one file with its second version; that rewriting is harmless must hold for all spans, natures, orders of sections and contents together, and the reader and the writer share no code.", "anchors": ["benker/builders/cals.py", "benker/parsers/cals/__init__.py", "benker/converters/ooxml2cals.py"]}
{"id": "C97", "title": "A Formex table read and written again has the same rows and cells", "statement": "Let a table without footer rows be written as a Formex TBL without a title (before the final pass over the document, see C69), and let its CORPUS be read and written as Formex again, perhaps with other options (with or without the CALS attributes, without titles). Whenever the second writing succeeds, the second TBL has no title and the same ROW elements in the same order with the same TYPE, and each row has the same CELL elements in the same order: same COL, COLSPAN and ROWSPAN, same content, where a cell marked as empty holds nothing. A footer row is not kept: it is written again as a row of the body.", "quantifier": "for every table without holes and overlaps given by a parser (any merged cells, styles and contents without Formex or CALS table elements) and every option of the readers and writers as said; in particular for every regular Word table converted to Formex", "why_tests_cant": "A test compares one file with its second version; the marks of empty cells, the spans and the rows are written and read by unrelated code, and must agree for all tables and options together.", "anchors": ["benker/builders/formex.py", "benker/parsers/formex.py", "benker/converters/ooxml2formex.py"]}
{"id": "C98", "title": "Word to Formex to CALS gives the same table as Word to CALS", "statement": "Let a Word table be converted to Formex (the TBL before the final pass over the document) and the CORPUS of the result to CALS, and let the same Word table be converted to CALS directly. Both conversions succeed, and the two CALS tables have the same number of columns, the same rows in the same order in sections of the same name (thead, tbody), and in each row the same entries in the same order: same namest, nameend, morerows and content.", "quantifier": "for every Word table with regular merges whose rows fit in the grid and whose paragraphs hold no element with a Formex or CALS table name, and all options of the converters which leave the sections in order, without titles", "why_tests_cant": "A test compares one document on both paths; that a detour over the other format loses nothing must hold for all merges, contents and options, and involves three parsers and builders which share no code.", "anchors": ["benker/converters/ooxml2formex.py", "benker/converters/formex2cals.py", "benker/converters/ooxml2cals.py", "benker/parsers/formex.py", "benker/builders/cals.py"]}
{"id": "C99", "title": "The rows inserted in Word, and only these, are marked in the converted table", "statement": "A row of a Word table with the revision mark of an insertion (w:ins in its properties) is converted, to CALS and to Formex, to a row between the processing instructions change-start and change-end. Both have the type row:insertion and the identifier (change-id, ct and the id of the insertion), the first one also the author (creator) and the date; an attribute which Word does not give, or gives empty, is left out, and the written text is read again as the same attributes. The other rows have no such instruction before or after them.", "quantifier": "for every Word table with regular merges whose rows fit in the grid, every set of inserted rows, every id, author and date, and all options of the converters which leave the sections in order (CALS) or without titles (Formex)", "why_tests_cant": "A test converts one document with one insertion; which rows are marked must not depend on the merges, the sections or the other rows, and authors can hold any character.", "anchors": ["benker/parsers/ooxml/__init__.py", "benker/builders/cals.py", "benker/builders/formex.py", "benker/converters/ooxml2cals.py", "benker/converters/ooxml2formex.py"]}
