(** * Specification vocabulary for Word tables *)
From Verif Require Import Base M_Geometry M_Xml M_Cell M_Grid M_Table S_Geometry S_Grid S_Table S_Int.
Open Scope Z_scope.
Open Scope string_scope.
Open Scope list_scope.

(** The elements of the main namespace of WordprocessingML *)
Definition word (name : string) : string :=
  ("{http://schemas.openxmlformats.org/wordprocessingml/2006/main}" ++ name)%string.
Definition is_word (name : string) (n : xnode) : Prop := x_tag n = Some (word name).

(** [value_at path a n v]: [v] is the first value, in document order, of the attribute [a] of the
    elements reached from [n] by [path].  [exists_at path n]: there is such an element. *)
Fixpoint value_at (path : list string) (a : string) (n : xnode) (v : string) : Prop :=
  match path with
  | [] => dget (x_attrs n) (word a) = Some v
  | p :: path' =>
      exists pre c post, x_children n = pre ++ c :: post /\ is_word p c /\ value_at path' a c v /\
        forall d w, In d pre -> is_word p d -> ~ value_at path' a d w
  end.
Fixpoint exists_at (path : list string) (n : xnode) : Prop :=
  match path with
  | [] => True
  | p :: path' => exists c, In c (x_children n) /\ is_word p c /\ exists_at path' c
  end.

(** The parts of a table met from [n] downwards, the parts inside another part left aside.  Any other
    element (content controls, revision marks...) may stand in between. *)
Definition part (n : xnode) : bool :=
  match x_tag n with
  | Some t => existsb (fun name => String.eqb t (word name)) ["tbl"; "gridCol"; "tr"; "tc"]
  | None => false
  end.
Fixpoint parts (n : xnode) : list xnode :=
  match n with
  | XElem _ _ _ children _ => flat_map (fun c => if part c then [c] else parts c) children
  | _ => []
  end.

(** The columns and the rows of a table, the cells of a row; a cell holds any content, with its own
    tables. *)
Definition is_grid_col (n : xnode) : Prop := is_word "gridCol" n /\ parts n = [].
Definition is_cell (n : xnode) : Prop := is_word "tc" n /\ Forall (is_word "tbl") (parts n).
Definition is_row (n : xnode) : Prop := is_word "tr" n /\ Forall is_cell (parts n).
Definition word_table (tbl : xnode) (cols rows : list xnode) : Prop :=
  is_word "tbl" tbl /\ parts tbl = cols ++ rows /\ Forall is_grid_col cols /\ Forall is_row rows.

(** The number of columns of a cell (w:gridSpan, 1 by default) *)
Definition columns (tc : xnode) (w : Z) : Prop :=
  (exists v, value_at ["tcPr"; "gridSpan"] "val" tc v /\ int_text v w) \/
  (~ (exists v, value_at ["tcPr"; "gridSpan"] "val" tc v) /\ w = 1).
(** The cell continues the one above (w:vMerge, "continue" by default), or starts a region. *)
Definition continues (tc : xnode) : Prop :=
  exists_at ["tcPr"; "vMerge"] tc /\
  (value_at ["tcPr"; "vMerge"] "val" tc "continue" \/ ~ exists v, value_at ["tcPr"; "vMerge"] "val" tc v).
Definition begins (tc : xnode) : Prop :=
  ~ exists_at ["tcPr"; "vMerge"] tc \/ value_at ["tcPr"; "vMerge"] "val" tc "restart".

(** A row is a header row (w:tblHeader, "true" by default) or a body row. *)
Definition header_row (tr : xnode) : Prop :=
  exists_at ["trPr"; "tblHeader"] tr /\
  (value_at ["trPr"; "tblHeader"] "val" tr "true" \/ ~ exists v, value_at ["trPr"; "tblHeader"] "val" tr v).
Definition body_row (tr : xnode) : Prop :=
  ~ exists_at ["trPr"; "tblHeader"] tr \/ value_at ["trPr"; "tblHeader"] "val" tr "false".

(** A cell at its place in the row: the columns [sl_start], ..., [sl_start + sl_width - 1] *)
Record slot := MkSlot { sl_cell : xnode; sl_start : Z; sl_width : Z; sl_continues : bool }.
Inductive seated : Z -> list xnode -> list slot -> Prop :=
| seated_nil k : seated k [] []
| seated_begin k tc w tcs l :
    columns tc w -> 1 <= w -> begins tc -> seated (k + w) tcs l ->
    seated k (tc :: tcs) (MkSlot tc (k + 1) w false :: l)
| seated_continue k tc w tcs l :
    columns tc w -> 1 <= w -> continues tc -> seated (k + w) tcs l ->
    seated k (tc :: tcs) (MkSlot tc (k + 1) w true :: l).

Record wrow := MkWRow { wr_nature : string; wr_slots : list slot }.
Definition row_reads (tr : xnode) (row : wrow) : Prop :=
  seated 0 (parts tr) (wr_slots row) /\
  ((header_row tr /\ wr_nature row = "header") \/ (body_row tr /\ wr_nature row = "body")).

(** The cell of the row continues the cell of the columns [s], ..., [s + w - 1]. *)
Definition same_columns (s w : Z) (c : slot) : Prop := sl_start c = s /\ sl_width c = w.
Definition carries_on (s w : Z) (row : wrow) : Prop :=
  exists c, In c (wr_slots row) /\ same_columns s w c /\ sl_continues c = true.

(** Regular: a cell which continues the one above has the same columns. *)
Definition row_at (rows : list wrow) (r : Z) (row : wrow) : Prop :=
  1 <= r /\ nth_error rows (Z.to_nat (r - 1)) = Some row.
Definition regular (rows : list wrow) : Prop :=
  forall r row s w, row_at rows r row -> carries_on s w row ->
  exists above c, row_at rows (r - 1) above /\ In c (wr_slots above) /\ same_columns s w c.

(** [goes_to rows r s w e]: the region which starts on row [r] goes to row [e]: the rows below carry it
    on until [e], and the next one does not. *)
Definition goes_to (rows : list wrow) (r s w e : Z) : Prop :=
  r <= e /\ (forall q, r < q <= e -> exists row, row_at rows q row /\ carries_on s w row) /\
  forall row, row_at rows (e + 1) row -> ~ carries_on s w row.

(** The width of a row; the number of columns once the row [r] is read (the other rows are completed
    with empty cells) *)
Definition row_width (row : wrow) : Z := fold_right (fun c n => sl_width c + n) 0 (wr_slots row).
Definition widest (cols : Z) (rows : list wrow) (r : Z) : Z :=
  fold_right Z.max cols (map row_width (firstn (Z.to_nat r) rows)).

(** The content of a cell: its paragraphs and its tables, without what follows them *)
Definition paragraphs (tc : xnode) (l : list content) : Prop :=
  exists nodes, selects (fun c => is_word "p" c \/ is_word "tbl" c) (x_children tc) nodes /\
    l = map (fun n => CNode (x_set_tail n None)) nodes.

(** What Word displays: the visible regions, and the empty cells which complete the rows *)
Inductive displayed (cols : Z) (rows : list wrow) : content -> nature -> box -> Prop :=
| shown r row c e l :
    row_at rows r row -> In c (wr_slots row) -> sl_continues c = false ->
    goes_to rows r (sl_start c) (sl_width c) e -> paragraphs (sl_cell c) l ->
    displayed cols rows (CList l) (Some (wr_nature row))
      (MkBox (Coord (sl_start c) r) (Coord (sl_start c + sl_width c - 1) e))
| completed r row x :
    row_at rows r row -> row_width row < x <= widest cols rows r ->
    displayed cols rows CNone (Some (wr_nature row)) (MkBox (Coord x r) (Coord x r)).
