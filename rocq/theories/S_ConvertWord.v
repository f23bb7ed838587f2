(** * Specification vocabulary: the conversion of Word tables *)
From Verif Require Import Base M_Geometry M_Xml M_Cell M_Grid M_Table S_Geometry S_Grid S_Table S_Builder S_Cals S_RoundTrip S_FormexTrip S_Ooxml S_OoxmlStyle.
Open Scope string_scope.
Open Scope list_scope.
Open Scope Z_scope.

(** The cell of a Word table which begins at the first coordinate of the box *)
Definition word_cell (rows : list wrow) (b : box) (tc : xnode) : Prop :=
  exists r row c, row_at rows r row /\ In c (wr_slots row) /\ sl_continues c = false /\ bmin b = Coord (sl_start c) r /\ sl_cell c = tc.
(** Without text and picture *)
Definition blank_region (rows : list wrow) (b : box) : Prop :=
  exists tc, word_cell rows b tc /\ textless tc /\ pictureless tc.
Definition word_nature (rows : list wrow) (r : Z) : nature :=
  option_map wr_nature (nth_error rows (Z.to_nat (r - 1))).
(** No row is wider than the grid; the grid and the table are not empty. *)
Definition word_rectangle (cols : list xnode) (rows : list wrow) : Prop :=
  cols <> [] /\ rows <> [] /\ Forall (fun row => row_width row <= Z.of_nat (List.length cols)) rows.

(** The regions of the Word table, each one read once: the same area, nature and content *)
Definition regions_again (cols : list xnode) (rows : list wrow) (cells : list cell) (content_again : content -> cell -> Prop) (nature_again : nature -> cell -> Prop) : Prop :=
  no_overlap cells /\
  (forall ct na b, displayed (Z.of_nat (List.length cols)) rows ct na b -> exists c, In c cells /\ c_box c = b /\ content_again ct c /\ nature_again na c) /\
  (forall c, In c cells -> exists ct na, displayed (Z.of_nat (List.length cols)) rows ct na (c_box c)).
Definition same_content (ct : content) (c : cell) : Prop := content_pieces (c_content c) = content_pieces ct.
(** In Formex a cell without text and picture is empty. *)
Definition content_or_blank (rows : list wrow) (ct : content) (c : cell) : Prop :=
  (blank_region rows (c_box c) -> content_pieces (c_content c) = []) /\
  (~ blank_region rows (c_box c) -> content_pieces (c_content c) = content_pieces ct).

(** ** The page of a Word table *)

(** The background of a table, the orientation of the pages of a section and their number of columns *)
Definition table_background (tbl : xnode) (v : string) : Prop :=
  exists e f, element_at ["tblPr"; "shd"] tbl e /\ dget (x_attrs e) (word "fill") = Some f /\ f <> "auto" /\ v = ("#" ++ f)%string.
Definition page_value (a : string) (sect : option xnode) (v : string) : Prop :=
  exists s e, sect = Some s /\ element_at ["pgSz"] s e /\ dget (x_attrs e) (word a) = Some v.
Definition word_children (name : string) (n : xnode) : list xnode := filter (fun c => x_has_tag c (word name)) (x_children n).
Definition page_columns (sect : option xnode) (v : string) : Prop :=
  match sect with
  | None => v = "1"
  | Some s => value_at ["cols"] "num" s v \/
      (~ (exists w, value_at ["cols"] "num" s w) /\
       v = py_str_int (Z.max 1 (Z.of_nat (List.length (flat_map (word_children "col") (word_children "cols" s))))))
  end.
