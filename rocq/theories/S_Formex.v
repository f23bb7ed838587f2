(** * Specification vocabulary for Formex tables *)
From Verif Require Import Base M_Geometry M_Xml M_Cell M_Table S_Geometry S_Table S_Units S_Builder S_Cals S_CalsParser.
Open Scope string_scope.
Open Scope list_scope.
Open Scope Z_scope.

(** ** Row styles *)

Definition row_types : list string := ["ALIAS"; "HEADER"; "NORMAL"; "NOTCOL"; "TOTAL"].
Definition row_tags : list string := ["ROW"; "TI.BLK"; "STI.BLK"].
(** The name of a row style: the tag, then the type and the level, if any, after hyphens; a final
    newline is ignored. *)
Definition row_style_name (s : string) (tag : string) (type : option string) (level : option Z) : Prop :=
  In tag row_tags /\ (forall t, type = Some t -> In t row_types) /\
  exists lev nl,
    list_ascii_of_string s =
      list_ascii_of_string tag ++
      match type with Some t => "-"%char :: list_ascii_of_string t | None => [] end ++ lev ++ nl /\
    match level with
    | Some n => exists ds, ds <> [] /\ digits_value ds n /\ lev = list_ascii_of_string "-level" ++ ds
    | None => lev = []
    end /\
    (nl = [] \/ nl = [ascii_of_nat 10]).

(** ** Trees *)

(** An empty cell is written with an [IE] element. *)
Definition shown_empty (c : cell) : Prop :=
  dget (c_styles c) "x-cell-empty" = Some (SStr "true") \/ c_content c = CNone \/ c_content c = CText "".

(** A CELL shows the column, the spans and the content of the cell. *)
Definition describes_fcell (c : cell) (e : xnode) : Prop :=
  x_tag e = Some "CELL" /\ x_tail e = None /\
  (let '(MkBox (Coord x1 y1) (Coord x2 y2)) := c_box c in
   x_get e "COL" = Some (py_str_int x1) /\
   (x1 < x2 -> x_get e "COLSPAN" = Some (py_str_int (x2 - x1 + 1))) /\ (x2 <= x1 -> x_get e "COLSPAN" = None) /\
   (y1 < y2 -> x_get e "ROWSPAN" = Some (py_str_int (y2 - y1 + 1))) /\ (y2 <= y1 -> x_get e "ROWSPAN" = None)) /\
  (shown_empty c -> x_text e = None /\ x_children e = [XElem "IE" [] None [] None]) /\
  (~ shown_empty c -> elem_pieces e = content_pieces (c_content c)).

(** The type of a row, and of a cell whose nature is not the one of its row.  With the CALS
    attributes, the style "cellstyle" of the cell is the type. *)
Definition row_type (n : nature) : option string :=
  match n with
  | Some s => if String.eqb s "header" then Some "HEADER" else if String.eqb s "footer" then Some "__GR.NOTES__" else None
  | None => None
  end.
Definition cell_type (use_cals : bool) (row : nature) (c : cell) (t : option string) : Prop :=
  match (if use_cals then dget (c_styles c) "cellstyle" else None) with
  | Some v => exists s, v = SStr s /\ t = Some s
  | None =>
      if match c_nature c, row with
         | None, _ => true | Some "", _ => true
         | Some a, Some b => String.eqb a b
         | Some _, None => false
         end
      then t = None
      else (c_nature c = Some "header" /\ t = Some "HEADER") \/ (c_nature c = Some "body" /\ t = Some "NORMAL") \/
           (c_nature c = Some "footer" /\ t = Some "__GR.NOTES__")
  end.

(** A row is an element with a CELL for each cell starting on the row; an inserted row is between two
    processing instructions. *)
Definition describes_frow (use_cals : bool) (v : view) (items : list xnode) : Prop :=
  exists row, x_tag row = Some "ROW" /\ x_text row = None /\ x_tail row = None /\
    x_get row "TYPE" = row_type (v_nature v) /\
    Forall2 (fun c e => describes_fcell c e /\ cell_type use_cals (v_nature v) c (x_get e "TYPE")) (v_owned v) (x_children row) /\
    match dget (v_styles v) "x-ins" with
    | None => items = [row]
    | Some _ => exists a b, items = [XPI "change-start" a None; row; XPI "change-end" b None]
    end.

Definition describes_corpus (use_cals : bool) (ns : option string) (cols : Z) (rows : list view) (e : xnode) : Prop :=
  x_tag e = Some "CORPUS" /\ x_text e = None /\ x_tail e = None /\
  exists specs items, x_children e = specs ++ List.concat items /\
    (if use_cals then Forall2 (describes_column ns) (zrange 1 (cols + 1)) specs else specs = []) /\
    Forall2 (describes_frow use_cals) rows items.

(** The nodes of a title, apart from the elements which hold them *)
Definition title_cell (c : cell) (l : list xnode) : Prop :=
  match c_content c with
  | CText s => shown_empty c \/ l = [XElem "TI" [] None [XElem "P" [] (Some s) [] None] None]
  | CList ns => shown_empty c \/
      exists p ps, l = [XElem "TI" [] None [p] None; XElem "STI" [] None ps None] /\ ns = map CNode (p :: ps)
  | CNode n => shown_empty c \/
      exists p ps, l = [XElem "TI" [] None [p] None; XElem "STI" [] None ps None] /\ x_children n = p :: ps
  | _ => shown_empty c
  end /\
  (shown_empty c -> l = [XElem "TI" [] None [XElem "IE" [] None [] None] None]).
Definition describes_title (v : view) (e : xnode) : Prop :=
  exists parts, e = XElem "TITLE" [] None (List.concat parts) None /\ Forall2 title_cell (v_owned v) parts.

(** The first row is a title if its first cell covers the width of the table and is centred. *)
Definition has_title (t : table) : Prop :=
  exists c a b bb, table_iter t = a ++ c :: b /\ covers (c_box c) (Coord 1 1) /\
    (forall d, In d a -> ~ covers (c_box d) (Coord 1 1)) /\ bounds (table_iter t) bb /\
    cx (bmax (c_box c)) - cx (bmin (c_box c)) = cx (bmax bb) - cx (bmin bb) /\
    dget (c_styles c) "align" = Some (SStr "center").

Definition describes_tbl (use_cals titles : bool) (ns : option string) (t : table) (cols : Z) (rows : list view) (e : xnode) : Prop :=
  x_tag e = Some "TBL" /\ x_text e = None /\ x_tail e = None /\ x_get e "COLS" = Some (py_str_int cols) /\
  exists corpus,
    if titles
    then (has_title t /\ exists title first others, rows = first :: others /\ x_children e = [title; corpus] /\
             describes_title first title /\ describes_corpus use_cals ns cols others corpus) \/
         (~ has_title t /\ x_children e = [corpus] /\ describes_corpus use_cals ns cols rows corpus)
    else x_children e = [corpus] /\ describes_corpus use_cals ns cols rows corpus.

(** The elements of a tree in order: the CELL of the ROW of the CORPUS *)
Definition tbl_cells (e : xnode) : list xnode :=
  children_named "CELL" (children_named "ROW" (children_named "CORPUS" [e])).

(** ** Tables whose attributes can be written *)

Definition fcell_ready (c : cell) : Prop :=
  (shown_empty c \/ writable (c_content c)) /\
  (c_nature c = None \/ c_nature c = Some "" \/ c_nature c = Some "header" \/ c_nature c = Some "body" \/ c_nature c = Some "footer").
Definition size_ready (st : styles) : Prop :=
  dget st "x-sect-orient" = None \/ dget st "x-sect-size" = None \/ exists w h, dget st "x-sect-size" = Some (SPair w h).
Definition tbl_ready (use_cals : bool) (t : table) : Prop :=
  size_ready (t_styles t) /\ (forall c, In c (table_iter t) -> fcell_ready c) /\
  (forall p v, 1 <= p -> reads Rows p t v ->
     text_or_absent (v_styles v) "x-ins-author" /\ text_or_absent (v_styles v) "x-ins-date") /\
  (use_cals = true ->
     ready t /\ forall p v, 1 <= p -> reads Rows p t v -> text_or_absent (v_styles v) "background-color").
