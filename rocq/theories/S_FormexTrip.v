(** * Specification vocabulary: writing a table as Formex and reading it back *)
From Verif Require Import Base M_Geometry M_Xml M_Cell M_Grid M_Table S_Geometry S_Grid S_Table S_Builder S_Cals S_CalsParser S_RoundTrip S_Formex S_Attrs S_FormexRead.
Open Scope string_scope.
Open Scope list_scope.
Open Scope Z_scope.

(** The nodes of the cells have no element of a table, and are no IE. *)
Definition plain_nodes (cns : option string) (cells : list cell) : Prop :=
  forall c n, In c cells -> In (Node n) (content_pieces (c_content c)) -> stranger None cns n /\ x_tag n <> Some "IE".

(** The same content; the empty cells have an empty text. *)
Definition fcontent_kept (c' c : cell) : Prop :=
  (shown_empty c -> c_content c' = CText "") /\
  (~ shown_empty c -> content_pieces (c_content c') = content_pieces (c_content c)).

(** In CORPUS a row is a header or in the body. *)
Definition header_or_body (n : nature) : string :=
  match n with Some s => if String.eqb s "header" then "header" else "body" | None => "body" end.
(** The nature of a cell: the one of its type, if it has one, or the one of its row *)
Definition fcell_nature (row : string) (type : option string) : nature :=
  Some (match nature_of_type type with Some n => n | None => row end).

(** The type of a cell is read as a style, when it is not the one of the row. *)
Definition kept_type (row type : option string) : option sval :=
  if String.eqb (type_or_normal type) (type_or_normal row) then None
  else Some (match type with Some s => SStr s | None => SNone end).
(** A line is read as a style of the cell or of the row, or else it is the one of the table. *)
Definition own_or_default (own default : option sval) : option sval := match own with Some v => Some v | None => default end.
Definition flines_kept (t' : table) (n m : Z) (c' c : cell) : Prop :=
  (cx (bmax (c_box c)) < n -> forall w, line_of (c_styles c) "border-right" w ->
     own_or_default (dget (c_styles c') "x-cell-border-right") (dget (t_styles t') "x-cell-border-right") = Some (kept_line w)) /\
  (cy (bmax (c_box c)) < m -> forall w, line_of (c_styles c) "border-bottom" w ->
     own_or_default (dget (c_styles c') "x-cell-border-bottom") (dget (t_styles t') "x-cell-border-bottom") = Some (kept_line w)) /\
  (cx (bmax (c_box c)) = n -> dget (c_styles c') "x-cell-border-right" = None) /\
  (cy (bmax (c_box c)) = m -> dget (c_styles c') "x-cell-border-bottom" = None).

(** The same place and content; the nature and the style given by the types of the cell and of the row.  Without
    the CALS attributes there is no other style. *)
Definition fcell_kept (use_cals : bool) (t t' : table) (n m : Z) (c' c : cell) : Prop :=
  c_box c' = c_box c /\ fcontent_kept c' c /\
  (exists v type, reads Rows (cy (bmin (c_box c))) t v /\ cell_type use_cals (v_nature v) c type /\
     c_nature c' = fcell_nature (header_or_body (v_nature v)) type /\
     dget (c_styles c') "cellstyle" = kept_type (row_type (v_nature v)) type) /\
  if use_cals
  then dget (c_styles c') "align" = dget (c_styles c) "align" /\
       dget (c_styles c') "vertical-align" = kept_valign (dget (c_styles c) "vertical-align") /\
       dget (c_styles c') "background-color" = kept_text (dget (c_styles c) "background-color") /\
       flines_kept t' n m c' c
  else forall k, k <> "cellstyle" -> dget (c_styles c') k = None.

(** A row which has no style has the one of its type. *)
Definition frow_kept (use_cals : bool) (t' : table) (v' v : view) : Prop :=
  v_nature v' = Some (header_or_body (v_nature v)) /\
  let label := text_look (row_label (row_type (v_nature v)) 0) in
  if use_cals
  then dget (v_styles v') "vertical-align" = kept_valign (dget (v_styles v) "vertical-align") /\
       dget (v_styles v') "background-color" = kept_text (dget (v_styles v) "background-color") /\
       dget (v_styles v') "rowstyle" = own_or_default (kept_text (dget (v_styles v) "rowstyle")) label /\
       (forall w, line_of (v_styles v) "border-bottom" w ->
          own_or_default (dget (v_styles v') "border-bottom") (dget (t_styles t') "x-cell-border-bottom") = Some (kept_line w))
  else forall k, dget (v_styles v') k = if String.eqb k "rowstyle" then label else None.

(** Without the CALS attributes, the direction of the page is the only style of the table which is kept; a portrait
    on one page is not written. *)
Definition ftable_kept (use_cals : bool) (t' t : table) : Prop :=
  if use_cals then table_kept t' t
  else
    t_nature t' = None /\
    (forall k, k <> "x-sect-orient" -> dget (t_styles t') k = None) /\
    (dget (t_styles t) "x-sect-orient" = None -> dget (t_styles t') "x-sect-orient" = None) /\
    (dget (t_styles t) "x-sect-orient" = Some (SStr "landscape") -> dget (t_styles t') "x-sect-orient" = Some (SStr "landscape")) /\
    (forall w h, page_of (t_styles t) w h -> dget (t_styles t) "x-sect-orient" = Some (SStr "portrait") ->
       (one_page w h -> dget (t_styles t') "x-sect-orient" = None) /\
       (~ one_page w h -> dget (t_styles t') "x-sect-orient" = Some (SStr "portrait"))).
