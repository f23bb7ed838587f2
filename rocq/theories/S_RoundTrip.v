(** * Specification vocabulary: writing a table and reading it back *)
From Verif Require Import Base M_Geometry M_Xml M_Cell M_Grid M_Table S_Geometry S_Grid S_Table S_Builder S_Cals S_CalsParser.
Open Scope string_scope.
Open Scope list_scope.
Open Scope Z_scope.

(** The cells cover the columns 1 to [n] of the rows 1 to [m], without overlap. *)
Definition tiles (cells : list cell) (n m : Z) : Prop :=
  1 <= n /\ 1 <= m /\ all_valid cells /\ no_overlap cells /\
  (forall c, In c cells -> subarea (c_box c) (MkBox (Coord 1 1) (Coord n m))) /\
  forall k, covers (MkBox (Coord 1 1) (Coord n m)) k -> exists c, In c cells /\ covers (c_box c) k.

(** Each row lists its cells from left to right. *)
Definition rows_ordered (t : table) : Prop :=
  forall p v, 1 <= p -> reads Rows p t v -> left_to_right Rows (v_owned v).
(** The rows come in the order of the sections. *)
Definition rows_grouped (sorting : list string) (t : table) : Prop :=
  forall n p q u v j k, view_count Rows t n -> 1 <= p <= q -> q <= n -> reads Rows p t u -> reads Rows q t v ->
    rank sorting (v_nature u) j -> rank sorting (v_nature v) k -> (j <= k)%nat.
(** There is no CALS element in the cells. *)
Definition plain_contents (ns : option string) (cells : list cell) : Prop :=
  forall c n, In c cells -> In (Node n) (content_pieces (c_content c)) -> foreign ns n.

(** The natures which CALS can write: the other ones become "body". *)
Definition kept_nature (n : nature) : string :=
  match n with
  | Some s => if String.eqb s "header" then "header" else if String.eqb s "footer" then "footer" else "body"
  | None => "body"
  end.

(** The same place, the same content and the nature of the row in which it starts *)
Definition same_cell (t : table) (c' c : cell) : Prop :=
  c_box c' = c_box c /\ content_pieces (c_content c') = content_pieces (c_content c) /\
  exists v, reads Rows (cy (bmin (c_box c))) t v /\ c_nature c' = Some (kept_nature (v_nature v)).

(** ** Styles *)

(** An empty text is not read back. *)
Definition kept_text (v : option sval) : option sval := match v with Some (SStr "") => None | _ => v end.
(** CALS has three vertical alignments. *)
Definition kept_valign (v : option sval) : option sval :=
  match v with
  | Some (SStr s) => Some (SStr (if existsb (String.eqb s) ["top"; "middle"] then s else "bottom"))
  | _ => None
  end.
Definition cell_styles_kept (st' st : styles) : Prop :=
  dget st' "align" = dget st "align" /\
  dget st' "vertical-align" = kept_valign (dget st "vertical-align") /\
  dget st' "background-color" = kept_text (dget st "background-color") /\
  dget st' "cellstyle" = kept_text (dget st "cellstyle").

(** The border at a side of a cell: its own or the one the table gives to its cells *)
Definition border_in_force (t : table) (c : cell) (style : string) : option sval :=
  match dget (c_styles c) style with
  | Some v => Some v
  | None => dget (t_styles t) (String.append "x-cell-" style)
  end.
(** A line is kept as a solid line; there is none at the sides of the table. *)
Definition kept_line (w : string) : sval := SStr (if String.eqb w "none" then "none" else "solid 1pt black").
Definition borders_kept (t' : table) (n m : Z) (c' c : cell) : Prop :=
  (cx (bmax (c_box c)) < n -> forall w, line_of (c_styles c) "border-right" w ->
     border_in_force t' c' "border-right" = Some (kept_line w)) /\
  (cy (bmax (c_box c)) < m -> forall w, line_of (c_styles c) "border-bottom" w ->
     border_in_force t' c' "border-bottom" = Some (kept_line w)) /\
  (cx (bmax (c_box c)) = n -> dget (c_styles c') "border-right" = None) /\
  (cy (bmax (c_box c)) = m -> dget (c_styles c') "border-bottom" = None).

(** The frame of the table, if it is one of the six, its nature and the other styles *)
Definition table_kept (t' t : table) : Prop :=
  (forall f, In f six_frames -> (forall s, frame_shows f s <-> drawn (t_styles t) s) ->
     forall s, drawn (t_styles t') s <-> drawn (t_styles t) s) /\
  t_nature t' = not_empty (t_nature t) /\
  dget (t_styles t') "x-sect-orient" = dget (t_styles t) "x-sect-orient" /\
  dget (t_styles t') "x-sect-cols" =
    match dget (t_styles t) "x-sect-cols" with
    | None => None
    | Some (SStr "1") => Some (SStr "1")
    | Some _ => Some (SStr "2")
    end /\
  dget (t_styles t') "background-color" = kept_text (dget (t_styles t) "background-color") /\
  (forall style w, In style ["x-cell-border-right"; "x-cell-border-bottom"] -> line_of (t_styles t) style w ->
     dget (t_styles t') style = Some (kept_line w)) /\
  (dget (t_styles t) "width" = None -> dget (t_styles t') "width" = None).
