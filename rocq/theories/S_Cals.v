(** * Specification vocabulary for CALS tables *)
From Verif Require Import Base M_Geometry M_Xml M_Cell M_Table S_Geometry S_Grid S_Table S_Builder S_Units.
Open Scope string_scope.
Open Scope list_scope.
Open Scope Z_scope.

(** ** Borders *)

Inductive side : Type := TopSide | BottomSide | LeftSide | RightSide.
Definition side_style (s : side) : string :=
  match s with
  | TopSide => "border-top" | BottomSide => "border-bottom"
  | LeftSide => "border-left" | RightSide => "border-right"
  end.

(** The values of [frame] and the sides each one shows *)
Definition six_frames : list string := ["none"; "all"; "topbot"; "sides"; "top"; "bottom"].
Definition frame_shows (f : string) (s : side) : Prop :=
  f = "all" \/
  match s with
  | TopSide => f = "top" \/ f = "topbot"
  | BottomSide => f = "bottom" \/ f = "topbot"
  | LeftSide | RightSide => f = "sides"
  end.

(** The words of a text separated by spaces *)
Definition words (s : string) (ws : list string) : Prop :=
  s = String.concat " " ws /\ ws <> [] /\
  forall w, In w ws -> ~ In " "%char (list_ascii_of_string w).
(** A border is a size ("2pt"), a colour ("#FF0000", "auto") and a line *)
Definition line_word (w : string) : Prop :=
  (forall p, w <> String.append p "pt") /\ w <> "auto" /\ (forall p, w <> String.append "#" p).
(** The line of a border style: the last word which is a line *)
Definition line_of (st : styles) (style w : string) : Prop :=
  exists s a b, dget st style = Some (SStr s) /\ s <> "" /\ words s (a ++ w :: b) /\ line_word w /\
    forall x, In x b -> ~ line_word x.
Definition drawn (st : styles) (s : side) : Prop :=
  exists w, line_of st (side_style s) w /\ w <> "none" /\ w <> "".

(** ** Trees *)

Definition expanded (ns : option string) (name : string) : string :=
  match ns with None => name | Some uri => String.append "{" (String.append uri (String.append "}" name)) end.
Definition named (ns : option string) (name : string) (e : xnode) : Prop := x_tag e = Some (expanded ns name).
Definition attribute (ns : option string) (e : xnode) (name : string) : option string := x_get e (expanded ns name).
Definition column_name (i : Z) : string := String.append "c" (py_str_int i).

(** An entry shows the spans and the content of the cell. *)
Definition describes_cell (ns : option string) (c : cell) (e : xnode) : Prop :=
  named ns "entry" e /\ x_tail e = None /\
  (let '(MkBox (Coord x1 y1) (Coord x2 y2)) := c_box c in
   (x1 < x2 -> attribute ns e "namest" = Some (column_name x1) /\ attribute ns e "nameend" = Some (column_name x2)) /\
   (x2 <= x1 -> attribute ns e "namest" = None /\ attribute ns e "nameend" = None) /\
   (y1 < y2 -> attribute ns e "morerows" = Some (py_str_int (y2 - y1))) /\
   (y2 <= y1 -> attribute ns e "morerows" = None)) /\
  elem_pieces e = content_pieces (c_content c).

(** A row is an element with an entry, related by [D], for each cell starting on the row; an inserted row is between
    two processing instructions. *)
Definition row_with (D : cell -> xnode -> Prop) (ns : option string) (v : view) (items : list xnode) : Prop :=
  exists row, named ns "row" row /\ x_text row = None /\ x_tail row = None /\
    Forall2 D (v_owned v) (x_children row) /\
    match dget (v_styles v) "x-ins" with
    | None => items = [row]
    | Some _ => exists a b, items = [XPI "change-start" a None; row; XPI "change-end" b None]
    end.

Definition section_of (n : nature) : string :=
  match n with
  | Some s => if String.eqb s "header" then "thead" else if String.eqb s "footer" then "tfoot" else "tbody"
  | None => "tbody"
  end.
Definition section_with (D : cell -> xnode -> Prop) (ns : option string) (s : nature * list view) (e : xnode) : Prop :=
  named ns (section_of (fst s)) e /\ x_text e = None /\ x_tail e = None /\
  snd s <> [] /\ (forall v, In v (snd s) -> v_nature v = fst s) /\
  exists items, Forall2 (row_with D ns) (snd s) items /\ x_children e = List.concat items.

Definition describes_column (ns : option string) (i : Z) (e : xnode) : Prop :=
  named ns "colspec" e /\ attribute ns e "colnum" = Some (py_str_int i) /\ attribute ns e "colname" = Some (column_name i) /\
  x_children e = [] /\ x_text e = None /\ x_tail e = None.

Definition table_with (D : cell -> xnode -> Prop) (ns : option string) (cols : Z) (sections : list (nature * list view)) (e : xnode) : Prop :=
  named ns "table" e /\
  exists tg specs bodies,
    x_children e = [tg] /\ named ns "tgroup" tg /\ attribute ns tg "cols" = Some (py_str_int cols) /\
    x_children tg = specs ++ bodies /\
    Forall2 (describes_column ns) (zrange 1 (cols + 1)) specs /\
    Forall2 (section_with D ns) sections bodies.
Definition describes_table (ns : option string) := table_with (describes_cell ns) ns.

(** The entries of a tree, in document order *)
Definition children_named (name : string) (l : list xnode) : list xnode :=
  filter (fun e => x_has_tag e name) (flat_map x_children l).
Definition entries (ns : option string) (e : xnode) : list xnode :=
  children_named (expanded ns "entry") (children_named (expanded ns "row")
    (flat_map x_children (children_named (expanded ns "tgroup") [e]))).

(** ** Separators *)

(** A separator is shown ("1") unless the line is "none" ("0"). *)
Definition shown (line : string) : string := if String.eqb line "none" then "0" else "1".
(** The separators given by the table (or its tgroup) hold where an entry has none. *)
Definition default_separators (in_tgroup : bool) (ns : option string) (e : xnode) (colsep rowsep : string) : Prop :=
  exists tg, x_children e = [tg] /\
  let d := if in_tgroup then tg else e in
  attribute ns d "colsep" = Some colsep /\ attribute ns d "rowsep" = Some rowsep.
Definition effective (own : option string) (default : string) : string :=
  match own with Some s => s | None => default end.
(** The separators at the right of a cell and below it are those of its styles; in the last column
    (the last row) there is none. *)
Definition separated (ns : option string) (bb : box) (colsep rowsep : string) (c : cell) (e : xnode) : Prop :=
  (cx (bmax (c_box c)) <> cx (bmax bb) -> forall w, line_of (c_styles c) "border-right" w ->
     effective (attribute ns e "colsep") colsep = shown w) /\
  (cx (bmax (c_box c)) = cx (bmax bb) -> attribute ns e "colsep" = None) /\
  (cy (bmax (c_box c)) <> cy (bmax bb) -> forall w, line_of (c_styles c) "border-bottom" w ->
     effective (attribute ns e "rowsep") rowsep = shown w) /\
  (cy (bmax (c_box c)) = cy (bmax bb) -> attribute ns e "rowsep" = None).

(** ** The order of sections *)

(** Place of a nature in the sorting list (the last one if there are several); another nature counts
    as "body". *)
Definition last_place (l : list string) (n : string) (k : nat) : Prop :=
  nth_error l k = Some n /\ forall j, nth_error l j = Some n -> (j <= k)%nat.
Definition rank (sorting : list string) (n : nature) (k : nat) : Prop :=
  match n with
  | Some s => last_place sorting s k \/ (~ In s sorting /\ last_place sorting "body" k)
  | None => last_place sorting "body" k
  end.
Definition sections_sorted (sorting : list string) (sections : list (nature * list view)) : Prop :=
  StronglySorted (fun s s' => forall k k', rank sorting (fst s) k -> rank sorting (fst s') k' -> (k <= k')%nat) sections.
(** Rows of equal rank stay in the same order. *)
Definition stable (sorting : list string) (rows rows' : list view) : Prop :=
  forall k l, selects (fun v => rank sorting (v_nature v) k) rows l ->
              selects (fun v => rank sorting (v_nature v) k) rows' l.

(** ** Tables whose attributes can be written *)

Definition text_or_absent (st : styles) (k : string) : Prop :=
  match dget st k with None | Some (SStr _) => True | _ => False end.
Definition one_of (st : styles) (k : string) (values : list string) : Prop :=
  match dget st k with None => True | Some (SStr s) => In s values | _ => False end.
Definition width_or_absent (st : styles) : Prop :=
  match dget st "width" with
  | None => True
  | Some (SStr s) => exists num u, reads_width (list_ascii_of_string s) num u
  | _ => False
  end.
Definition aligns : list string := ["left"; "right"; "center"; "justify"].
Definition valigns : list string := ["top"; "middle"; "bottom"; "baseline"].
Definition cell_ready (c : cell) : Prop :=
  writable (c_content c) /\
  text_or_absent (c_styles c) "border-right" /\ text_or_absent (c_styles c) "border-bottom" /\
  one_of (c_styles c) "align" aligns /\ one_of (c_styles c) "vertical-align" ("w-both" :: valigns) /\
  text_or_absent (c_styles c) "background-color" /\ text_or_absent (c_styles c) "cellstyle".
Definition row_ready (v : view) : Prop :=
  text_or_absent (v_styles v) "border-bottom" /\ one_of (v_styles v) "vertical-align" valigns /\
  text_or_absent (v_styles v) "rowstyle" /\ text_or_absent (v_styles v) "x-ins-author" /\
  text_or_absent (v_styles v) "x-ins-date".
Definition col_ready (v : view) : Prop :=
  width_or_absent (v_styles v) /\
  text_or_absent (v_styles v) "border-right" /\ text_or_absent (v_styles v) "border-bottom".
Definition styles_ready (st : styles) : Prop :=
  (forall s, text_or_absent st (side_style s)) /\
  text_or_absent st "x-cell-border-right" /\ text_or_absent st "x-cell-border-bottom" /\
  one_of st "x-sect-orient" ["landscape"; "portrait"] /\ text_or_absent st "background-color" /\
  width_or_absent st.
Definition ready (t : table) : Prop :=
  styles_ready (t_styles t) /\ (forall c, In c (table_iter t) -> cell_ready c) /\
  (forall p v, 1 <= p -> reads Rows p t v -> row_ready v) /\ (forall p v, 1 <= p -> reads Cols p t v -> col_ready v).
