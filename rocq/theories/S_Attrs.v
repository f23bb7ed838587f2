(** * Specification vocabulary for the attributes written by the builders *)
From Coq Require Import QArith.
From Verif Require Import Base M_Geometry M_Xml M_Cell M_Table S_Geometry S_Table S_Units S_Int S_Builder S_Cals S_CalsParser S_Formex.
Open Scope string_scope.
Open Scope list_scope.
Open Scope Z_scope.

(** ** From a style to the text of an attribute *)

(** The text of the style is the attribute; the style is a text and its name is in the list. *)
Definition as_is (style : option sval) (written : option string) : Prop :=
  match style with
  | None => written = None
  | Some v => exists s, v = SStr s /\ written = Some s
  end.
Definition renamed_as (names : list (string * string)) (style : option sval) (written : option string) : Prop :=
  match style with
  | None => written = None
  | Some v => exists s w, v = SStr s /\ In (s, w) names /\ written = Some w
  end.
Definition align_names : list (string * string) :=
  [("left", "left"); ("right", "right"); ("center", "center"); ("justify", "justify")].
Definition valign_names : list (string * string) :=
  [("top", "top"); ("middle", "middle"); ("bottom", "bottom"); ("baseline", "bottom")].
Definition orient_names : list (string * string) := [("landscape", "land"); ("portrait", "port")].
(** The width in the unit [unit]; [fmt] writes a number. *)
Definition width_as (unit : string) (fmt : Q -> string) (style : option sval) (written : option string) : Prop :=
  match style with
  | None => written = None
  | Some v => exists s num u x p q r, v = SStr s /\
      reads_width (list_ascii_of_string s) num u /\ numeral num x /\
      millimetres (match u with [] => "mm" | _ => string_of_list_ascii u end) p /\ millimetres unit q /\
      nearest_milli (x * p / q) r /\ written = Some (String.append (fmt r) unit)
  end.
(** The separator in force, [default] being the one of the table *)
Definition line_shown (st : styles) (style : string) (default : string) (written : option string) : Prop :=
  (forall w, line_of st style w -> effective written default = shown w) /\
  ((forall w, ~ line_of st style w) -> written = None).

(** ** The elements *)

Definition cell_look (ns : option string) (bb : box) (colsep rowsep : string) (c : cell) (e : xnode) : Prop :=
  (cx (bmax (c_box c)) <> cx (bmax bb) -> line_shown (c_styles c) "border-right" colsep (attribute ns e "colsep")) /\
  (cx (bmax (c_box c)) = cx (bmax bb) -> attribute ns e "colsep" = None) /\
  (cy (bmax (c_box c)) <> cy (bmax bb) -> line_shown (c_styles c) "border-bottom" rowsep (attribute ns e "rowsep")) /\
  (cy (bmax (c_box c)) = cy (bmax bb) -> attribute ns e "rowsep" = None) /\
  renamed_as (("w-both", "bottom") :: valign_names) (dget (c_styles c) "vertical-align") (attribute ns e "valign") /\
  renamed_as align_names (dget (c_styles c) "align") (attribute ns e "align") /\
  as_is (dget (c_styles c) "background-color") (attribute ns e "bgcolor") /\
  (let '(MkBox (Coord x1 y1) (Coord x2 y2)) := c_box c in
   (x1 < x2 -> attribute ns e "namest" = Some (column_name x1) /\ attribute ns e "nameend" = Some (column_name x2)) /\
   (x2 <= x1 -> attribute ns e "namest" = None /\ attribute ns e "nameend" = None) /\
   (y1 < y2 -> attribute ns e "morerows" = Some (py_str_int (y2 - y1))) /\
   (y2 <= y1 -> attribute ns e "morerows" = None)).
Definition row_look (ns : option string) (rowsep : string) (v : view) (e : xnode) : Prop :=
  renamed_as valign_names (dget (v_styles v) "vertical-align") (attribute ns e "valign") /\
  line_shown (v_styles v) "border-bottom" rowsep (attribute ns e "rowsep") /\
  as_is (dget (v_styles v) "rowstyle") (attribute ns e "rowstyle").
Definition column_look (ns : option string) (unit : string) (fmt : Q -> string) (colsep rowsep : string) (v : view) (e : xnode) : Prop :=
  describes_column ns (v_pos v) e /\
  width_as unit fmt (dget (v_styles v) "width") (attribute ns e "colwidth") /\
  (forall s, dget (v_styles v) "align" = Some (SStr s) -> In s (map fst align_names) -> attribute ns e "align" = Some s) /\
  ((forall s, dget (v_styles v) "align" = Some (SStr s) -> ~ In s (map fst align_names)) -> attribute ns e "align" = None) /\
  line_shown (v_styles v) "border-right" colsep (attribute ns e "colsep") /\
  line_shown (v_styles v) "border-bottom" rowsep (attribute ns e "rowsep").
(** The separators of the table: those of its styles, no line by default *)
Definition table_line (st : styles) (style sep : string) : Prop :=
  (forall w, line_of st style w -> sep = shown w) /\ ((forall w, ~ line_of st style w) -> sep = "0").
(** The frame shows the borders, when one of the six frames does. *)
Definition frame_look (st : styles) (f : string) : Prop :=
  In f six_frames /\
  ((exists g, In g six_frames /\ forall s, frame_shows g s <-> drawn st s) -> forall s, frame_shows f s <-> drawn st s).
Definition table_look (ns : option string) (unit : string) (fmt : Q -> string) (t : table) (e : xnode) : Prop :=
  (exists f, attribute ns e "frame" = Some f /\ frame_look (t_styles t) f) /\
  renamed_as orient_names (dget (t_styles t) "x-sect-orient") (attribute ns e "orient") /\
  (attribute ns e "pgwide" = match dget (t_styles t) "x-sect-cols" with
                             | None => None
                             | Some (SStr s) => Some (if String.eqb s "1" then "1" else "0")
                             | Some _ => Some "0"
                             end) /\
  as_is (dget (t_styles t) "background-color") (attribute ns e "bgcolor") /\
  width_as unit fmt (dget (t_styles t) "width") (attribute ns e "width").

(** ** The whole trees *)

(** The elements of the rows and of their cells; [more] is what is asked further of a row, of a cell. *)
Definition row_of_look (ns : option string) (bb : box) (colsep rowsep : string) (more : view -> xnode -> Prop) (more' : cell -> xnode -> Prop)
    (v : view) (e : xnode) : Prop :=
  row_look ns rowsep v e /\ more v e /\
  Forall2 (fun c en => cell_look ns bb colsep rowsep c en /\ more' c en) (v_owned v) (x_children e).
Definition separators_of (t : table) (colsep rowsep : string) : Prop :=
  table_line (t_styles t) "x-cell-border-right" colsep /\ table_line (t_styles t) "x-cell-border-bottom" rowsep.

(** *** The marks around an inserted row *)

(** The text between quotes, read as XML *)
Definition entities : list (ascii * string) :=
  [("&"%char, "&amp;"); ("<"%char, "&lt;"); (">"%char, "&gt;"); (ascii_of_nat 34, "&quot;");
   (ascii_of_nat 9, "&#9;"); (ascii_of_nat 10, "&#10;"); (ascii_of_nat 13, "&#13;")].
Inductive read_as : string -> string -> Prop :=
| read_end : read_as "" ""
| read_entity c e w s : In (c, e) entities -> read_as w s -> read_as (String.append e w) (String c s)
| read_char c w s : ~ In c (map fst entities) -> read_as w s -> read_as (String c w) (String c s).
Definition quotes (w : string) : string := String (ascii_of_nat 34) (String.append w (String (ascii_of_nat 34) "")).
(** The attributes written in a processing instruction *)
Inductive says : string -> list (string * string) -> Prop :=
| says_one k v w : read_as w v -> says (String.append k (String.append "=" (quotes w))) [(k, v)]
| says_more k v w rest l : read_as w v -> says rest l ->
    says (String.append k (String.append "=" (String.append (quotes w) (String.append " " rest)))) ((k, v) :: l).

Definition text_mark (name : string) (v : option sval) (l : list (string * string)) : Prop :=
  match v with
  | None => l = []
  | Some v => exists s, v = SStr s /\ l = [(name, s)]
  end.
(** The text of a value in Python *)
Inductive str_of : sval -> string -> Prop :=
| str_text s : str_of (SStr s) s
| str_true : str_of (SBool true) "True"
| str_false : str_of (SBool false) "False"
| str_none : str_of SNone "None"
| str_pair a b : str_of (SPair a b) ("(" ++ py_str_int a ++ ", " ++ py_str_int b ++ ")")%string.
(** The identifier, written after "ct" *)
Definition id_mark (v : option sval) (l : list (string * string)) : Prop :=
  match v with
  | None => l = []
  | Some v => exists s, l = [("change-id", String.append "ct" s)] /\ str_of v s
  end.
Definition insertion_marks (st : styles) (row : xnode) (items : list xnode) : Prop :=
  match dget st "x-ins" with
  | None => items = [row]
  | Some _ => exists start finish id creator date,
      items = [XPI "change-start" start None; row; XPI "change-end" finish None] /\
      id_mark (dget st "x-ins-id") id /\ text_mark "creator" (dget st "x-ins-author") creator /\ text_mark "date" (dget st "x-ins-date") date /\
      says start (("type", "row:insertion") :: id ++ creator ++ date) /\
      says finish (("type", "row:insertion") :: id)
  end.
(** A row, its cells and its marks *)
Definition row_rendered (tag : string) (ns : option string) (bb : box) (colsep rowsep : string) (more : view -> xnode -> Prop) (more' : cell -> xnode -> Prop)
    (v : view) (items : list xnode) : Prop :=
  exists row, x_tag row = Some tag /\ row_of_look ns bb colsep rowsep more more' v row /\ insertion_marks (v_styles v) row items.

(** ** The page of a Formex table *)

(** The size of the page in points: A4 if it is not known *)
Definition page_of (st : styles) (w h : Z) : Prop :=
  dget st "x-sect-size" = Some (SPair w h) \/ (dget st "x-sect-size" = None /\ w = 595 /\ h = 842).
(** The table stands on one A4 page (a little more: C4), in either direction *)
Definition one_page (w h : Z) : Prop := (w <= 649 /\ h <= 918) \/ (w <= 918 /\ h <= 649).
Definition page_shown (st : styles) (written : option string) : Prop :=
  (dget st "x-sect-orient" = None -> written = None) /\
  (forall w h, page_of st w h ->
     (dget st "x-sect-orient" = Some (SStr "landscape") ->
        (one_page w h -> written = Some "SINGLE.LANDSCAPE") /\ (~ one_page w h -> written = Some "DOUBLE.LANDSCAPE")) /\
     (dget st "x-sect-orient" = Some (SStr "portrait") ->
        (one_page w h -> written = None) /\ (~ one_page w h -> written = Some "DOUBLE.PORTRAIT"))).

(** The rows of CORPUS: all but the title *)
Definition rows_shown (titles : bool) (t : table) (rows shown : list view) : Prop :=
  (titles = true /\ has_title t -> exists first, rows = first :: shown) /\ (~ (titles = true /\ has_title t) -> shown = rows).
