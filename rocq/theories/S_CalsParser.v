(** * Specification vocabulary for the reading of CALS tables *)
From Coq Require Import QArith.
From Verif Require Import Base M_Geometry M_Xml M_Cell M_Grid M_Table S_Geometry S_Grid S_Table S_Cals S_Int S_Units.
Open Scope string_scope.
Open Scope list_scope.
Open Scope Z_scope.

(** ** The elements of a table *)

Definition cals_names : list string := ["table"; "tgroup"; "colspec"; "thead"; "tfoot"; "tbody"; "row"; "entry"].
Definition cals_element (ns : option string) (n : xnode) : Prop := exists name, In name cals_names /\ named ns name n.

(** A name space is not written with a brace. *)
Definition no_brace (ns : option string) : Prop :=
  forall uri, ns = Some uri -> ~ In "}"%char (list_ascii_of_string uri).

(** There is no CALS element in the node; there is a table in it; the CALS elements in it are tables
    and what they contain. *)
Inductive foreign (ns : option string) : xnode -> Prop :=
| foreign_node n : ~ cals_element ns n -> (forall c, In c (x_children n) -> foreign ns c) -> foreign ns n.
Inductive nests (ns : option string) : xnode -> Prop :=
| nests_here n : named ns "table" n -> nests ns n
| nests_below n c : In c (x_children n) -> nests ns c -> nests ns n.
Inductive hosts (ns : option string) : xnode -> Prop :=
| hosts_table n : named ns "table" n -> hosts ns n
| hosts_other n : ~ cals_element ns n -> (forall c, In c (x_children n) -> hosts ns c) -> hosts ns n.

(** A table is made of tgroups, a tgroup of colspecs and sections, a section of rows and a row of
    entries.  Other elements may stand anywhere; an entry may contain tables. *)
Definition regular_row (ns : option string) (row : xnode) : Prop :=
  forall e, In e (x_children row) ->
    foreign ns e \/ (named ns "entry" e /\ forall n, In n (x_children e) -> hosts ns n).
Definition is_section (ns : option string) (n : xnode) : Prop :=
  named ns "thead" n \/ named ns "tfoot" n \/ named ns "tbody" n.
Definition regular_section (ns : option string) (sec : xnode) : Prop :=
  forall r, In r (x_children sec) -> foreign ns r \/ (named ns "row" r /\ regular_row ns r).
(** A column number, when there is one, is positive. *)
Definition regular_colspec (ns : option string) (c : xnode) : Prop :=
  (forall n, In n (x_children c) -> foreign ns n) /\
  (forall s m, attribute ns c "colnum" = Some s -> int_text s m -> 1 <= m).
Definition regular_tgroup (ns : option string) (tg : xnode) : Prop :=
  forall c, In c (x_children tg) ->
    foreign ns c \/ (named ns "colspec" c /\ regular_colspec ns c) \/ (is_section ns c /\ regular_section ns c).
Definition regular (ns : option string) (e : xnode) : Prop :=
  named ns "table" e /\
  forall c, In c (x_children e) -> foreign ns c \/ (named ns "tgroup" c /\ regular_tgroup ns c).

(** The columns and rows, in the order of the document *)
Inductive item : Type := Column (e : xnode) | Row (na : string) (section row : xnode).
Definition of_name (ns : option string) (name : string) (l : list xnode) : list xnode :=
  filter (fun e => x_has_tag e (expanded ns name)) l.
Definition has_name (ns : option string) (name : string) (n : xnode) : bool := x_has_tag n (expanded ns name).
Definition part_items (ns : option string) (c : xnode) : list item :=
  if has_name ns "colspec" c then [Column c]
  else if has_name ns "thead" c then map (Row "header" c) (of_name ns "row" (x_children c))
  else if has_name ns "tfoot" c then map (Row "footer" c) (of_name ns "row" (x_children c))
  else if has_name ns "tbody" c then map (Row "body" c) (of_name ns "row" (x_children c))
  else [].
Definition items (ns : option string) (e : xnode) : list item :=
  flat_map (fun tg => flat_map (part_items ns) (x_children tg)) (of_name ns "tgroup" (x_children e)).

(** ** Spans and contents *)

(** [namest] and [nameend] name a column by the first number of the text; by default it is the rank
    of the entry in its row. *)
Definition names_column (ns : option string) (e : xnode) (name : string) (rank n : Z) : Prop :=
  match attribute ns e name with Some s => first_number s n | None => n = rank end.
Definition entry_span (ns : option string) (e : xnode) (rank w h : Z) : Prop :=
  (exists a b, names_column ns e "namest" rank a /\ names_column ns e "nameend" rank b /\ w = b - a + 1) /\
  match attribute ns e "morerows" with Some s => int_text s (h - 1) | None => h = 1 end.
Definition text_of (e : xnode) : list content :=
  match x_text e with None | Some "" => [] | Some s => [CText s] end.
Definition content_of (e : xnode) : content := CList (text_of e ++ map CNode (x_children e)).

(** ** Styles *)

Definition separator_line (v : option string) : option string :=
  match v with
  | Some s => if String.eqb s "0" then Some "none" else if String.eqb s "1" then Some "solid 1pt black" else None
  | None => None
  end.
Definition not_empty (v : option string) : option string := match v with Some "" => None | _ => v end.
Definition one_in (values : list string) (v : option string) : option string :=
  match v with Some s => if existsb (String.eqb s) values then Some s else None | None => None end.
Definition align_of (v : option string) : option string :=
  match v with Some "char" => Some "left" | _ => one_in ["left"; "right"; "center"; "justify"] v end.
Definition valign_of (v : option string) : option string := one_in ["top"; "middle"; "bottom"] v.
Definition or_else (v w : option string) : option string := match v with Some _ => v | None => w end.

Definition entry_style (ns : option string) (e : xnode) (k : string) : option string :=
  let a := attribute ns e in
  if String.eqb k "border-right" then separator_line (a "colsep")
  else if String.eqb k "border-bottom" then separator_line (a "rowsep")
  else if String.eqb k "background-color" then not_empty (a "bgcolor")
  else if String.eqb k "vertical-align" then valign_of (a "valign")
  else if String.eqb k "align" then align_of (a "align")
  else if String.eqb k "cellstyle" then not_empty (a "cellstyle")
  else if String.eqb k "x-cell-empty" then
    match text_of e, x_children e with [], [] => Some "true" | _, _ => None end
  else None.
Definition row_style (ns : option string) (section row : xnode) (k : string) : option string :=
  let a := attribute ns row in
  if String.eqb k "vertical-align" then or_else (valign_of (a "valign")) (valign_of (attribute ns section "valign"))
  else if String.eqb k "border-bottom" then separator_line (a "rowsep")
  else if String.eqb k "background-color" then not_empty (a "bgcolor")
  else if String.eqb k "rowstyle" then not_empty (a "rowstyle")
  else None.
Definition column_style (ns : option string) (c : xnode) (k : string) : option string :=
  let a := attribute ns c in
  if String.eqb k "border-right" then separator_line (a "colsep")
  else if String.eqb k "border-bottom" then separator_line (a "rowsep")
  else if String.eqb k "width" then not_empty (a "colwidth")
  else if String.eqb k "align" then align_of (a "align")
  else None.
Definition has_styles (st : styles) (spec : string -> option string) : Prop :=
  forall k, dget st k = match spec k with Some s => Some (SStr s) | None => None end.

(** ** The layout *)

(** What is laid out: the entry (nothing for a cell which fills a hole) and the cell, without styles *)
Definition spot : Type := option xnode * cell.
Definition bare (ct : content) (na : nature) (b : box) : cell := MkCell ct [] na b.

(** The least area which contains all the cells *)
Definition bounds (g : list cell) (bb : box) : Prop :=
  valid bb /\ (forall c, In c g -> subarea (c_box c) bb) /\
  forall b, valid b -> (forall c, In c g -> subarea (c_box c) b) -> subarea bb b.
Definition area (bb : box) : list coord :=
  flat_map (fun y => map (fun x => Coord x y) (zrange (cx (bmin bb)) (cx (bmax bb) + 1)))
    (zrange (cy (bmin bb)) (cy (bmax bb) + 1)).
(** All the holes of an area are filled. *)
Definition filled (bb : box) (na : nature) (g g' : list spot) : Prop :=
  exists ks, selects (free (map snd g)) (area bb) ks /\
    g' = map (fun k => (None, bare CNone na (MkBox k k))) ks ++ g.

(** Defect of the parser: at the end of a table nested in an entry, the holes of the table made so
    far are filled ([watch = true]).  Without it nothing happens ([watch = false]). *)
Inductive settled (ns : option string) (watch : bool) (e : xnode) (g : list spot) : list spot -> Prop :=
| settled_nested n bb g' : watch = true -> In n (x_children e) -> nests ns n -> bounds (map snd g) bb -> filled bb None g g' ->
    settled ns watch e g g'
| settled_plain : ~ (watch = true /\ exists n, In n (x_children e) /\ nests ns n) -> settled ns watch e g g.

(** The entries of row [r]: each one at the first free column.  [k] is the number of entries which
    come before, [n] the number of columns. *)
Inductive placed (ns : option string) (watch : bool) (r : Z) (na : nature)
  : Z -> list xnode -> Z -> list spot -> Z -> list spot -> Prop :=
| placed_nil k n g : placed ns watch r na k [] n g n g
| placed_cons k e es n g i w h g1 n2 g2 :
    entry_span ns e (k + 1) w h -> 1 <= w -> 1 <= h ->
    first_free Rows r i (map snd g) ->
    (forall d, In d (map snd g) -> ~ clash (c_box d) (seat Rows r i w h)) ->
    settled ns watch e ((Some e, bare (content_of e) na (seat Rows r i w h)) :: g) g1 ->
    placed ns watch r na (k + 1) es (Z.max n (i + w - 1)) g1 n2 g2 ->
    placed ns watch r na k (e :: es) n g n2 g2.

(** The state of a layout: the last row, the last column counted, the number of columns, the spots and
    the styles of the columns *)
Definition colstyles : Type := Z -> string -> option string.
Record layout := MkLayout { l_row : Z; l_count : Z; l_cols : Z; l_spots : list spot; l_styles : colstyles }.
Definition colstyles_with (ns : option string) (m : Z) (c : xnode) (cs : colstyles) : colstyles :=
  fun j k => if j =? m then or_else (column_style ns c k) (cs j k) else cs j k.
Definition column_number (ns : option string) (c : xnode) (count m : Z) : Prop :=
  match attribute ns c "colnum" with
  | None | Some "" => m = count + 1
  | Some s => int_text s m
  end.
Inductive lays (ns : option string) (watch : bool) : list item -> layout -> layout -> Prop :=
| lays_nil l : lays ns watch [] l l
| lays_column c its r k n g cs m l' :
    column_number ns c k m ->
    lays ns watch its (MkLayout r (k + 1) (Z.max n m) g (colstyles_with ns m c cs)) l' ->
    lays ns watch (Column c :: its) (MkLayout r k n g cs) l'
| lays_row na sec row its r k n g cs n1 g1 g2 l' :
    placed ns watch (r + 1) (Some na) 0 (of_name ns "entry" (x_children row)) n g n1 g1 ->
    1 <= n1 -> filled (MkBox (Coord 1 (r + 1)) (Coord n1 (r + 1))) (Some na) g1 g2 ->
    lays ns watch its
      (MkLayout (r + 1) (Z.of_nat (List.length (of_name ns "entry" (x_children row)))) n1 g2 cs) l' ->
    lays ns watch (Row na sec row :: its) (MkLayout r k n g cs) l'.

(** The columns and the spots of a table *)
Definition laid_out (ns : option string) (watch : bool) (e : xnode) (l : layout) (g : list spot) : Prop :=
  lays ns watch (items ns e) (MkLayout 0 0 0 [] (fun _ _ => None)) l /\
  exists bb,
    bounds (map snd (l_spots l)) bb /\ filled bb None (l_spots l) g.

(** The cells are those of the spots, with the styles of the entries. *)
Definition shows (ns : option string) (c : cell) (s : spot) : Prop :=
  c_content c = c_content (snd s) /\ c_nature c = c_nature (snd s) /\ c_box c = c_box (snd s) /\
  match fst s with Some e => has_styles (c_styles c) (entry_style ns e) | None => c_styles c = [] end.
Definition pictures (ns : option string) (cells : list cell) (g : list spot) : Prop :=
  exists l, Permutation l cells /\ Forall2 (shows ns) l g.

(** ** Attributes of rows and columns *)

Definition column_attributes (cs : colstyles) (j : Z) (v : view) : Prop :=
  v_nature v = None /\ has_styles (v_styles v) (cs j).

Definition row_items (l : list item) : list (string * xnode * xnode) :=
  flat_map (fun i => match i with Row na sec row => [(na, sec, row)] | Column _ => [] end) l.
Definition row_attributes (ns : option string) (rows : list (string * xnode * xnode)) (r : Z) (v : view) : Prop :=
  match nth_error rows (Z.to_nat (r - 1)) with
  | Some (na, sec, row) => v_nature v = Some na /\ has_styles (v_styles v) (row_style ns sec row)
  | None => v_nature v = None /\ v_styles v = []
  end.

(** ** Attributes of the table *)

Definition last_given (l : list (option string)) : option string := fold_left (fun d v => or_else v d) l None.
(** A separator of the table holds unless a tgroup says otherwise. *)
Definition table_separator (ns : option string) (e : xnode) (name : string) : option string :=
  last_given (map (fun n => separator_line (attribute ns n name)) (e :: of_name ns "tgroup" (x_children e))).
Definition table_frame (ns : option string) (e : xnode) (s : side) (v : option sval) : Prop :=
  match not_empty (attribute ns e "frame") with
  | None => v = None
  | Some f => In f six_frames /\ (frame_shows f s -> v = Some (SStr "solid 1pt black")) /\
              (~ frame_shows f s -> v = Some (SStr "none"))
  end.
Definition renamed (l : list (string * string)) (v : option string) : option string :=
  match v with Some s => option_map snd (find (fun p => String.eqb s (fst p)) l) | None => None end.
Definition table_style (ns : option string) (e : xnode) (k : string) : option string :=
  let a := attribute ns e in
  if String.eqb k "x-cell-border-right" then table_separator ns e "colsep"
  else if String.eqb k "x-cell-border-bottom" then table_separator ns e "rowsep"
  else if String.eqb k "x-sect-orient" then
    renamed [("land", "landscape"); ("port", "portrait")] (a "orient")
  else if String.eqb k "x-sect-cols" then renamed [("0", "2"); ("1", "1")] (a "pgwide")
  else if String.eqb k "background-color" then not_empty (a "bgcolor")
  else None.
(** The width is converted to the unit [unit]; [fmt] writes a number. *)
Definition table_width (ns : option string) (unit : string) (fmt : Q -> string) (e : xnode) (v : option sval) : Prop :=
  match not_empty (attribute ns e "width") with
  | None => v = None
  | Some s => exists num u x p q r,
      reads_width (list_ascii_of_string s) num u /\ numeral num x /\
      millimetres (match u with [] => "mm" | _ => string_of_list_ascii u end) p /\ millimetres unit q /\
      nearest_milli (x * p / q) r /\ v = Some (SStr (String.append (fmt r) unit))
  end.
(** A style of a tgroup takes the place of the last word. *)
Inductive group_nature (style : option string) : nature -> nature -> Prop :=
| gn_none n : not_empty style = None -> group_nature style n n
| gn_first s n : not_empty style = Some s -> not_empty n = None -> group_nature style n (Some s)
| gn_word s n ws w : not_empty style = Some s -> n <> "" -> words n (ws ++ [w]) ->
    group_nature style (Some n) (Some (String.concat " " (ws ++ [s]))).
Inductive group_natures : list (option string) -> nature -> nature -> Prop :=
| gns_nil n : group_natures [] n n
| gns_cons s l n n1 n2 : group_nature s n n1 -> group_natures l n1 n2 -> group_natures (s :: l) n n2.
Definition table_attributes (ns : option string) (unit : string) (fmt : Q -> string) (e : xnode) (t : table) : Prop :=
  (forall s, table_frame ns e s (dget (t_styles t) (side_style s))) /\
  table_width ns unit fmt e (dget (t_styles t) "width") /\
  (forall k, ~ In k ["width"; "border-top"; "border-bottom"; "border-left"; "border-right"] ->
     dget (t_styles t) k = match table_style ns e k with Some s => Some (SStr s) | None => None end) /\
  group_natures (map (fun n => attribute ns n "tgroupstyle") (of_name ns "tgroup" (x_children e)))
    (not_empty (attribute ns e "tabstyle")) (t_nature t).

(** The attributes of the table can be read: the frame is one of the six, the width has a digit. *)
Definition readable_table (ns : option string) (unit : string) (e : xnode) : Prop :=
  (forall f, not_empty (attribute ns e "frame") = Some f -> In f six_frames) /\
  (forall w, not_empty (attribute ns e "width") = Some w ->
     In unit unit_names /\ exists c, In c (list_ascii_of_string w) /\ digit c).

(** ** Conditions on documents *)

Definition entries_of (ns : option string) (its : list item) : list xnode :=
  flat_map (fun i => match i with Row _ _ row => of_name ns "entry" (x_children row) | Column _ => [] end) its.
Definition has_nested (ns : option string) (e : xnode) : Prop := exists n, In n (x_children e) /\ nests ns n.

(** When the nested tables are ignored, the spots are [g] just after the placement of [e]. *)
Definition reaches (ns : option string) (table e : xnode) (g : list spot) : Prop :=
  exists its1 na sec row its2 es1 es2 l n,
    items ns table = its1 ++ Row na sec row :: its2 /\
    lays ns false its1 (MkLayout 0 0 0 [] (fun _ _ => None)) l /\
    of_name ns "entry" (x_children row) = es1 ++ e :: es2 /\
    placed ns false (l_row l + 1) (Some na) 0 (es1 ++ [e]) (l_cols l) (l_spots l) n g.
Definition no_hole (g : list cell) : Prop := forall bb k, bounds g bb -> covers bb k -> ~ free g k.

(** The entries of a row name the columns from [j] on, one after the other; an entry without name
    takes one column. *)
Inductive in_turn (ns : option string) : Z -> list xnode -> Prop :=
| it_nil j : in_turn ns j []
| it_named j e es s s' b :
    attribute ns e "namest" = Some s -> first_number s j ->
    attribute ns e "nameend" = Some s' -> first_number s' b -> j <= b ->
    in_turn ns (b + 1) es -> in_turn ns j (e :: es)
| it_plain j e es : attribute ns e "namest" = None -> attribute ns e "nameend" = None ->
    in_turn ns (j + 1) es -> in_turn ns j (e :: es).

(** The same tree without what the entries contain *)
Fixpoint emptied (ns : option string) (n : xnode) : xnode :=
  match n with
  | XElem tag attrs text children tail =>
      if String.eqb tag (expanded ns "entry") then XElem tag attrs None [] tail
      else XElem tag attrs text (map (emptied ns) children) tail
  | _ => n
  end.

(** [n] is an element of the table [root], whose parent is [p], but not of a nested table. *)
Inductive within (ns : option string) : xnode -> xnode -> xnode -> Prop :=
| within_child root n : In n (x_children root) -> within ns root root n
| within_deeper root c p n : In c (x_children root) -> ~ named ns "table" c -> within ns c p n -> within ns root p n.
