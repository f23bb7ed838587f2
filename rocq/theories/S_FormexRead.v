(** * Specification vocabulary for the reading of Formex tables *)
From Verif Require Import Base M_Geometry M_Xml M_Cell M_Grid M_Table S_Geometry S_Grid S_Table S_Cals S_Int S_CalsParser.
Open Scope string_scope.
Open Scope list_scope.
Open Scope Z_scope.

(** ** The elements of a table *)

Definition fmx_names : list string := ["CORPUS"; "ROW"; "CELL"; "MARGIN"; "BLK"; "TI.BLK"; "STI.BLK"].
(** [ns] is the name space of Formex, [cns] the one of the CALS-like elements and attributes. *)
Definition table_element (ns cns : option string) (n : xnode) : Prop :=
  (exists name, In name fmx_names /\ named ns name n) \/ named cns "colspec" n.
Definition is_title (ns : option string) (n : xnode) : Prop := named ns "TI.BLK" n \/ named ns "STI.BLK" n.

(** There is no element of a table in the node; there is a CORPUS in it; the elements of tables in it are
    CORPUS and what they contain, and no CORPUS has notes. *)
Inductive stranger (ns cns : option string) : xnode -> Prop :=
| stranger_node n : ~ table_element ns cns n -> (forall c, In c (x_children n) -> stranger ns cns c) -> stranger ns cns n.
Inductive holds_corpus (ns : option string) : xnode -> Prop :=
| holds_here n : named ns "CORPUS" n -> holds_corpus ns n
| holds_below n c : In c (x_children n) -> holds_corpus ns c -> holds_corpus ns n.
Definition without_notes (ns : option string) (n : xnode) : Prop :=
  forall c d, In c (x_children n) -> named ns "CORPUS" c -> In d (x_children n) -> ~ named ns "GR.NOTES" d.
Inductive filling (ns cns : option string) : xnode -> Prop :=
| filling_corpus n : named ns "CORPUS" n -> filling ns cns n
| filling_other n : ~ table_element ns cns n -> without_notes ns n ->
    (forall c, In c (x_children n) -> filling ns cns c) -> filling ns cns n.
Definition fills (ns cns : option string) (n : xnode) : Prop :=
  without_notes ns n /\ forall c, In c (x_children n) -> filling ns cns c.

(** A CORPUS (or a BLK) is made of colspecs, rows, titles and BLK; a row is made of cells.  Other elements
    may stand anywhere; a cell may contain tables without notes. *)
Definition proper_colspec (cns : option string) (c : xnode) : Prop :=
  forall s m, attribute cns c "colnum" = Some s -> int_text s m -> 1 <= m.
Definition proper_row (ns cns : option string) (row : xnode) : Prop :=
  forall e, In e (x_children row) -> stranger ns cns e \/ (named ns "CELL" e /\ fills ns cns e).
Inductive proper_part (ns cns : option string) : xnode -> Prop :=
| pp_other n : stranger ns cns n -> proper_part ns cns n
| pp_colspec c : named cns "colspec" c -> (forall n, In n (x_children c) -> stranger ns cns n) ->
    proper_colspec cns c -> proper_part ns cns c
| pp_row r : named ns "ROW" r -> proper_row ns cns r -> proper_part ns cns r
| pp_title e : is_title ns e -> fills ns cns e -> proper_part ns cns e
| pp_blk b : named ns "BLK" b -> (forall c, In c (x_children b) -> proper_part ns cns c) -> proper_part ns cns b.
Definition proper_corpus (ns cns : option string) (corpus : xnode) : Prop :=
  named ns "CORPUS" corpus /\ forall c, In c (x_children corpus) -> proper_part ns cns c.

(** The columns and rows in the order of the document; a line is a ROW, a TI.BLK or a STI.BLK in [blks] BLK;
    the notes come last. *)
Inductive fitem : Type := FColumn (c : xnode) | FLine (blks : Z) (e : xnode) | FNotes (e : xnode).
Fixpoint fparts (ns cns : option string) (blks : Z) (n : xnode) : list fitem :=
  if has_name cns "colspec" n then [FColumn n]
  else if (has_name ns "ROW" n || has_name ns "TI.BLK" n || has_name ns "STI.BLK" n)%bool then [FLine blks n]
  else if has_name ns "BLK" n then
    match n with XElem _ _ _ children _ => flat_map (fparts ns cns (blks + 1)) children | _ => [] end
  else [].
Definition fitems (ns cns : option string) (blks : Z) (before : list xnode) (corpus : xnode) : list fitem :=
  flat_map (fparts ns cns blks) (x_children corpus) ++ map FNotes (of_name ns "GR.NOTES" before).

(** ** Styles *)

Definition look : Type := string -> option sval.
Definition no_look : look := fun _ => None.
Definition styled (st : styles) (lk : look) : Prop := forall k, dget st k = lk k.
Definition text_look (v : option string) : option sval := option_map SStr v.

Definition given (cns : option string) (e : xnode) (k : string) : option string :=
  let a := attribute cns e in
  if String.eqb k "vertical-align" then valign_of (a "valign")
  else if String.eqb k "border-bottom" then separator_line (a "rowsep")
  else if String.eqb k "background-color" then not_empty (a "bgcolor")
  else if String.eqb k "rowstyle" then not_empty (a "rowstyle")
  else None.
(** The name of a row, with its TYPE and the number of BLK it is in *)
Definition row_label (type : option string) (blks : Z) : option string :=
  match not_empty type, blks =? 0 with
  | None, true => None
  | Some t, true => Some (String.append "ROW-" t)
  | None, false => Some (String.append "ROW-level" (py_str_int blks))
  | Some t, false => Some (String.append "ROW-" (String.append t (String.append "-level" (py_str_int blks))))
  end.
Definition line_label (ns : option string) (blks : Z) (e : xnode) : option string :=
  if has_name ns "ROW" e then row_label (attribute ns e "TYPE") blks
  else if has_name ns "TI.BLK" e then Some (String.append "TI.BLK-level" (py_str_int blks))
  else Some (String.append "STI.BLK-level" (py_str_int blks)).
Definition line_look (ns cns : option string) (blks : Z) (e : xnode) : look := fun k =>
  text_look (if String.eqb k "rowstyle" then or_else (given cns e k) (line_label ns blks e) else given cns e k).

(** ALIAS and HEADER are headers; the other types are the body. *)
Definition nature_of_type (type : option string) : option string :=
  match type with
  | Some t => if existsb (String.eqb t) ["ALIAS"; "HEADER"] then Some "header"
              else if existsb (String.eqb t) ["NORMAL"; "NOTCOL"; "TOTAL"] then Some "body" else None
  | None => None
  end.
Definition line_nature (ns : option string) (e : xnode) : string :=
  if has_name ns "ROW" e then
    match nature_of_type (attribute ns e "TYPE") with Some n => n | None => "body" end
  else "body".

(** The type of a cell is kept when it is not the one of the row (NORMAL by default). *)
Definition type_or_normal (type : option string) : string :=
  match not_empty type with Some t => t | None => "NORMAL" end.
Definition fcell_style (ns cns : option string) (row e : xnode) : look := fun k =>
  let a := attribute cns e in
  if String.eqb k "cellstyle" then
    if String.eqb (type_or_normal (attribute ns e "TYPE")) (type_or_normal (attribute ns row "TYPE")) then None
    else Some (match attribute ns e "TYPE" with Some t => SStr t | None => SNone end)
  else text_look
    (if String.eqb k "x-cell-border-right" then separator_line (a "colsep")
     else if String.eqb k "x-cell-border-bottom" then separator_line (a "rowsep")
     else if String.eqb k "background-color" then not_empty (a "bgcolor")
     else if String.eqb k "vertical-align" then valign_of (a "valign")
     else if String.eqb k "align" then align_of (a "align")
     else None).

(** ** Spans and contents *)

Definition number_or_one (v : option string) (n : Z) : Prop :=
  match v with Some s => int_text s n | None => n = 1 end.
(** The spans are those of COLSPAN and ROWSPAN, unless there are CALS-like ones. *)
Definition fcell_span (ns cns : option string) (e : xnode) (w h : Z) : Prop :=
  exists w0 h0,
    number_or_one (attribute ns e "COLSPAN") w0 /\ number_or_one (attribute ns e "ROWSPAN") h0 /\
    match not_empty (attribute cns e "namest"), not_empty (attribute cns e "nameend") with
    | Some s, Some s' => exists a b, first_number s a /\ first_number s' b /\ w = b - a + 1
    | _, _ => w = w0
    end /\
    match not_empty (attribute cns e "morerows") with
    | Some s => int_text s (h - 1)
    | None => h = h0
    end.
(** The content of an element: nothing if it is marked empty by an IE *)
Definition fcontent_of (ns : option string) (e : xnode) : content :=
  if existsb (has_name ns "IE") (x_children e) then CText "" else content_of e.

(** ** The layout *)

(** What is laid out: the styles and the cell (without styles) *)
Definition tile : Type := look * cell.
Definition covered (bb : box) (na : nature) (g g' : list tile) : Prop :=
  exists ks, selects (free (map snd g)) (area bb) ks /\
    g' = map (fun k => (no_look, bare CNone na (MkBox k k))) ks ++ g.

(** What is asked for: a cell, and the element it comes from if any *)
Record request := Ask { q_elem : option xnode; q_content : content; q_nature : nature; q_look : look; q_width : Z; q_height : Z }.
Inductive cell_request (ns cns : option string) (row e : xnode) : request -> Prop :=
| cell_asks w h : fcell_span ns cns e w h ->
    cell_request ns cns row e
      (Ask (Some e) (fcontent_of ns e)
         (Some (match nature_of_type (attribute ns e "TYPE") with Some n => n | None => line_nature ns row end))
         (fcell_style ns cns row e) w h).
(** A title is in the columns COL.START to COL.END; cells without content come before. *)
Inductive asks (ns cns : option string) (e : xnode) : list request -> Prop :=
| asks_cells qs : named ns "ROW" e -> Forall2 (cell_request ns cns e) (of_name ns "CELL" (x_children e)) qs -> asks ns cns e qs
| asks_title a b : is_title ns e ->
    number_or_one (attribute ns e "COL.START") a -> number_or_one (attribute ns e "COL.END") b ->
    asks ns cns e (repeat (Ask None CNone (Some "body") no_look 1 1) (Z.to_nat (a - 1)) ++
                   [Ask (Some e) (fcontent_of ns e) (Some "body") no_look (b - a + 1) 1]).

(** Defect of the parser, as for CALS: at the end of a nested CORPUS the holes of the table made so far are
    filled ([watch = true]). *)
Inductive settles (ns : option string) (watch : bool) (e : option xnode) (g : list tile) : list tile -> Prop :=
| settles_nested e0 n bb g' : watch = true -> e = Some e0 -> In n (x_children e0) -> holds_corpus ns n ->
    bounds (map snd g) bb -> covered bb None g g' -> settles ns watch e g g'
| settles_plain : ~ (watch = true /\ exists e0 n, e = Some e0 /\ In n (x_children e0) /\ holds_corpus ns n) -> settles ns watch e g g.

(** The cells of row [r], each one at the first free column.  [n] is the number of columns. *)
Inductive seated (ns : option string) (watch : bool) (r : Z) : list request -> Z -> list tile -> Z -> list tile -> Prop :=
| seated_nil n g : seated ns watch r [] n g n g
| seated_cons q qs n g i g1 n2 g2 :
    1 <= q_width q -> 1 <= q_height q ->
    first_free Rows r i (map snd g) ->
    (forall d, In d (map snd g) -> ~ clash (c_box d) (seat Rows r i (q_width q) (q_height q))) ->
    settles ns watch (q_elem q) ((q_look q, bare (q_content q) (q_nature q) (seat Rows r i (q_width q) (q_height q))) :: g) g1 ->
    seated ns watch r qs (Z.max n (i + q_width q - 1)) g1 n2 g2 ->
    seated ns watch r (q :: qs) n g n2 g2.

(** The state of a layout: the last row, the last column counted, the number of columns, the tiles and the
    styles of the columns *)
Definition collooks : Type := Z -> look.
Record flayout := MkFLayout { f_row : Z; f_count : Z; f_cols : Z; f_tiles : list tile; f_looks : collooks }.
Definition looks_with (cns : option string) (m : Z) (c : xnode) (cs : collooks) : collooks :=
  fun j k => if j =? m then match column_style cns c k with Some s => Some (SStr s) | None => cs j k end else cs j k.
(** The notes are in a cell as wide as the table.  With [embed] the cell contains the element GR.NOTES. *)
Definition notes_request (ns cns : option string) (embed : bool) (e : xnode) (w : Z) : request :=
  Ask None (if embed then CList [CNode e] else fcontent_of ns e) (Some "footer")
    (fun k => text_look (given cns e k)) w 1.
Inductive flays (ns cns : option string) (embed watch : bool) : list fitem -> flayout -> flayout -> Prop :=
| flays_nil l : flays ns cns embed watch [] l l
| flays_column c its r k n g cs m l' :
    column_number cns c k m ->
    flays ns cns embed watch its (MkFLayout r (k + 1) (Z.max n m) g (looks_with cns m c cs)) l' ->
    flays ns cns embed watch (FColumn c :: its) (MkFLayout r k n g cs) l'
| flays_line blks e its r k n g cs qs n1 g1 g2 l' :
    asks ns cns e qs -> seated ns watch (r + 1) qs n g n1 g1 -> 1 <= n1 ->
    covered (MkBox (Coord 1 (r + 1)) (Coord n1 (r + 1))) (Some (line_nature ns e)) g1 g2 ->
    flays ns cns embed watch its
      (MkFLayout (r + 1) (Z.of_nat (List.length (of_name ns "CELL" (x_children e)))) n1 g2 cs) l' ->
    flays ns cns embed watch (FLine blks e :: its) (MkFLayout r k n g cs) l'
| flays_notes e its r k n g cs bb n1 g1 l' :
    bounds (map snd g) bb ->
    seated ns watch (r + 1) [notes_request ns cns embed e (cx (bmax bb) - cx (bmin bb) + 1)] n g n1 g1 ->
    flays ns cns embed watch its (MkFLayout (r + 1) 0 n1 g1 cs) l' ->
    flays ns cns embed watch (FNotes e :: its) (MkFLayout r k n g cs) l'.
Definition no_layout : flayout := MkFLayout 0 0 0 [] (fun _ => no_look).
Definition flaid_out (ns cns : option string) (embed watch : bool) (blks : Z) (before : list xnode) (corpus : xnode)
    (l : flayout) (g : list tile) : Prop :=
  flays ns cns embed watch (fitems ns cns blks before corpus) no_layout l /\
  exists bb, bounds (map snd (f_tiles l)) bb /\ covered bb None (f_tiles l) g.

(** The cells are those of the tiles. *)
Definition displays (c : cell) (s : tile) : Prop :=
  c_content c = c_content (snd s) /\ c_nature c = c_nature (snd s) /\ c_box c = c_box (snd s) /\ styled (c_styles c) (fst s).
Definition mosaic (cells : list cell) (g : list tile) : Prop :=
  exists l, Permutation l cells /\ Forall2 displays l g.

(** ** Attributes of rows, columns and table *)

Definition frow_items (ns cns : option string) (l : list fitem) : list (string * look) :=
  flat_map (fun i => match i with
                     | FColumn _ => []
                     | FLine blks e => [(line_nature ns e, line_look ns cns blks e)]
                     | FNotes _ => [("footer", no_look)]
                     end) l.
Definition row_described (rows : list (string * look)) (r : Z) (v : view) : Prop :=
  match nth_error rows (Z.to_nat (r - 1)) with
  | Some (na, lk) => v_nature v = Some na /\ styled (v_styles v) lk
  | None => v_nature v = None /\ v_styles v = []
  end.
Definition column_described (cs : collooks) (j : Z) (v : view) : Prop := v_nature v = None /\ styled (v_styles v) (cs j).

Definition page_orient (v : option string) : option string :=
  renamed [("DOUBLE.LANDSCAPE", "landscape"); ("DOUBLE.PORTRAIT", "portrait");
           ("SINGLE.LANDSCAPE", "landscape"); ("SINGLE.PORTRAIT", "portrait")] v.
Definition parent_attribute (ns : option string) (tbl : option xnode) (name : string) : option string :=
  match tbl with Some tbl => attribute ns tbl name | None => None end.
Definition ftable_style (ns cns : option string) (tbl : option xnode) (e : xnode) (k : string) : option string :=
  let a := attribute cns e in
  if String.eqb k "x-cell-border-right" then separator_line (a "colsep")
  else if String.eqb k "x-cell-border-bottom" then separator_line (a "rowsep")
  else if String.eqb k "x-sect-orient" then
    or_else (renamed [("land", "landscape"); ("port", "portrait")] (a "orient")) (page_orient (parent_attribute ns tbl "PAGE.SIZE"))
  else if String.eqb k "x-sect-cols" then renamed [("0", "2"); ("1", "1")] (a "pgwide")
  else if String.eqb k "background-color" then not_empty (a "bgcolor")
  else None.
Definition ftable_nature (ns cns : option string) (tbl : option xnode) (e : xnode) : nature :=
  match not_empty (attribute cns e "tabstyle") with
  | None => parent_attribute ns tbl "CLASS"
  | Some s => match not_empty (parent_attribute ns tbl "CLASS") with
              | None => Some s
              | Some c => Some (String.append c (String.append "-" s))
              end
  end.
Definition ftable_attributes (ns cns : option string) (tbl : option xnode) (e : xnode) (t : table) : Prop :=
  (forall s, table_frame cns e s (dget (t_styles t) (side_style s))) /\
  (forall k, ~ In k ["border-top"; "border-bottom"; "border-left"; "border-right"] ->
     dget (t_styles t) k = text_look (ftable_style ns cns tbl e k)) /\
  t_nature t = ftable_nature ns cns tbl e.
Definition frame_known (cns : option string) (e : xnode) : Prop :=
  forall f, not_empty (attribute cns e "frame") = Some f -> In f six_frames.

(** ** Notes and nested tables *)

(** The notes below a table of [w] columns, from row [r] *)
Fixpoint note_tiles (ns cns : option string) (em : bool) (w r : Z) (l : list xnode) : list tile :=
  match l with
  | [] => []
  | e :: l => (fun k => text_look (given cns e k), bare (if em then CList [CNode e] else fcontent_of ns e) (Some "footer") (MkBox (Coord 1 r) (Coord w r)))
              :: note_tiles ns cns em w (r + 1) l
  end.

(** No cell of the line contains a table. *)
Definition no_nested (ns : option string) (e : xnode) : Prop :=
  forall c, In c (of_name ns "CELL" (x_children e)) \/ c = e /\ is_title ns e -> forall n, In n (x_children c) -> ~ holds_corpus ns n.

(** An element which contains a table *)
Definition has_corpus (ns : option string) (e : xnode) : Prop := exists n, In n (x_children e) /\ holds_corpus ns n.
(** When the nested tables are ignored, the tiles are [g] just after the placement of the cell (or title) [e]. *)
Definition freaches (ns cns : option string) (embed : bool) (blks : Z) (before : list xnode) (corpus e : xnode) (g : list tile) : Prop :=
  exists its1 b line its2 l qs1 q qs2 n,
    fitems ns cns blks before corpus = its1 ++ FLine b line :: its2 /\
    flays ns cns embed false its1 no_layout l /\
    asks ns cns line (qs1 ++ q :: qs2) /\ q_elem q = Some e /\
    seated ns false (f_row l + 1) (qs1 ++ [q]) (f_cols l) (f_tiles l) n g.
