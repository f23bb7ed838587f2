(** * Model of benker/parsers/formex.py: the reading of the tables

    Simplifications: the contents of the cells are the nodes as they were when the cell was read (the
    GR.NOTES of a table nested in a cell, which are removed from the document by the parser, are still in
    the content of this cell); the row kept by the parser ([state.row]) is known by its position, as in
    M_CalsParser.v; a name space is absent or not empty. *)
From Coq Require Import QArith.
From Verif Require Import Base M_Geometry M_Xml M_Cell M_Grid M_Table M_Regex M_Str M_Units M_Cals M_CalsParser M_FormexParser.
Open Scope Z_scope.
Open Scope string_scope.

(** formex.py:61-83: the options of the parser *)
Record pfmx_opts := MkPFmxOpts {
  pf_ns : option string;
  pf_cals_ns : option string;
  pf_embed : bool
}.

(** An event of [iterwalk] (as in M_CalsParser.v), with what [getparent()], the axis [ancestor] (the
    number of BLK) and the axis [preceding-sibling] give for its element *)
Record fevent := MkFEvent {
  fe_start : bool;
  fe_elem : xnode;
  fe_parent : option xnode;
  fe_blks : Z;
  fe_before : list xnode
}.

(** [if v in ("0", "1"): styles\[k\] = ...] and the other tables of formex.py *)
Definition PAGE_SIZES : dict string :=
  [("DOUBLE.LANDSCAPE", "landscape"); ("DOUBLE.PORTRAIT", "portrait");
   ("SINGLE.LANDSCAPE", "landscape"); ("SINGLE.PORTRAIT", "portrait")].
Definition FMX_NATURES : dict string :=
  [("ALIAS", "header"); ("HEADER", "header"); ("NORMAL", "body"); ("NOTCOL", "body"); ("TOTAL", "body")].
(** [d.get(v)]; [v] may be None *)
Definition dict_get (d : dict string) (v : option string) : option string :=
  match v with Some v => dget d v | None => None end.
(** [int(elem.attrib.get(name, "1"))] *)
Definition int_or_one (v : option string) : result Z := py_int (match v with Some s => s | None => "1" end).

Section Read.
  Variable o : pfmx_opts.
  (** formex.py:88-92 get_formex_qname, get_cals_qname *)
  Definition fmx (name : string) : string := qname (pf_ns o) name.
  Definition fcals (name : string) : string := qname (pf_cals_ns o) name.
  Definition fget (e : xnode) (name : string) : option string := x_get e (fmx name).
  Definition cget (e : xnode) (name : string) : option string := x_get e (fcals name).

  (** formex.py:134-135: [iterwalk] on the element; [blks] is the number of BLK above the element *)
  Definition fmx_elements : list string :=
    (map fmx ["CORPUS"; "ROW"; "CELL"; "MARGIN"; "BLK"; "TI.BLK"; "STI.BLK"] ++ [fcals "colspec"])%list.
  Fixpoint fwalk (parent : option xnode) (blks : Z) (before : list xnode) (n : xnode) {struct n} : list fevent :=
    let inner :=
      match n with
      | XElem _ _ _ children _ =>
          (fix go (seen l : list xnode) {struct l} : list fevent :=
             match l with
             | [] => []
             | c :: l' => (fwalk (Some n) (if x_has_tag n (fmx "BLK") then blks + 1 else blks) seen c ++ go (seen ++ [c]) l')%list
             end) [] children
      | _ => []
      end in
    if matching fmx_elements n
    then (MkFEvent true n parent blks before :: inner ++ [MkFEvent false n parent blks before])%list
    else inner.

  (** formex.py:261-295 parse_tbl_styles *)
  Definition parse_tbl_styles (tbl : option xnode) : styles * nature :=
    match tbl with
    | None => ([], None)
    | Some tbl => (map_style PAGE_SIZES (fget tbl "PAGE.SIZE") "x-sect-orient" [], fget tbl "CLASS")
    end.

  (** formex.py:213-259 parse_fmx_corpus: the styles and the nature *)
  Definition corpus_style_attrs (e : xnode) (parent : option xnode) : result (styles * nature) :=
    let (st, na) := parse_tbl_styles parent in
    frame <-? get_frame_styles (cget e "frame") ;;
    let st := dupdate st frame in
    let st := map_style SEPS (cget e "colsep") "x-cell-border-right" st in
    let st := map_style SEPS (cget e "rowsep") "x-cell-border-bottom" st in
    let st := map_style [("land", "landscape"); ("port", "portrait")] (cget e "orient") "x-sect-orient" st in
    let st := map_style [("0", "2"); ("1", "1")] (cget e "pgwide") "x-sect-cols" st in
    let st := text_style (cget e "bgcolor") "background-color" st in
    let na := if truthy (cget e "tabstyle")
              then (if truthy na then Some (ostr na ++ "-" ++ ostr (cget e "tabstyle")) else cget e "tabstyle")
              else na in
    Ok (st, na).
  (** formex.py:213-259 parse_fmx_corpus, 208-211 setup_table *)
  Definition parse_fmx_corpus (e : xnode) (parent : option xnode) : SM pstate unit :=
    sn <- slift (corpus_style_attrs e parent) ;;
    t <- slift (table_new [] (Some (fst sn)) (snd sn)) ;;
    smodify (with_table (Some t)).

  (** formex.py:332-370 parse_cals_row_styles *)
  Definition cals_row_styles (e : xnode) : styles :=
    let st := map_style VALIGNS (cget e "valign") "vertical-align" [] in
    let st := map_style SEPS (cget e "rowsep") "border-bottom" st in
    let st := text_style (cget e "bgcolor") "background-color" st in
    text_style (cget e "rowstyle") "rowstyle" st.

  (** The row becomes [state.table.rows\[state.row_pos\]], with a nature and styles *)
  Definition enter_row (na : nature) : SM pstate unit :=
    s <- sget ;;
    on_table (unit_of (view_get Rows (ps_row_pos s))) ;;;
    smodify (with_row (Some (ps_row_pos s))) ;;;
    on_table (view_set_nature Rows (ps_row_pos s) na).
  Definition style_row (st : styles) : SM pstate unit :=
    s <- sget ;;
    on_table (view_set_styles Rows (ps_row_pos s) (Some st)).

  (** formex.py:297-330 parse_fmx_row *)
  Definition fmx_row_nature (e : xnode) : string :=
    match dict_get FMX_NATURES (fget e "TYPE") with Some n => n | None => "body" end.
  Definition fmx_row_styles (e : xnode) (blks : Z) : styles :=
    let st := match fmx_row_style (fget e "TYPE") blks with Some s => [("rowstyle", SStr s)] | None => [] end in
    dupdate st (cals_row_styles e).
  Definition parse_fmx_row (e : xnode) (blks : Z) : SM pstate unit :=
    enter_row (Some (fmx_row_nature e)) ;;; style_row (fmx_row_styles e blks).

  (** formex.py:506-510 contains_ie; 524-528, 594-600: the content of an element *)
  Definition contains_ie (e : xnode) : bool := existsb (fun c => x_has_tag c (fmx "IE")) (x_children e).
  Definition fmx_content (e : xnode) : content :=
    if contains_ie e then CText "" else CList (entry_content e).

  (** [state.row.insert_cell(...)]; [state.row] may be None *)
  Definition insert_in_row (ct : content) (st : option styles) (na : nature -> nature) (w h : Z) : SM pstate unit :=
    s <- sget ;;
    match ps_row s with
    | None => sraise EAttributeError
    | Some r => on_table (v <- view_get Rows r ;; insert_cell Rows r ct st (na (v_nature v)) w h)
    end.

  (** formex.py:480-504 _insert_blk_title_row *)
  Definition insert_title (e : xnode) (st : styles) : SM pstate unit :=
    enter_row (Some "body") ;;;
    style_row st ;;;
    col_start <- slift (int_or_one (fget e "COL.START")) ;;
    col_end <- slift (int_or_one (fget e "COL.END")) ;;
    siter (fun _ => insert_in_row CNone None (fun na => na) 1 1) (zrange 1 col_start) ;;;
    insert_in_row (fmx_content e) None (fun na => na) (col_end - col_start + 1) 1.
  (** formex.py:372-397 parse_fmx_ti_blk, 399-424 parse_fmx_sti_blk *)
  Definition title_styles (tag : string) (e : xnode) (blks : Z) : styles :=
    dupdate [("rowstyle", SStr (fmx_title_style tag blks))] (cals_row_styles e).
  Definition parse_fmx_title (tag : string) (e : xnode) (blks : Z) : SM pstate unit :=
    insert_title e (title_styles tag e blks).

  (** formex.py:426-471 parse_gr_notes *)
  Definition notes_content (e : xnode) : content :=
    if pf_embed o then CList [CNode e] else fmx_content e.
  Definition parse_gr_notes (e : xnode) : SM pstate unit :=
    enter_row (Some "footer") ;;;
    bb <- on_table (t <- sget ;; slift (table_bounding_box t)) ;;
    match bb with
    | None => sraise EAttributeError
    | Some bb => insert_in_row (notes_content e) (Some (cals_row_styles e)) (fun na => na) (box_width bb) 1
    end.

  (** formex.py:512-605 parse_fmx_cell: the styles, the spans *)
  Definition fcell_type_differs (cell_type row_type : option string) : bool :=
    negb (String.eqb (if truthy cell_type then ostr cell_type else "NORMAL")
            (if truthy row_type then ostr row_type else "NORMAL")).
  Definition fmx_cell_styles (e : xnode) (parent : option xnode) : styles :=
    let cell_type := fget e "TYPE" in
    let row_type := match parent with None => None | Some p => fget p "TYPE" end in
    let st := if fcell_type_differs cell_type row_type
              then [("cellstyle", match cell_type with Some s => SStr s | None => SNone end)] else [] in
    let st := map_style SEPS (cget e "colsep") "x-cell-border-right" st in
    let st := map_style SEPS (cget e "rowsep") "x-cell-border-bottom" st in
    let st := text_style (cget e "bgcolor") "background-color" st in
    let st := map_style VALIGNS (cget e "valign") "vertical-align" st in
    map_style PALIGNS (cget e "align") "align" st.
  Definition fmx_cell_spans (e : xnode) : result (Z * Z) :=
    width <-? int_or_one (fget e "COLSPAN") ;;
    height <-? int_or_one (fget e "ROWSPAN") ;;
    width <-? (if truthy (cget e "namest") && truthy (cget e "nameend") then
                 col_start <-? first_int (ostr (cget e "namest")) ;;
                 col_end <-? first_int (ostr (cget e "nameend")) ;;
                 Ok (col_end - col_start + 1)%Z
               else Ok width) ;;
    height <-? (if truthy (cget e "morerows") then more <-? py_int (ostr (cget e "morerows")) ;; Ok (more + 1)%Z
                else Ok height) ;;
    Ok (width, height).
  Definition fmx_cell_nature (e : xnode) (row_nature : nature) : nature :=
    match dict_get FMX_NATURES (fget e "TYPE") with Some n => Some n | None => row_nature end.
  Definition parse_fmx_cell (e : xnode) (parent : option xnode) : SM pstate unit :=
    wh <- slift (fmx_cell_spans e) ;;
    insert_in_row (fmx_content e) (Some (fmx_cell_styles e parent)) (fmx_cell_nature e) (fst wh) (snd wh).

  (** formex.py:607-664 parse_fmx_colspec *)
  Definition fmx_colspec_styles (e : xnode) : styles :=
    let st := map_style SEPS (cget e "colsep") "border-right" [] in
    let st := map_style SEPS (cget e "rowsep") "border-bottom" st in
    let st := text_style (cget e "colwidth") "width" st in
    map_style PALIGNS (cget e "align") "align" st.
  Definition parse_fmx_colspec (e : xnode) : SM pstate unit :=
    s <- sget ;;
    colnum <- slift (if truthy (cget e "colnum") then py_int (ostr (cget e "colnum")) else Ok (ps_col s)) ;;
    on_table (view_update_styles Cols colnum (fmx_colspec_styles e)).

  (** formex.py:191-204: the end of a CORPUS (also of a nested one): the notes which come before it *)
  Definition end_corpus (before : list xnode) : SM pstate unit :=
    siter (fun notes => smodify next_row ;;; parse_gr_notes notes)
      (filter (fun n => x_has_tag n (fmx "GR.NOTES")) before) ;;;
    end_table.

  (** formex.py:151-204: the body of the loop *)
  Definition fon_start (ev : fevent) : SM pstate unit :=
    let e := fe_elem ev in
    let tag := ostr (x_tag e) in
    if String.eqb tag (fmx "CELL") then smodify next_col ;;; parse_fmx_cell e (fe_parent ev)
    else if String.eqb tag (fmx "ROW") then smodify next_row ;;; parse_fmx_row e (fe_blks ev)
    else if String.eqb tag (fmx "BLK") then sret tt
    else if String.eqb tag (fmx "TI.BLK") then smodify next_row ;;; parse_fmx_title "TI.BLK" e (fe_blks ev)
    else if String.eqb tag (fmx "STI.BLK") then smodify next_row ;;; parse_fmx_title "STI.BLK" e (fe_blks ev)
    else if String.eqb tag (fcals "colspec") then smodify next_col ;;; parse_fmx_colspec e
    else if String.eqb tag (fmx "CORPUS") then parse_fmx_corpus e (fe_parent ev)
    else sraise ENotImplementedError.
  Definition fon_end (ev : fevent) : SM pstate unit :=
    let tag := ostr (x_tag (fe_elem ev)) in
    if str_mem tag (map fmx ["ROW"; "TI.BLK"; "STI.BLK"]) then end_row
    else if String.eqb tag (fmx "CORPUS") then end_corpus (fe_before ev)
    else sret tt.
  Definition fnew_depth (ev : fevent) (d : Z) : Z :=
    if String.eqb (ostr (x_tag (fe_elem ev))) (fmx "CORPUS") then (if fe_start ev then d + 1 else d - 1)%Z else d.
  Definition fparse_event (ev : fevent) : SM pstate unit :=
    smodify (fun s => with_depth (fnew_depth ev (ps_depth s)) s) ;;;
    s <- sget ;;
    if (1 <? ps_depth s)%Z then sret tt
    else if fe_start ev then fon_start ev
    else fon_end ev.

  (** formex.py:109-206 parse_table; [parent], [blks] and [before]: the parent of the CORPUS, the number
      of BLK above it and the siblings which come before it *)
  Definition parse_formex (parent : option xnode) (blks : Z) (before : list xnode) (corpus : xnode) : result table :=
    let (s, r) := siter fparse_event (fwalk parent blks before corpus) pstate_reset in
    _ <-? r ;;
    match ps_table s with Some t => Ok t | None => Err EAttributeError end.
End Read.
