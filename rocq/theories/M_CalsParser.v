(** * Model of benker/parsers/cals/__init__.py

    The numbers with two decimals are left open, as in M_Cals.v ([pc_fmt]).  The row kept by the parser
    ([state.row]) is known by its position: the parser never drops a view. *)
From Coq Require Import QArith.
From Verif Require Import Base M_Geometry M_Xml M_Cell M_Grid M_Table M_Regex M_Str M_Units M_Cals.
Open Scope Z_scope.
Open Scope string_scope.

(** Options of the parser: namespace, unit of widths, formatting of numbers *)
Record pcals_opts := MkPCalsOpts {
  pc_ns : option string;
  pc_unit : string;
  pc_fmt : Q -> string
}.

(** common/lxml_iterwalk.py and [etree.iterwalk], with the events "start" and "end", for the elements
    whose tag is in [tags].  An event has the parent of the element ([getparent()]). *)
Record event := MkEvent { ev_start : bool; ev_elem : xnode; ev_parent : option xnode }.
Definition matching (tags : list string) (n : xnode) : bool :=
  match x_tag n with Some t => str_mem t tags | None => false end.
Fixpoint walk (tags : list string) (parent : option xnode) (n : xnode) {struct n} : list event :=
  let inner := match n with
               | XElem _ _ _ children _ => flat_map (walk tags (Some n)) children
               | _ => []
               end in
  if matching tags n then MkEvent true n parent :: inner ++ [MkEvent false n parent] else inner.

(** base_parser.py:17-45 BaseParser._State, and the variable [depth] of parse_table.  [state.col] is
    never read. *)
Record pstate := MkPState {
  ps_depth : Z;
  ps_col : Z;
  ps_row_pos : Z;
  ps_row : option Z;
  ps_table : option table
}.
Definition pstate_reset : pstate := MkPState 0 0 0 None None.
Definition next_col (s : pstate) : pstate :=
  MkPState (ps_depth s) (ps_col s + 1) (ps_row_pos s) (ps_row s) (ps_table s).
Definition next_row (s : pstate) : pstate :=
  MkPState (ps_depth s) 0 (ps_row_pos s + 1) None (ps_table s).
Definition with_depth (d : Z) (s : pstate) : pstate :=
  MkPState d (ps_col s) (ps_row_pos s) (ps_row s) (ps_table s).
Definition with_row (r : option Z) (s : pstate) : pstate :=
  MkPState (ps_depth s) (ps_col s) (ps_row_pos s) r (ps_table s).
Definition with_table (t : option table) (s : pstate) : pstate :=
  MkPState (ps_depth s) (ps_col s) (ps_row_pos s) (ps_row s) t.
Definition smodify {S} (f : S -> S) : SM S unit := s <- sget ;; sput (f s).

(** A method of [state.table], which may be None *)
Definition on_table {A} (m : SM table A) : SM pstate A :=
  fun s => match ps_table s with
           | None => (s, Err EAttributeError)
           | Some t => let (t', r) := m t in (with_table (Some t') s, r)
           end.

(** [if v in d: styles\[k\] = d\[v\]] *)
Definition map_style (d : dict string) (v : option string) (k : string) (st : styles) : styles :=
  match v with
  | Some v => match dget d v with Some w => dset st k (SStr w) | None => st end
  | None => st
  end.
(** [if v: styles\[k\] = v] *)
Definition text_style (v : option string) (k : string) (st : styles) : styles :=
  if truthy v then dset st k (SStr (ostr v)) else st.

Definition SEPS : dict string := [("0", BORDER_NONE); ("1", BORDER_SOLID)].
Definition VALIGNS : dict string := [("top", "top"); ("middle", "middle"); ("bottom", "bottom")].
Definition PALIGNS : dict string :=
  [("left", "left"); ("right", "right"); ("center", "center"); ("justify", "justify"); ("char", "left")].

Section Parse.
  Variable o : pcals_opts.
  (** __init__.py:105-106 get_cals_qname *)
  Definition pcals (name : string) : string := qname (pc_ns o) name.
  Definition pget (e : xnode) (name : string) : option string := x_get e (pcals name).

  (** __init__.py:206-267 parse_cals_table: the styles and the nature *)
  Definition table_style_attrs (e : xnode) : result (styles * nature) :=
    frame <-? get_frame_styles (pget e "frame") ;;
    let st := frame in
    let st := map_style SEPS (pget e "colsep") "x-cell-border-right" st in
    let st := map_style SEPS (pget e "rowsep") "x-cell-border-bottom" st in
    let st := map_style [("land", "landscape"); ("port", "portrait")] (pget e "orient") "x-sect-orient" st in
    let st := map_style [("0", "2"); ("1", "1")] (pget e "pgwide") "x-sect-cols" st in
    let st := text_style (pget e "bgcolor") "background-color" st in
    let na := if truthy (pget e "tabstyle") then pget e "tabstyle" else None in
    st <-? (if truthy (pget e "width") then
              wu <-? parse_width (ostr (pget e "width")) "mm" ;;
              value <-? convert_value (fst wu) (snd wu) (pc_unit o) ;;
              Ok (dset st "width" (SStr (pc_fmt o value ++ pc_unit o)))
            else Ok st) ;;
    Ok (st, na).
  (** __init__.py:206-267 parse_cals_table, 201-204 setup_table *)
  Definition parse_cals_table (e : xnode) : SM pstate unit :=
    sn <- slift (table_style_attrs e) ;;
    t <- slift (table_new [] (Some (fst sn)) (snd sn)) ;;
    smodify (with_table (Some t)).

  (** __init__.py:269-304 parse_cals_tgroup *)
  Definition tgroup_nature (tgroupstyle : option string) (na : nature) : nature :=
    if truthy tgroupstyle then
      if truthy na then Some (join_space (removelast (split_on " " (ostr na)) ++ [ostr tgroupstyle])%list)
      else tgroupstyle
    else na.
  Definition parse_cals_tgroup (e : xnode) : SM pstate unit :=
    let st := map_style SEPS (pget e "colsep") "x-cell-border-right" [] in
    let st := map_style SEPS (pget e "rowsep") "x-cell-border-bottom" st in
    on_table (t <- sget ;;
              sput (MkTable (t_grid t) (t_rows t) (t_cols t) (dupdate (t_styles t) st)
                      (tgroup_nature (pget e "tgroupstyle") (t_nature t)))).

  (** __init__.py:306-365 parse_cals_row *)
  Definition ROW_NATURES : dict string := [("thead", "header"); ("tfoot", "footer"); ("tbody", "body")].
  Definition row_nature (parent : option xnode) : result nature :=
    match parent with
    | None => Ok None
    | Some p => n <-? lookup ROW_NATURES (localname (ostr (x_tag p))) ;; Ok (Some n)
    end.
  Definition row_styles (e : xnode) (parent : option xnode) : styles :=
    let st := match parent with
              | Some p => map_style VALIGNS (pget p "valign") "vertical-align" []
              | None => []
              end in
    let st := map_style VALIGNS (pget e "valign") "vertical-align" st in
    let st := map_style SEPS (pget e "rowsep") "border-bottom" st in
    let st := text_style (pget e "bgcolor") "background-color" st in
    text_style (pget e "rowstyle") "rowstyle" st.
  Definition parse_cals_row (e : xnode) (parent : option xnode) : SM pstate unit :=
    na <- slift (row_nature parent) ;;
    s <- sget ;;
    on_table (unit_of (view_get Rows (ps_row_pos s))) ;;;
    smodify (with_row (Some (ps_row_pos s))) ;;;
    on_table (view_set_nature Rows (ps_row_pos s) na) ;;;
    on_table (view_set_styles Rows (ps_row_pos s) (Some (row_styles e parent))).

  (** __init__.py:406-416: the spans *)
  Definition entry_spans (e : xnode) (col_pos : Z) : result (Z * Z) :=
    let or_pos (v : option string) := match v with Some v => v | None => py_str_int col_pos end in
    col_start <-? first_int (or_pos (pget e "namest")) ;;
    col_end <-? first_int (or_pos (pget e "nameend")) ;;
    more <-? py_int (match pget e "morerows" with Some v => v | None => "0" end) ;;
    Ok (col_end - col_start + 1, more + 1)%Z.
  (** __init__.py:438-439: [getchildren()] includes the comments and the processing instructions *)
  Definition entry_content (e : xnode) : list content :=
    ((if truthy (x_text e) then [CText (ostr (x_text e))] else []) ++ map CNode (x_children e))%list.
  Definition entry_styles (e : xnode) : styles :=
    let st := map_style SEPS (pget e "colsep") "border-right" [] in
    let st := map_style SEPS (pget e "rowsep") "border-bottom" st in
    let st := text_style (pget e "bgcolor") "background-color" st in
    let st := map_style VALIGNS (pget e "valign") "vertical-align" st in
    let st := map_style PALIGNS (pget e "align") "align" st in
    let st := text_style (pget e "cellstyle") "cellstyle" st in
    match entry_content e with [] => dset st "x-cell-empty" (SStr "true") | _ => st end.
  (** __init__.py:367-454 parse_cals_entry *)
  Definition parse_cals_entry (e : xnode) : SM pstate unit :=
    s <- sget ;;
    wh <- slift (entry_spans e (ps_col s)) ;;
    match ps_row s with
    | None => sraise EAttributeError
    | Some r =>
        on_table (v <- view_get Rows r ;;
                  insert_cell Rows r (CList (entry_content e)) (Some (entry_styles e)) (v_nature v)
                    (fst wh) (snd wh))
    end.

  (** __init__.py:456-512 parse_cals_colspec *)
  Definition colspec_styles (e : xnode) : styles :=
    let st := map_style SEPS (pget e "colsep") "border-right" [] in
    let st := map_style SEPS (pget e "rowsep") "border-bottom" st in
    let st := text_style (pget e "colwidth") "width" st in
    map_style PALIGNS (pget e "align") "align" st.
  Definition parse_cals_colspec (e : xnode) (parent : option xnode) : SM pstate unit :=
    slift (match parent with
           | Some p => if str_mem (localname (ostr (x_tag p))) ["table"; "tgroup"] then Ok tt
                       else Err ENotImplementedError
           | None => Ok tt
           end) ;;;
    s <- sget ;;
    colnum <- slift (if truthy (pget e "colnum") then py_int (ostr (pget e "colnum")) else Ok (ps_col s)) ;;
    on_table (view_update_styles Cols colnum (colspec_styles e)).

  (** __init__.py:192-197: the end of a row and of a table (also of a nested one) *)
  Definition end_row : SM pstate unit :=
    s <- sget ;;
    cols <- on_table (views_get Cols) ;;
    bb <- slift (box_new [PInt 1; PInt (ps_row_pos s); PInt (Z.of_nat (List.length cols)); PInt (ps_row_pos s)]) ;;
    match ps_row s with
    | None => sraise EAttributeError
    | Some r => on_table (v <- view_get Rows r ;; table_fill_missing bb CNone None (v_nature v))
    end.
  Definition end_table : SM pstate unit :=
    on_table (t <- sget ;;
              bb <- slift (table_bounding_box t) ;;
              match bb with
              | None => sraise EAttributeError
              | Some bb => table_fill_missing bb CNone None None
              end).

  (** __init__.py:153-197: the body of the loop *)
  Definition sections : list string := ["tbody"; "tfoot"; "thead"].
  Definition on_start (e : xnode) (parent : option xnode) : SM pstate unit :=
    let tag := ostr (x_tag e) in
    if String.eqb tag (pcals "entry") then smodify next_col ;;; parse_cals_entry e
    else if String.eqb tag (pcals "row") then smodify next_row ;;; parse_cals_row e parent
    else if str_mem tag (map pcals sections) then sret tt
    else if String.eqb tag (pcals "colspec") then smodify next_col ;;; parse_cals_colspec e parent
    else if String.eqb tag (pcals "tgroup") then parse_cals_tgroup e
    else if String.eqb tag (pcals "table") then parse_cals_table e
    else sraise ENotImplementedError.
  Definition on_end (e : xnode) : SM pstate unit :=
    let tag := ostr (x_tag e) in
    if String.eqb tag (pcals "row") then end_row
    else if String.eqb tag (pcals "table") then end_table
    else sret tt.
  Definition new_depth (ev : event) (d : Z) : Z :=
    if String.eqb (ostr (x_tag (ev_elem ev))) (pcals "table") then (if ev_start ev then d + 1 else d - 1)%Z else d.
  Definition parse_event (ev : event) : SM pstate unit :=
    smodify (fun s => with_depth (new_depth ev (ps_depth s)) s) ;;;
    s <- sget ;;
    if (1 <? ps_depth s)%Z then sret tt
    else if ev_start ev then on_start (ev_elem ev) (ev_parent ev)
    else on_end (ev_elem ev).

  (** __init__.py:123-199 parse_table; called with a table element, whose parent is never read *)
  Definition cals_elements : list string :=
    map pcals ["table"; "tgroup"; "colspec"; "thead"; "tfoot"; "tbody"; "row"; "entry"].
  Definition parse_table (e : xnode) : result table :=
    let (s, r) := siter parse_event (walk cals_elements None e) pstate_reset in
    _ <-? r ;;
    match ps_table s with Some t => Ok t | None => Err EAttributeError end.
End Parse.
