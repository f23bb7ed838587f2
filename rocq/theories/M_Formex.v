(** * Model of benker/builders/formex.py: the generation of the tables

    The attributes and elements of the option use_cals are those of the CALS builder
    (benker/builders/cals.py), with the same functions on borders, widths and revision marks
    (formex.py:20-65 imports or copies them); the options about them are a [cals_opts]. *)
From Coq Require Import QArith.
From Verif Require Import Base M_Geometry M_Xml M_Cell M_Grid M_Table M_Regex M_Str M_Units M_Builder M_Cals.
Open Scope Z_scope.
Open Scope string_scope.

Record fmx_opts := MkFmxOpts { fo_cals : cals_opts; fo_use_cals : bool; fo_titles : bool }.

(** ["{:04d}".format(n)] for [n >= 0] *)
Definition format04 (n : Z) : string :=
  let s := py_str_int n in
  String.append (string_of_list_ascii (repeat "0"%char (4 - String.length s))) s.

(** ** Row styles: formex.py:71-88 guess_row_info *)
Record row_info := MkRowInfo { ri_tag : string; ri_type : option string; ri_level : Z }.
Definition ROW_TYPES : regex :=
  RAlt (RLit "ALIAS") (RAlt (RLit "HEADER") (RAlt (RLit "NORMAL") (RAlt (RLit "NOTCOL") (RLit "TOTAL")))).
Definition ROW_INFO : regex :=
  RSeq (RGroup 1 (RAlt (RLit "ROW") (RAlt (RLit "TI.BLK") (RLit "STI.BLK"))))
    (RSeq (ROpt (RSeq (RLit "-") (RGroup 2 ROW_TYPES)))
       (RSeq (ROpt (RSeq (RLit "-level") (RGroup 3 (RPlus is_digit)))) REnd)).
Definition no_row_info : row_info := MkRowInfo "ROW" None 0.
Definition guess_row_info (rowstyle : option string) : row_info :=
  match rowstyle with
  | None => no_row_info
  | Some s =>
      match re_match ROW_INFO (list_ascii_of_string s) with
      | None => no_row_info
      | Some w =>
          MkRowInfo (match group 1 w with Some g => string_of_list_ascii g | None => "" end)
            (match group 2 w with Some g => Some (string_of_list_ascii g) | None => None end)
            (match group 3 w with Some g => int_of_digits g | None => 0 end)
      end
  end.

(** formex.py:629-631 and 331-333: a cell which gives an [IE] element *)
Definition fmx_empty (c : cell) : bool :=
  match dget (c_styles c) "x-cell-empty" with Some (SStr s) => String.eqb s "true" | _ => false end
  || match c_content c with CNone => true | CText "" => true | _ => false end.

Definition IE : xnode := XElem "IE" [] None [] None.

(** [elem.extend(nodes)] *)
Fixpoint nodes_of (l : list content) : result (list xnode) :=
  match l with
  | [] => Ok []
  | CNode n :: l' => r <-? nodes_of l' ;; Ok (n :: r)
  | _ => Err ETypeError
  end.

(** formex.py:305-348 build_title: the children of TITLE made from one cell; [list(content)] of an
    element is the list of its children *)
Definition title_paragraphs (l : list content) : result (list xnode) :=
  match l with
  | [] => Err EIndexError
  | p :: ps =>
      n <-? nodes_of [p] ;;
      ns <-? nodes_of ps ;;
      Ok [XElem "TI" [] None n None; XElem "STI" [] None ns None]
  end.
Definition build_title_cell (c : cell) : result (list xnode) :=
  if fmx_empty c then Ok [XElem "TI" [] None [IE] None]
  else
    match c_content c with
    | CText s => Ok [XElem "TI" [] None [XElem "P" [] (Some s) [] None] None]
    | CList l => title_paragraphs l
    | CNode n => title_paragraphs (map CNode (x_children n))
    | _ => Err ETypeError
    end.
Definition build_title (row : view) : result xnode :=
  l <-? rmap build_title_cell (v_owned row) ;;
  Ok (XElem "TITLE" [] None (List.concat l) None).

Section FormexBuild.
  Variable o : fmx_opts.
  Let co := fo_cals o.

  (** formex.py:573-575 *)
  Definition CELL_TYPES : dict string := [("header", "HEADER"); ("body", "NORMAL"); ("footer", "__GR.NOTES__")].
  Definition nature_differs (a b : nature) : bool :=
    match a with
    | Some (String _ _) => negb (nature_eqb a b)
    | _ => false
    end.

  (** formex.py:582-624, the CALS-like attributes of a cell *)
  Definition cell_cals_attrs (bb : result (option box)) (colsep rowsep : string) (c : cell) (a : attrib) : result attrib :=
    bb <-? bb ;;
    match bb with
    | None => Err EAttributeError
    | Some bb =>
        let st := c_styles c in
        a <-? (if (cx (c_max c) =? cx (bmax bb))%Z then Ok a else sep_attr co st "border-right" "colsep" colsep a) ;;
        a <-? (if (cy (c_max c) =? cy (bmax bb))%Z then Ok a else sep_attr co st "border-bottom" "rowsep" rowsep a) ;;
        a <-? match dget st "vertical-align" with
              | Some v => s <-? style_lookup CELL_VALIGNS v ;; Ok (dset a (cals co "valign") (SStr s))
              | None => Ok a
              end ;;
        a <-? match dget st "align" with
              | Some v => s <-? style_lookup ALIGNS v ;; Ok (dset a (cals co "align") (SStr s))
              | None => Ok a
              end ;;
        let a := if (1 <? c_width c)%Z
                 then dset (dset a (cals co "namest") (SStr ("c" ++ py_str_int (cx (c_min c)))))
                        (cals co "nameend") (SStr ("c" ++ py_str_int (cx (c_max c))))
                 else a in
        let a := if (1 <? c_height c)%Z then dset a (cals co "morerows") (SStr (py_str_int (c_height c - 1))) else a in
        let a := copy_style st "background-color" (cals co "bgcolor") a in
        Ok (copy_style st "cellstyle" "TYPE" a)
    end.

  (** formex.py:510-637 build_cell; [etree.strip_tags] on a new element has no effect *)
  Definition build_fcell (bb : result (option box)) (colsep rowsep : string) (row : view) (c : cell) : result xnode :=
    let a := [("COL", SStr (py_str_int (cx (c_min c))))] in
    a <-? (if nature_differs (c_nature c) (v_nature row)
           then t <-? lookup CELL_TYPES (ostr (c_nature c)) ;; Ok (dset a "TYPE" (SStr t))
           else Ok a) ;;
    let a := if (1 <? c_width c)%Z then dset a "COLSPAN" (SStr (py_str_int (c_width c))) else a in
    let a := if (1 <? c_height c)%Z then dset a "ROWSPAN" (SStr (py_str_int (c_height c))) else a in
    a <-? (if fo_use_cals o then cell_cals_attrs bb colsep rowsep c a else Ok a) ;;
    attrs <-? make_attrs a ;;
    if fmx_empty c then Ok (XElem "CELL" attrs None [IE] None)
    else append_cell_elements (XElem "CELL" attrs None [] None) (c_content c).

  (** formex.py:456-461 *)
  Definition row_type_attr (n : nature) (a : attrib) : attrib :=
    match n with
    | Some s =>
        if String.eqb s "header" then dset a "TYPE" (SStr "HEADER")
        else if String.eqb s "footer" then dset a "TYPE" (SStr "__GR.NOTES__")
        else a
    | None => a
    end.
  (** formex.py:463-481 *)
  Definition row_cals_attrs (rowsep : string) (st : styles) (a : attrib) : result attrib :=
    a <-? match dget st "vertical-align" with
          | Some v => s <-? style_lookup ROW_VALIGNS v ;; Ok (dset a (cals co "valign") (SStr s))
          | None => Ok a
          end ;;
    a <-? sep_attr co st "border-bottom" "rowsep" rowsep a ;;
    let a := copy_style st "rowstyle" (cals co "rowstyle") a in
    Ok (copy_style st "background-color" (cals co "bgcolor") a).

  (** formex.py:419-507 build_row; the list is what is added to the CORPUS *)
  Definition build_frow (bb : result (option box)) (colsep rowsep : string) (row : view) : result (list xnode) :=
    let st := v_styles row in
    let a := row_type_attr (v_nature row) [] in
    a <-? (if fo_use_cals o then row_cals_attrs rowsep st a else Ok a) ;;
    let ins := dmem st "x-ins" in
    let r0 := [("type", SStr "row:insertion")] in
    let r1 := match dget st "x-ins-id" with Some v => dset r0 "change-id" (SStr ("ct" ++ sval_str v)) | None => r0 end in
    start <-? (if ins then
                 pi <-? revision_mark "change-start"
                          (copy_style st "x-ins-date" "date" (copy_style st "x-ins-author" "creator" r1)) ;;
                 Ok [pi]
               else Ok []) ;;
    attrs <-? make_attrs a ;;
    finish <-? (if ins then pi <-? revision_mark "change-end" r1 ;; Ok [pi] else Ok []) ;;
    cells <-? rmap (build_fcell bb colsep rowsep row) (v_owned row) ;;
    Ok (start ++ XElem "ROW" attrs None cells None :: finish)%list.

  (** formex.py:268-274: the first row is a title if its first cell is as wide as the table and
      centred; the title, if any, and the other rows *)
  Definition is_centred (c : cell) : bool :=
    match dget (c_styles c) "align" with Some (SStr s) => String.eqb s "center" | _ => false end.
  Definition split_title (t : table) (rows : list view) : result (list xnode * list view) :=
    if fo_titles o then
      first <-? table_getitem t (PTuple [PInt 1; PInt 1]) ;;
      bb <-? table_bounding_box t ;;
      match bb with
      | None => Err EAttributeError
      | Some bb =>
          if (c_width first =? box_width bb)%Z && is_centred first then
            match rows with
            | [] => Err EIndexError
            | r :: rows' => title <-? build_title r ;; Ok ([title], rows')
            end
          else Ok ([], rows)
      end
    else Ok ([], rows).

  (** formex.py:277-293: the separators in force and the attributes of CORPUS *)
  Definition corpus_attrs (t : table) : result (string * string * attrib) :=
    let st := t_styles t in
    if fo_use_cals o then
      frame <-? get_frame_attr st ;;
      colsep <-? table_sep st "x-cell-border-right" ;;
      rowsep <-? table_sep st "x-cell-border-bottom" ;;
      let a := [(cals co "frame", SStr frame); (cals co "colsep", SStr colsep); (cals co "rowsep", SStr rowsep)] in
      let a := nature_attr co (t_nature t) "tabstyle" a in
      a <-? match dget st "x-sect-orient" with
            | Some v => s <-? style_lookup ORIENTS v ;; Ok (dset a (cals co "orient") (SStr s))
            | None => Ok a
            end ;;
      let a := match dget st "x-sect-cols" with
               | Some v => dset a (cals co "pgwide") (SStr (match v with SStr "1" => "1" | _ => "0" end))
               | None => a
               end in
      let a := copy_style st "background-color" (cals co "bgcolor") a in
      a <-? width_attr co st "width" a ;;
      Ok (colsep, rowsep, a)
    else Ok ("0", "0", []).

  (** formex.py:247-303 build_corpus: what is added to TBL *)
  Definition build_corpus (t : table) : result (list xnode) :=
    rows <-? table_views Rows t ;;
    tr <-? split_title t rows ;;
    cra <-? corpus_attrs t ;;
    let '(colsep, rowsep, a) := cra in
    attrs <-? make_attrs a ;;
    colspecs <-? (if fo_use_cals o
                  then cols <-? table_views Cols t ;; rmap (build_colspec co colsep rowsep) cols
                  else Ok []) ;;
    items <-? rmap (build_frow (table_bounding_box t) colsep rowsep) (snd tr) ;;
    Ok (fst tr ++ [XElem "CORPUS" attrs None (colspecs ++ List.concat items) None])%list.

  (** formex.py:230-240: the attribute PAGE.SIZE; [size\[0\] <= 649] raises TypeError if the size is
      a text *)
  Definition page_size (st : styles) (a : attrib) : result attrib :=
    match dget st "x-sect-orient" with
    | None => Ok a
    | Some orient =>
        wh <-? match dget st "x-sect-size" with
               | None => Ok (595, 842)%Z
               | Some (SPair w h) => Ok (w, h)
               | Some (SStr "") => Err EIndexError
               | Some _ => Err ETypeError
               end ;;
        let (w, h) := wh in
        let single := ((w <=? 649) && (h <=? 918) || (w <=? 918) && (h <=? 649))%Z in
        Ok (match orient with
            | SStr s =>
                if String.eqb s "landscape" then
                  dset a "PAGE.SIZE" (SStr (if single then "SINGLE.LANDSCAPE" else "DOUBLE.LANDSCAPE"))
                else if String.eqb s "portrait" && negb single then dset a "PAGE.SIZE" (SStr "DOUBLE.PORTRAIT")
                else a
            | _ => a
            end)
    end.

  (** formex.py:167-245 generate_table_tree, build_tbl; [no_seq] is the counter after its increment *)
  Definition generate_tbl (no_seq : Z) (t : table) : result xnode :=
    cols <-? table_views Cols t ;;
    let a := [("NO.SEQ", SStr (format04 no_seq)); ("COLS", SStr (py_str_int (Z.of_nat (List.length cols))))] in
    a <-? page_size (t_styles t) a ;;
    attrs <-? make_attrs a ;;
    children <-? build_corpus t ;;
    Ok (XElem "TBL" attrs None children None).
End FormexBuild.
