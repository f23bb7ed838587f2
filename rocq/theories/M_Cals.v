(** * Model of benker/builders/cals.py and benker/parsers/cals/frame_styles.py

    The formatting of a float with two decimals, and with it the values of the width attributes, is
    left open ([co_fmt]). *)
From Coq Require Import QArith.
From Verif Require Import Base M_Geometry M_Xml M_Cell M_Grid M_Table M_Regex M_Str M_Units M_Builder.
Open Scope Z_scope.
Open Scope string_scope.

(** frame_styles.py:10-13 *)
Definition BORDER_SOLID : string := "solid 1pt black".
Definition BORDER_NONE : string := "none".

(** frame_styles.py:19-26: (top, bottom, left, right) *)
Definition FRAMES : dict (bool * bool * bool * bool) :=
  [("none", (false, false, false, false)); ("all", (true, true, true, true));
   ("topbot", (true, true, false, false)); ("sides", (false, false, true, true));
   ("top", (true, false, false, false)); ("bottom", (false, true, false, false))].

(** frame_styles.py:16-32 get_frame_styles *)
Definition border_of (b : bool) : sval := SStr (if b then BORDER_SOLID else BORDER_NONE).
Definition get_frame_styles (frame : option string) : result styles :=
  if negb (truthy frame) then Ok []
  else
    sides <-? lookup FRAMES (ostr frame) ;;
    let '(bt, bb, bl, br) := sides in
    Ok [("border-top", border_of bt); ("border-bottom", border_of bb);
        ("border-left", border_of bl); ("border-right", border_of br)].

(** cals.py:33-40 _get_border_style: the last word which is neither a size nor a colour.  A value
    which has no [split] method raises AttributeError. *)
Definition border_word (part : string) : bool :=
  negb (ends_with "pt" part) && negb (String.eqb part "auto") && negb (starts_with "#" part).
Definition get_border_style (st : styles) (style : string) : result (option string) :=
  match dget st style with
  | None => Ok None
  | Some (SStr "") => Ok None
  | Some (SStr s) =>
      Ok (fold_left (fun value part => if border_word part then Some part else value) (split_on " " s) None)
  | Some (SBool false) => Ok None
  | Some SNone => Ok None
  | Some _ => Err EAttributeError
  end.

(** cals.py:47-48: [(... or u"none") != u"none"] *)
Definition has_border (st : styles) (style : string) : result bool :=
  value <-? get_border_style st style ;;
  Ok (truthy value && negb (String.eqb (ostr value) "none")).

(** cals.py:43-59 get_frame_attr *)
Definition frame_name (bt bb bl br : bool) : string :=
  match bt, bb, bl, br with
  | true, true, true, true => "all"
  | true, true, false, false => "topbot"
  | false, false, true, true => "sides"
  | true, false, false, false => "top"
  | false, true, false, false => "bottom"
  | _, _, _, _ => "none"
  end.
Definition get_frame_attr (st : styles) : result string :=
  bt <-? has_border st "border-top" ;;
  br <-? has_border st "border-right" ;;
  bb <-? has_border st "border-bottom" ;;
  bl <-? has_border st "border-left" ;;
  Ok (frame_name bt bb bl br).

(** cals.py:62-69 get_colsep_attr, get_rowsep_attr *)
Definition get_sep_attr (st : styles) (style : string) : result (option string) :=
  value <-? get_border_style st style ;;
  Ok (match value with None => None | Some v => Some (if String.eqb v "none" then "0" else "1") end).

(** Options of the builder: namespace, unit of widths, table_in_tgroup, tgroup_sorting and the
    formatting of numbers *)
Record cals_opts := MkCalsOpts {
  co_ns : option string;
  co_unit : string;
  co_in_tgroup : bool;
  co_sorting : list string;
  co_fmt : Q -> string
}.

(** cals.py:121-136 CalsBuilder.__init__ *)
Definition default_sorting : list string := ["header"; "footer"; "body"].
Definition str_mem (s : string) (l : list string) : bool := existsb (String.eqb s) l.
Definition cals_sorting (sorting : list string) : result (list string) :=
  let sorting := match sorting with [] => default_sorting | _ => sorting end in
  if forallb (fun n => str_mem n sorting) default_sorting then Ok sorting else Err EValueError.

(** [{nature: index for index, nature in enumerate(tgroup_sorting)}]: the last index wins *)
Fixpoint index_from (i : Z) (l : list string) (n : string) : option Z :=
  match l with
  | [] => None
  | m :: l' => match index_from (i + 1) l' n with
               | Some j => Some j
               | None => if String.eqb n m then Some i else None
               end
  end.
Definition sorting_get (sorting : list string) (n : nature) : option Z :=
  match n with Some n => index_from 0 sorting n | None => None end.
(** cals.py:279 the key of a group; [KeyError] of [self.tgroup_sorting\["body"\]] is excluded by
    [__init__] *)
Definition sorting_key (sorting : list string) (n : nature) : Z :=
  match sorting_get sorting n with
  | Some i => i
  | None => match sorting_get sorting (Some "body") with Some i => i | None => -1 end
  end.

(** The attributes given to [etree.Element]: lxml raises TypeError if a value is not a string *)
Definition attrib := dict sval.
Fixpoint make_attrs (a : attrib) : result (dict string) :=
  match a with
  | [] => Ok []
  | (k, SStr v) :: a' => rest <-? make_attrs a' ;; Ok ((k, v) :: rest)
  | _ => Err ETypeError
  end.

(** [d\[k\] = styles\[k'\]] if present *)
Definition copy_style (st : styles) (k : string) (name : string) (a : attrib) : attrib :=
  match dget st k with Some v => dset a name v | None => a end.
(** a style used as the key of a dictionary of strings *)
Definition style_lookup (d : dict string) (v : sval) : result string :=
  match v with SStr s => lookup d s | _ => Err EKeyError end.

Section Build.
  Variable o : cals_opts.
  Definition cals (name : string) : string := qname (co_ns o) name.

  (** cals.py:233-236 and 331-334; [re.findall] raises TypeError if it is not given a string *)
  Definition width_attr (st : styles) (name : string) (a : attrib) : result attrib :=
    match dget st "width" with
    | None => Ok a
    | Some (SStr w) =>
        wu <-? parse_width w "mm" ;;
        value <-? convert_value (fst wu) (snd wu) (co_unit o) ;;
        Ok (dset a (cals name) (SStr (co_fmt o value ++ co_unit o)))
    | Some _ => Err ETypeError
    end.

  (** [if cell_sep and cell_sep != table_sep: attrs\[...\] = cell_sep] *)
  Definition sep_attr (st : styles) (style name table_sep : string) (a : attrib) : result attrib :=
    sep <-? get_sep_attr st style ;;
    Ok (match sep with
        | Some s => if String.eqb s table_sep then a else dset a (cals name) (SStr s)
        | None => a
        end).

  (** cals.py:290-352 build_colspec *)
  Definition ALIGNS : dict string := [("left", "left"); ("right", "right"); ("center", "center"); ("justify", "justify")].
  Definition build_colspec (colsep rowsep : string) (col : view) : result xnode :=
    let st := v_styles col in
    let a := [(cals "colnum", SStr (py_str_int (v_pos col))); (cals "colname", SStr ("c" ++ py_str_int (v_pos col)))] in
    a <-? width_attr st "colwidth" a ;;
    let a := match dget st "align" with
             | Some (SStr s) => match dget ALIGNS s with Some v => dset a (cals "align") (SStr v) | None => a end
             | _ => a
             end in
    a <-? sep_attr st "border-right" "colsep" colsep a ;;
    a <-? sep_attr st "border-bottom" "rowsep" rowsep a ;;
    attrs <-? make_attrs a ;;
    Ok (XElem (cals "colspec") attrs None [] None).

  (** cals.py:476-571 build_cell *)
  Definition CELL_VALIGNS : dict string :=
    [("top", "top"); ("middle", "middle"); ("bottom", "bottom"); ("baseline", "bottom"); ("w-both", "bottom")].
  Definition build_cell (bb : option box) (colsep rowsep : string) (c : cell) : result xnode :=
    match bb with
    | None => Err EAttributeError
    | Some bb =>
        let st := c_styles c in
        a <-? (if (cx (c_max c) =? cx (bmax bb))%Z then Ok [] else sep_attr st "border-right" "colsep" colsep []) ;;
        a <-? (if (cy (c_max c) =? cy (bmax bb))%Z then Ok a else sep_attr st "border-bottom" "rowsep" rowsep a) ;;
        a <-? match dget st "vertical-align" with
              | Some v => s <-? style_lookup CELL_VALIGNS v ;; Ok (dset a (cals "valign") (SStr s))
              | None => Ok a
              end ;;
        a <-? match dget st "align" with
              | Some v => s <-? style_lookup ALIGNS v ;; Ok (dset a (cals "align") (SStr s))
              | None => Ok a
              end ;;
        let a := if (1 <? c_width c)%Z
                 then dset (dset a (cals "namest") (SStr ("c" ++ py_str_int (cx (c_min c)))))
                        (cals "nameend") (SStr ("c" ++ py_str_int (cx (c_max c))))
                 else a in
        let a := if (1 <? c_height c)%Z then dset a (cals "morerows") (SStr (py_str_int (c_height c - 1))) else a in
        let a := copy_style st "background-color" (cals "bgcolor") a in
        let a := copy_style st "cellstyle" (cals "cellstyle") a in
        attrs <-? make_attrs a ;;
        append_cell_elements (XElem (cals "entry") attrs None [] None) (c_content c)
    end.

  (** [str(value)] of a style *)
  Definition sval_str (v : sval) : string :=
    match v with
    | SStr s => s
    | SBool b => if b then "True" else "False"
    | SPair a b => "(" ++ py_str_int a ++ ", " ++ py_str_int b ++ ")"
    | SNone => "None"
    end.

  (** An attribute value as written by lxml between double quotes *)
  Fixpoint escape_attr (s : string) : string :=
    match s with
    | EmptyString => EmptyString
    | String c s' =>
        let n := nat_of_ascii c in
        (if Nat.eqb n 38 then "&amp;" else if Nat.eqb n 60 then "&lt;" else if Nat.eqb n 62 then "&gt;"
         else if Nat.eqb n 34 then "&quot;" else if Nat.eqb n 9 then "&#9;" else if Nat.eqb n 10 then "&#10;"
         else if Nat.eqb n 13 then "&#13;" else String c EmptyString) ++ escape_attr s'
    end.
  Definition quote : string := String (ascii_of_nat 34) EmptyString.
  (** cals.py:72-76 revision_mark *)
  Definition revision_mark (name : string) (a : attrib) : result xnode :=
    attrs <-? make_attrs a ;;
    Ok (XPI name
          (String.concat " " (map (fun kv => fst kv ++ "=" ++ quote ++ escape_attr (snd kv) ++ quote) attrs)) None).

  (** cals.py:372-483 build_row; the list is what is added to the section *)
  Definition ROW_VALIGNS : dict string :=
    [("top", "top"); ("middle", "middle"); ("bottom", "bottom"); ("baseline", "bottom")].
  Definition build_row (bb : result (option box)) (colsep rowsep : string) (row : view) : result (list xnode) :=
    let st := v_styles row in
    a <-? match dget st "vertical-align" with
          | Some v => s <-? style_lookup ROW_VALIGNS v ;; Ok [(cals "valign", SStr s)]
          | None => Ok []
          end ;;
    a <-? sep_attr st "border-bottom" "rowsep" rowsep a ;;
    let a := copy_style st "rowstyle" (cals "rowstyle") a in
    let ins := dmem st "x-ins" in
    let r0 := [("type", SStr "row:insertion")] in
    let r1 := match dget st "x-ins-id" with Some v => dset r0 "change-id" (SStr ("ct" ++ sval_str v)) | None => r0 end in
    start <-? (if ins then
                 pi <-? revision_mark "change-start"
                          (copy_style st "x-ins-date" "date" (copy_style st "x-ins-author" "creator" r1)) ;;
                 Ok [pi]
               else Ok []) ;;
    attrs <-? make_attrs a ;;
    finish <-? (if ins then pi <-? revision_mark "change-end" r1 ;; Ok [pi] else Ok []) ;;
    entries <-? rmap (fun c => b <-? bb ;; build_cell b colsep rowsep c) (v_owned row) ;;
    Ok (start ++ XElem (cals "row") attrs None entries None :: finish)%list.

  (** cals.py:354-370 build_tbody *)
  Definition build_tbody (bb : result (option box)) (colsep rowsep : string) (tag : string) (rows : list view) : result xnode :=
    items <-? rmap (build_row bb colsep rowsep) rows ;;
    Ok (XElem (cals tag) [] None (List.concat items) None).

  (** cals.py:276-284: [itertools.groupby], [sorted] (a stable sort) and the tags *)
  Definition nature_eqb (a b : nature) : bool :=
    match a, b with
    | None, None => true
    | Some x, Some y => String.eqb x y
    | _, _ => false
    end.
  Fixpoint group_by_nature (rows : list view) : list (nature * list view) :=
    match rows with
    | [] => []
    | r :: rows' =>
        match group_by_nature rows' with
        | (n, grp) :: groups =>
            if nature_eqb (v_nature r) n then (n, r :: grp) :: groups
            else (v_nature r, [r]) :: (n, grp) :: groups
        | [] => [(v_nature r, [r])]
        end
    end.
  Fixpoint insert_by {A} (key : A -> Z) (a : A) (l : list A) : list A :=
    match l with
    | [] => [a]
    | b :: l' => if (key a <=? key b)%Z then a :: b :: l' else b :: insert_by key a l'
    end.
  Definition sort_by {A} (key : A -> Z) (l : list A) : list A := fold_right (insert_by key) [] l.
  Definition GROUP_TAGS : dict string := [("header", "thead"); ("body", "tbody"); ("footer", "tfoot")].
  Definition group_tag (n : nature) : string :=
    match n with
    | Some n => match dget GROUP_TAGS n with Some t => t | None => "tbody" end
    | None => "tbody"
    end.

  (** [get_..._attr(table_styles) or "0"] *)
  Definition table_sep (st : styles) (style : string) : result string :=
    sep <-? get_sep_attr st style ;; Ok (match sep with Some s => s | None => "0" end).

  (** [table.rows], [table.cols] *)
  Definition table_views (ax : axis) (t : table) : result (list view) := snd (views_get ax t).

  Definition nature_attr (n : nature) (name : string) (a : attrib) : attrib :=
    match n with Some s => dset a (cals name) (SStr s) | None => a end.

  (** cals.py:244-287 build_tgroup.  The values [colsep] and [rowsep] found by build_table are used
      unless the options say that the properties are in the tgroup. *)
  Definition build_tgroup (colsep rowsep : string) (t : table) : result xnode :=
    cols <-? table_views Cols t ;;
    let a := [(cals "cols", SStr (py_str_int (Z.of_nat (List.length cols))))] in
    car <-? (if co_in_tgroup o then
               colsep <-? table_sep (t_styles t) "x-cell-border-right" ;;
               rowsep <-? table_sep (t_styles t) "x-cell-border-bottom" ;;
               let a := dset (dset a (cals "colsep") (SStr colsep)) (cals "rowsep") (SStr rowsep) in
               Ok (colsep, rowsep, nature_attr (t_nature t) "tgroupstyle" a)
             else Ok (colsep, rowsep, a)) ;;
    let '(colsep, rowsep, a) := car in
    attrs <-? make_attrs a ;;
    colspecs <-? rmap (build_colspec colsep rowsep) cols ;;
    rows <-? table_views Rows t ;;
    let groups := sort_by (fun g => sorting_key (co_sorting o) (fst g)) (group_by_nature rows) in
    bodies <-? rmap (fun g => build_tbody (table_bounding_box t) colsep rowsep (group_tag (fst g)) (snd g)) groups ;;
    Ok (XElem (cals "tgroup") attrs None (colspecs ++ bodies)%list None).

  (** cals.py:168-242 build_table, 151-160 generate_table_tree *)
  Definition ORIENTS : dict string := [("landscape", "land"); ("portrait", "port")].
  Definition generate_table_tree (t : table) : result xnode :=
    let st := t_styles t in
    frame <-? get_frame_attr st ;;
    let a := [(cals "frame", SStr frame)] in
    car <-? (if co_in_tgroup o then Ok ("0", "0", a)
             else
               colsep <-? table_sep st "x-cell-border-right" ;;
               rowsep <-? table_sep st "x-cell-border-bottom" ;;
               let a := dset (dset a (cals "colsep") (SStr colsep)) (cals "rowsep") (SStr rowsep) in
               Ok (colsep, rowsep, nature_attr (t_nature t) "tabstyle" a)) ;;
    let '(colsep, rowsep, a) := car in
    a <-? match dget st "x-sect-orient" with
          | Some v => s <-? style_lookup ORIENTS v ;; Ok (dset a (cals "orient") (SStr s))
          | None => Ok a
          end ;;
    let a := match dget st "x-sect-cols" with
             | Some v => dset a (cals "pgwide") (SStr (match v with SStr "1" => "1" | _ => "0" end))
             | None => a
             end in
    let a := copy_style st "background-color" (cals "bgcolor") a in
    a <-? width_attr st "width" a ;;
    attrs <-? make_attrs a ;;
    tgroup <-? build_tgroup colsep rowsep t ;;
    Ok (XElem (cals "table") attrs None [tgroup] None).
End Build.
