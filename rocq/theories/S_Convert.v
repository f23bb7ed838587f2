(** * Specification vocabulary: the conversion of tables *)
From Verif Require Import Base M_Geometry M_Xml M_Cell M_Grid M_Table M_Convert S_Geometry S_Grid S_Table S_Builder S_Cals S_CalsParser S_RoundTrip S_Formex S_Attrs S_FormexRead S_FormexTrip S_FormexFinal.
Open Scope string_scope.
Open Scope list_scope.
Open Scope Z_scope.

(** ** The options *)

(** The name space of the CALS names: the one which is given, the empty one being none.  By default
    there is none, but in the Formex documents which are written. *)
Definition space_of (given : option (option string)) (default : option string) : option string :=
  match given with Some s => not_empty s | None => default end.
Definition cals_space (kw : kwargs) : option string := space_of (kw_cals_ns kw) None.
Definition formex_cals_space (kw : kwargs) : option string :=
  space_of (kw_cals_ns kw) (Some "https://lib.benker.com/schemas/cals.xsd").
Definition formex_space (kw : kwargs) : option string := not_empty (kw_formex_ns kw).
Definition unit_of (kw : kwargs) : string := match kw_unit kw with Some u => u | None => "mm" end.
(** The order of the sections of a CALS table; a given order has the three sections. *)
Definition section_names : list string := ["header"; "footer"; "body"].
Definition order_of (kw : kwargs) : list string := match kw_sorting kw with [] => section_names | l => l end.
(** What the CALS builder accepts *)
Definition acceptable (kw : kwargs) : Prop :=
  (not_empty (kw_prefix kw) <> None -> cals_space kw <> None) /\ (forall s, In s section_names -> In s (order_of kw)).

(** ** CALS to Formex *)

(** The styles which both formats have *)
Definition cell_keys : list string := ["align"; "vertical-align"; "background-color"].
Definition row_keys : list string := ["vertical-align"; "background-color"].

(** The line at a side of a cell: its own or the one of the table; none is read at the sides of the table. *)
Definition fline (t : table) (c : cell) (style : string) : option sval :=
  own_or_default (dget (c_styles c) style) (dget (t_styles t) style).
Definition flines_again (ns : option string) (n m : Z) (t' : table) (c' : cell) (e : xnode) : Prop :=
  (forall v, cx (bmax (c_box c')) < n -> separator_line (attribute ns e "colsep") = Some v -> fline t' c' "x-cell-border-right" = Some (SStr v)) /\
  (forall v, cy (bmax (c_box c')) < m -> separator_line (attribute ns e "rowsep") = Some v -> fline t' c' "x-cell-border-bottom" = Some (SStr v)).

(** A cell which is read in the new table, for a spot of the old one: the same place and content; with
    the CALS attributes the same styles and lines, without them no style but the type.  [row] is the nature
    of the row where it starts. *)
Definition spot_again (use_cals : bool) (ns : option string) (n m : Z) (t' : table) (c' : cell) (s : spot) : Prop :=
  c_box c' = c_box (snd s) /\ content_pieces (c_content c') = content_pieces (c_content (snd s)) /\
  if use_cals
  then match fst s with
       | Some e => (forall k, In k cell_keys -> dget (c_styles c') k = text_look (entry_style ns e k)) /\ flines_again ns n m t' c' e
       | None => forall k, In k cell_keys -> dget (c_styles c') k = None
       end
  else forall k, k <> "cellstyle" -> dget (c_styles c') k = None.

(** The nature of a row of the document; there is none for the rows which cells cover below the last one. *)
Definition nature_at {A} (rows : list (string * A)) (r : Z) : nature := option_map fst (nth_error rows (Z.to_nat (r - 1))).
Definition with_parts (rows : list (string * xnode * xnode)) : list (string * (xnode * xnode)) := map (fun x => (fst (fst x), (snd (fst x), snd x))) rows.
Definition row_again (use_cals : bool) (ns : option string) (rows : list (string * xnode * xnode)) (r : Z) (v : view) : Prop :=
  v_nature v = Some (header_or_body (nature_at (with_parts rows) r)) /\
  if use_cals
  then forall k, In k row_keys ->
         dget (v_styles v) k = match nth_error rows (Z.to_nat (r - 1)) with Some (_, sec, row) => text_look (row_style ns sec row k) | None => None end
  else forall k, k <> "rowstyle" -> dget (v_styles v) k = None.

(** The attributes of the table *)
Definition table_keys : list string := ["x-sect-orient"; "x-sect-cols"; "background-color"].
Definition frame_again (frame : option string) (st : styles) : Prop :=
  forall s, drawn st s <-> frame_shows (match not_empty frame with Some f => f | None => "none" end) s.
Definition table_again (ns : option string) (e : xnode) (t : table) : Prop :=
  frame_again (attribute ns e "frame") (t_styles t) /\
  (forall k, In k table_keys -> dget (t_styles t) k = text_look (table_style ns e k)) /\
  (forall k v, In k ["x-cell-border-right"; "x-cell-border-bottom"] -> table_style ns e k = Some v -> dget (t_styles t) k = Some (SStr v)) /\
  exists na, group_natures (map (fun n => attribute ns n "tgroupstyle") (of_name ns "tgroup" (x_children e)))
    (not_empty (attribute ns e "tabstyle")) na /\ t_nature t = not_empty na.

(** ** To CALS *)

(** The rows come in the order of the sections. *)
Definition natures_grouped (sorting : list string) (natures : Z -> nature) (m : Z) : Prop :=
  forall p q j k, 1 <= p <= q -> q <= m -> rank sorting (natures p) j -> rank sorting (natures q) k -> (j <= k)%nat.

(** The cell read again for a tile: the same place, content and styles; the nature of its row *)
Definition tile_again (rows : list (string * look)) (c' : cell) (s : tile) : Prop :=
  c_box c' = c_box (snd s) /\ content_pieces (c_content c') = content_pieces (c_content (snd s)) /\
  c_nature c' = Some (kept_nature (nature_at rows (cy (bmin (c_box (snd s)))))) /\
  dget (c_styles c') "align" = fst s "align" /\
  dget (c_styles c') "vertical-align" = kept_valign (fst s "vertical-align") /\
  dget (c_styles c') "background-color" = kept_text (fst s "background-color") /\
  dget (c_styles c') "cellstyle" = kept_text (fst s "cellstyle").
Definition ftable_again (ns cns : option string) (parent : option xnode) (e : xnode) (t : table) : Prop :=
  frame_again (attribute cns e "frame") (t_styles t) /\
  (forall k, In k table_keys -> dget (t_styles t) k = text_look (ftable_style ns cns parent e k)) /\
  (forall k v, In k ["x-cell-border-right"; "x-cell-border-bottom"] -> ftable_style ns cns parent e k = Some v -> dget (t_styles t) k = Some (SStr v)) /\
  t_nature t = not_empty (ftable_nature ns cns parent e).

(** The columns are before the rows. *)
Definition columns_first (l : list item) : Prop := exists a b, l = a ++ b /\ row_items a = [] /\ forall c, ~ In (Column c) b.
Definition fcolumns_first (l : list fitem) : Prop := exists a b, l = a ++ b /\ (forall i, In i a -> exists c, i = FColumn c) /\ forall c, ~ In (FColumn c) b.

(** ** The options in the trees *)

(** A CALS table: the names are in the name space, the widths in the unit, the properties in [table] or
    [tgroup], the sections in order. *)
Definition cals_written (kw : kwargs) (t : table) (e : xnode) : Prop :=
  let ns := cals_space kw in
  x_tag e = Some (expanded ns "table") /\ table_look ns (unit_of kw) (kw_fmt kw) t e /\
  (exists cols tg specs bodies colsep rowsep,
     snd (views_get Cols t) = Ok cols /\ x_children e = [tg] /\ x_children tg = specs ++ bodies /\
     (let d := if kw_in_tgroup kw then tg else e in
      attribute ns d "colsep" = Some colsep /\ attribute ns d "rowsep" = Some rowsep /\
      attribute ns d (if kw_in_tgroup kw then "tgroupstyle" else "tabstyle") = t_nature t) /\
     separators_of t colsep rowsep /\ Forall2 (column_look ns (unit_of kw) (kw_fmt kw) colsep rowsep) cols specs) /\
  exists n rows sections, snd (views_get Rows t) = Ok rows /\ describes_table ns n sections e /\
    sections_sorted (order_of kw) sections /\ stable (order_of kw) rows (List.concat (map snd sections)).
(** A Formex table: the number, the CALS attributes and columns if they are asked for *)
Definition formex_written (kw : kwargs) (k : Z) (t : table) (e : xnode) : Prop :=
  let ns := formex_cals_space kw in
  (exists s, four_digits k s /\ x_get e "NO.SEQ" = Some s) /\
  exists cols rows corpus, snd (views_get Cols t) = Ok cols /\ snd (views_get Rows t) = Ok rows /\
    describes_tbl (kw_use_cals kw) (kw_titles kw) ns t (Z.of_nat (List.length cols)) rows e /\ children_named "CORPUS" [e] = [corpus] /\
    if kw_use_cals kw
    then table_look ns (unit_of kw) (kw_fmt kw) t corpus /\
      exists colsep rowsep specs rest, separators_of t colsep rowsep /\ x_children corpus = specs ++ rest /\
        Forall2 (column_look ns (unit_of kw) (kw_fmt kw) colsep rowsep) cols specs
    else x_attrs corpus = [].
