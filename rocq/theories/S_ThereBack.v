(** * Specification vocabulary: a CALS document converted to Formex and back *)
From Verif Require Import Base M_Geometry M_Xml M_Cell M_Grid M_Table M_CalsParser S_Geometry S_Grid S_Table S_Builder S_Cals S_CalsParser S_RoundTrip S_Formex S_Attrs S_FormexRead S_FormexTrip S_FormexFinal S_FormexFinished S_Convert.
Open Scope string_scope.
Open Scope list_scope.
Open Scope Z_scope.

(** What the name of a row says ([rowstyle]), if the CALS attributes are written; a row without name (and the rows which
    cells cover below the last one) says nothing. *)
Definition name_says (name : option string) (tag : string) (type : option string) (level : Z) : Prop :=
  match name with
  | Some s =>
      (exists lv, row_style_name s tag type lv /\ level = match lv with Some i => i | None => 0 end) \/
      ((forall a b c, ~ row_style_name s a b c) /\ tag = "ROW" /\ type = None /\ level = 0)
  | None => tag = "ROW" /\ type = None /\ level = 0
  end.
Definition row_name (use_cals : bool) (ns : option string) (rows : list (string * xnode * xnode)) (r : Z) : option string :=
  if use_cals then match nth_error rows (Z.to_nat (r - 1)) with Some (_, _, row) => not_empty (attribute ns row "rowstyle") | None => None end else None.
Definition row_type (use_cals : bool) (ns : option string) (rows : list (string * xnode * xnode)) (r : Z) (type : option string) : Prop :=
  exists level, name_says (row_name use_cals ns rows r) "ROW" type level.

(** The tables which can go to Formex ([cns]: the name space of the CALS names there) and come back ([order]: the order
    of the sections): they have no hole, the cells contain nothing which Formex or CALS would take for a part of a
    table, no footers, no titles of blocks, and the rows come in the order of the sections once more. *)
Definition can_travel (use_cals : bool) (ns cns : option string) (order : list string) (e : xnode) (l : layout) (g : list spot) (m : Z) : Prop :=
  let rows := row_items (items ns e) in
  regular ns e /\ laid_out ns true e l g /\ tiles (map snd g) (l_cols l) m /\
  plain_nodes cns (map snd g) /\ plain_contents cns (map snd g) /\ no_tables (map snd g) /\
  (forall na sec row, In (na, sec, row) rows -> na <> "footer") /\
  (forall r tag type level, 1 <= r <= m -> name_says (row_name use_cals ns rows r) tag type level -> tag = "ROW") /\
  (forall a b ta tb j k, 1 <= a <= b -> b <= m -> row_type use_cals ns rows a ta -> row_type use_cals ns rows b tb ->
     rank order (Some (nature_or_body ta)) j -> rank order (Some (nature_or_body tb)) k -> (j <= k)%nat).

(** A cell of the table which came back, for a spot of the source: the same place and content, the nature said by the
    name of its row; with the CALS attributes the same styles *)
Definition spot_returns (use_cals : bool) (ns : option string) (rows : list (string * xnode * xnode)) (c' : cell) (s : spot) : Prop :=
  c_box c' = c_box (snd s) /\ content_pieces (c_content c') = content_pieces (c_content (snd s)) /\
  (exists type, row_type use_cals ns rows (cy (bmin (c_box (snd s)))) type /\ c_nature c' = Some (nature_or_body type)) /\
  if use_cals
  then forall k, In k cell_keys -> dget (c_styles c') k = match fst s with Some e => text_look (entry_style ns e k) | None => None end
  else forall k, In k cell_keys -> dget (c_styles c') k = None.
Definition came_back (use_cals : bool) (ns : option string) (e : xnode) (l : layout) (g : list spot) (m : Z) (t' : table) : Prop :=
  let rows := row_items (items ns e) in
  (exists cs, Permutation cs (table_iter t') /\ Forall2 (spot_returns use_cals ns rows) cs g) /\
  view_count Cols t' (l_cols l) /\
  (forall r v, 1 <= r <= m -> reads Rows r t' v -> exists type, row_type use_cals ns rows r type /\ v_nature v = Some (nature_or_body type)) /\
  (use_cals = true -> table_again ns e t').
