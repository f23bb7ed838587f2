(** * Specification vocabulary: a table in a finished Formex document *)
From Verif Require Import Base M_Geometry M_Xml M_Cell M_Grid M_Table S_Geometry S_Grid S_Table S_Builder S_Cals S_CalsParser S_RoundTrip S_Formex S_Attrs S_FormexRead S_FormexTrip.
Open Scope string_scope.
Open Scope list_scope.
Open Scope Z_scope.

(** There is no element with one of these names in the node. *)
Inductive lacks (names : list string) : xnode -> Prop :=
| lacks_node n : (forall s, x_tag n = Some s -> ~ In s names) -> (forall c, In c (x_children n) -> lacks names c) -> lacks names n.
(** There are no tables and no notes in the cells. *)
Definition no_tables (cells : list cell) : Prop :=
  forall c n, In c cells -> In (Node n) (content_pieces (c_content c)) -> lacks ["TBL"; "GR.NOTES"] n.

(** The footers are the rows after row [q]; each one is a cell. *)
Definition footers_after (q : Z) (t : table) (n m : Z) : Prop :=
  1 <= q <= m /\
  (forall r v, 1 <= r <= m -> reads Rows r t v -> (v_nature v = Some "footer" <-> q < r)) /\
  (forall r, q < r <= m -> exists c, In c (table_iter t) /\ c_box c = MkBox (Coord 1 r) (Coord n r)).

(** What the style of a row says, if it is written and understood *)
Definition row_says (use_cals : bool) (v : view) (tag : string) (type : option string) (level : Z) : Prop :=
  match (if use_cals then dget (v_styles v) "rowstyle" else None) with
  | Some (SStr s) =>
      (exists lv, row_style_name s tag type lv /\ level = match lv with Some i => i | None => 0 end) \/
      ((forall a b c, ~ row_style_name s a b c) /\ tag = "ROW" /\ type = None /\ level = 0)
  | _ => tag = "ROW" /\ type = None /\ level = 0
  end.
(** No row (but the footers) is the title of a block. *)
Definition no_block_titles (use_cals : bool) (t : table) (q : Z) : Prop :=
  forall r v tag type level, 1 <= r <= q -> reads Rows r t v -> row_says use_cals v tag type level -> tag = "ROW".

Definition nature_or_body (type : option string) : string := match nature_of_type type with Some s => s | None => "body" end.
(** The styles of a row which are attributes *)
Definition row_marks (use_cals : bool) (t' : table) (st' st : styles) : Prop :=
  if use_cals
  then dget st' "vertical-align" = kept_valign (dget st "vertical-align") /\
       dget st' "background-color" = kept_text (dget st "background-color") /\
       (forall w, line_of st "border-bottom" w ->
          own_or_default (dget st' "border-bottom") (dget (t_styles t') "x-cell-border-bottom") = Some (kept_line w)) /\
       (forall k, ~ In k ["vertical-align"; "background-color"; "border-bottom"; "rowstyle"] -> dget st' k = None)
  else forall k, k <> "rowstyle" -> dget st' k = None.

(** The type and the level of a row are those of its style; a footer has no styles. *)
Definition frow_finished (use_cals : bool) (q : Z) (r : Z) (t' : table) (v' v : view) : Prop :=
  (r <= q -> exists type level, row_says use_cals v "ROW" type level /\
     v_nature v' = Some (nature_or_body type) /\ dget (v_styles v') "rowstyle" = text_look (row_label type level) /\
     row_marks use_cals t' (v_styles v') (v_styles v)) /\
  (q < r -> v_nature v' = Some "footer" /\ forall k, dget (v_styles v') k = None).

(** The type of a cell is the one of the style of its row, if it gives one.  A footer has the styles of its row. *)
Definition fcell_finished (use_cals : bool) (q : Z) (t t' : table) (n m : Z) (c' c : cell) : Prop :=
  c_box c' = c_box c /\ fcontent_kept c' c /\
  exists v, reads Rows (cy (bmin (c_box c))) t v /\
    (cy (bmin (c_box c)) <= q ->
       (exists type level own, row_says use_cals v "ROW" type level /\ cell_type use_cals (v_nature v) c own /\
          let given := match type with Some s => Some s | None => own end in
          c_nature c' = fcell_nature (nature_or_body type) given /\
          dget (c_styles c') "cellstyle" = kept_type type given) /\
       (if use_cals
        then dget (c_styles c') "align" = dget (c_styles c) "align" /\
             dget (c_styles c') "vertical-align" = kept_valign (dget (c_styles c) "vertical-align") /\
             dget (c_styles c') "background-color" = kept_text (dget (c_styles c) "background-color") /\
             flines_kept t' n m c' c
        else forall k, k <> "cellstyle" -> dget (c_styles c') k = None)) /\
    (q < cy (bmin (c_box c)) -> c_nature c' = Some "footer" /\ dget (c_styles c') "rowstyle" = None /\
       row_marks use_cals t' (c_styles c') (v_styles v)).
