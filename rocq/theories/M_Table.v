(** * Model of benker/table.py

    Simplifications: a view is always reached through [table.rows] or [table.cols] and its position
    (view objects kept by the caller are modelled in M_Views.v); the views
    hold the cells by value (the library never changes a cell which is already in a table). *)
From Verif Require Import Base M_Geometry M_Xml M_Cell M_Grid.

(** RowView or ColView *)
Inductive axis : Type := Rows | Cols.

(** table.py:192-218 TableView.__init__ (the reference to the table is left implicit) *)
Record view := MkView {
  v_pos : Z;
  v_styles : styles;
  v_nature : nature;
  v_owned : list cell;
  v_caught : list cell
}.
Definition new_view (pos : Z) : view := MkView pos [] None [] [].

(** First and last position of a box along an axis, and across it *)
Definition ax_lo (ax : axis) (b : box) : Z := match ax with Rows => cy (bmin b) | Cols => cx (bmin b) end.
Definition ax_hi (ax : axis) (b : box) : Z := match ax with Rows => cy (bmax b) | Cols => cx (bmax b) end.
Definition cross_hi (ax : axis) (b : box) : Z := match ax with Rows => cx (bmax b) | Cols => cy (bmax b) end.
(** The coordinate at [pos] along the axis and [i] across *)
Definition at_pos (ax : axis) (pos i : Z) : coord := match ax with Rows => Coord i pos | Cols => Coord pos i end.

(** table.py:275-276 RowView.can_own, 343-344 ColView.can_own *)
Definition can_own (ax : axis) (v : view) (c : cell) : bool :=
  match ax with
  | Rows => cy (c_min c) =? v_pos v
  | Cols => cx (c_min c) =? v_pos v
  end.

(** table.py:278-279 RowView.can_catch, 346-347 ColView.can_catch *)
Definition can_catch (ax : axis) (v : view) (c : cell) : bool :=
  match ax with
  | Rows => box_has (c_box c) (Coord (cx (c_min c)) (v_pos v))
  | Cols => box_has (c_box c) (Coord (v_pos v) (cy (c_min c)))
  end.

(** table.py:259-267 TableView.adopt_cell *)
Definition view_adopt (ax : axis) (c : cell) (v : view) : view :=
  MkView (v_pos v) (v_styles v) (v_nature v)
    (if can_own ax v c then v_owned v ++ [c] else v_owned v)
    (if can_catch ax v c then v_caught v ++ [c] else v_caught v).

(** table.py:130-135 TableViewList._fit_to_size; [del views[size:]] is only used with a positive
    [size] *)
Definition fit_to_size (size : Z) (truncate : bool) (views : list view) : list view :=
  let views := if truncate then firstn (Z.to_nat size) views else views in
  views ++ map (fun index => new_view (index + 1)) (zrange (Z.of_nat (List.length views)) size).

(** table.py:85-103 TableViewList.adopt_cell *)
Fixpoint adopt_at (ax : axis) (c : cell) (positions : list Z) (views : list view) : result (list view) :=
  match positions with
  | [] => Ok views
  | pos :: positions' =>
      views' <-? py_upd views (pos - 1) (view_adopt ax c) ;;
      adopt_at ax c positions' views'
  end.
Definition vl_adopt (ax : axis) (c : cell) (views : list view) : result (list view) :=
  adopt_at ax c (zrange (ax_lo ax (c_box c)) (ax_hi ax (c_box c) + 1))
    (fit_to_size (ax_hi ax (c_box c)) false views).

Fixpoint vl_adopt_all (ax : axis) (cells : list cell) (views : list view) : result (list view) :=
  match cells with
  | [] => Ok views
  | c :: cells' => views' <-? vl_adopt ax c views ;; vl_adopt_all ax cells' views'
  end.

(** table.py:123-125: the lists of cells are emptied, the attributes stay *)
Definition view_reset (v : view) : view := MkView (v_pos v) (v_styles v) (v_nature v) [] [].

(** table.py:105-128 TableViewList.refresh_all *)
Definition vl_refresh (ax : axis) (g : grid) (views : list view) : result (list view) :=
  bb <-? grid_bounding_box g ;;
  match bb with
  | None => Ok []
  | Some bb => vl_adopt_all ax g (map view_reset (fit_to_size (ax_hi ax bb) true views))
  end.

(** table.py:468-486 Table: the grid, the two view lists (absent until they are read) and the
    attributes of the table *)
Record table := MkTable {
  t_grid : grid;
  t_rows : option (list view);
  t_cols : option (list view);
  t_styles : styles;
  t_nature : nature
}.

Definition t_views (ax : axis) (t : table) : option (list view) :=
  match ax with Rows => t_rows t | Cols => t_cols t end.
Definition t_set_views (ax : axis) (vs : list view) (t : table) : table :=
  match ax with
  | Rows => MkTable (t_grid t) (Some vs) (t_cols t) (t_styles t) (t_nature t)
  | Cols => MkTable (t_grid t) (t_rows t) (Some vs) (t_styles t) (t_nature t)
  end.

Definition table_new (cells : list cell) (st : option styles) (na : nature) : result table :=
  g <-? grid_new cells ;; Ok (MkTable g None None (styles_of st) na).

(** table.py:175-180 ViewsProperty.__get__ and 69-83 TableViewList.__init__: the list is created and
    filled at the first reading *)
Definition views_get (ax : axis) : SM table (list view) :=
  t <- sget ;;
  match t_views ax t with
  | Some vs => sret vs
  | None =>
      vs <- slift (vl_refresh ax (t_grid t) []) ;;
      sput (t_set_views ax vs t) ;;;
      sret vs
  end.

Definition views_put (ax : axis) (vs : list view) : SM table unit :=
  t <- sget ;; sput (t_set_views ax vs t).

(** table.py:137-139 TableViewList.__getitem__ *)
Definition view_get (ax : axis) (pos : Z) : SM table view :=
  vs <- views_get ax ;;
  let vs' := fit_to_size pos false vs in
  views_put ax vs' ;;;
  slift (py_nth vs' (pos - 1)).

(** table.py:501-510 Table._refresh_views.  A cell is always true (it has no length). *)
Definition refresh_cell (c : cell) : SM table unit :=
  rs <- views_get Rows ;;
  rs' <- slift (vl_adopt Rows c rs) ;;
  views_put Rows rs' ;;;
  cs <- views_get Cols ;;
  cs' <- slift (vl_adopt Cols c cs) ;;
  views_put Cols cs'.
Definition refresh_all : SM table unit :=
  rs <- views_get Rows ;;
  t <- sget ;;
  rs' <- slift (vl_refresh Rows (t_grid t) rs) ;;
  views_put Rows rs' ;;;
  cs <- views_get Cols ;;
  cs' <- slift (vl_refresh Cols (t_grid t) cs) ;;
  views_put Cols cs'.

(** A call on [self._grid] *)
Definition on_grid {A} (m : SM grid A) : SM table A :=
  fun t => let (g', r) := m (t_grid t) in
           (MkTable g' (t_rows t) (t_cols t) (t_styles t) (t_nature t), r).

(** table.py:512-522 Table.__contains__, 549-559 Table.__getitem__, 561-565 Table.__len__,
    Table.__iter__, 491-499 Table.bounding_box *)
Definition table_contains (t : table) (v : pyval) : result bool := grid_contains (t_grid t) v.
Definition table_getitem (t : table) (v : pyval) : result cell := grid_getitem (t_grid t) v.
Definition table_len (t : table) : nat := grid_len (t_grid t).
Definition table_iter (t : table) : list cell := grid_iter (t_grid t).
Definition table_bounding_box (t : table) : result (option box) := grid_bounding_box (t_grid t).

(** table.py:524-537 Table.__setitem__ *)
Definition table_setitem (v : pyval) (c : cell) : SM table unit :=
  on_grid (grid_setitem v c) ;;;
  t <- sget ;;
  c' <- slift (grid_getitem (t_grid t) v) ;;
  refresh_cell c'.

(** table.py:539-547 Table.__delitem__ *)
Definition table_delitem (v : pyval) : SM table unit :=
  on_grid (grid_delitem v) ;;; refresh_all.

(** table.py:567-569 Table.merge, 571-573 Table.expand *)
Definition table_merge (start end_ : pyval) (app : option appender) : SM table unit :=
  on_grid (grid_merge start end_ app) ;;; refresh_all.
Definition table_expand (v : pyval) (width height : Z) (app : option appender) : SM table unit :=
  on_grid (grid_expand v width height app) ;;; refresh_all.

(** table.py:575-612 Table.fill_missing *)
Definition fill_one (ct : content) (st : option styles) (na : nature) (xy : Z * Z) : SM table unit :=
  t <- sget ;;
  b <- slift (table_contains t (PTuple [PInt (fst xy); PInt (snd xy)])) ;;
  if b then sret tt
  else
    c <- slift (cell_new ct st na (fst xy) (snd xy) 1 1) ;;
    table_setitem (PTuple [PInt (fst xy); PInt (snd xy)]) c.
Definition fill_positions (bb : box) : list (Z * Z) :=
  flat_map (fun y => map (fun x => (x, y)) (zrange (cx (bmin bb)) (cx (bmax bb) + 1)))
    (zrange (cy (bmin bb)) (cy (bmax bb) + 1)).
Definition table_fill_missing (bb : box) (ct : content) (st : option styles) (na : nature)
  : SM table unit :=
  siter (fill_one ct st na) (fill_positions bb).

(** table.py:320-331 (rows) and 388-399 (columns): the next free place of a view *)
Definition next_free (ax : axis) (v : view) : result Z :=
  match map c_box (v_caught v) with
  | [] => Ok 1
  | b :: bs =>
      bb <-? box_union b bs ;;
      match find (fun i => forallb (fun b' => negb (box_has b' (at_pos ax (v_pos v) i))) (b :: bs))
              (zrange 1 (cross_hi ax bb + 1)) with
      | Some i => Ok i
      | None => Ok (cross_hi ax bb + 1)
      end
  end.

(** table.py:332/400 [nature = self.nature if nature is None else nature] *)
Definition inherit (na view_nature : nature) : nature :=
  match na with None => view_nature | Some _ => na end.

(** table.py:286-335 RowView.insert_cell, 354-403 ColView.insert_cell, called as
    [table.rows[pos].insert_cell(...)] *)
Definition insert_cell (ax : axis) (pos : Z) (ct : content) (st : option styles) (na : nature)
    (width height : Z) : SM table unit :=
  v <- view_get ax pos ;;
  i <- slift (next_free ax v) ;;
  let co := at_pos ax (v_pos v) i in
  c <- slift (cell_new ct st (inherit na (v_nature v)) (cx co) (cy co) width height) ;;
  table_setitem (PCoord (c_min c)) c.

(** [table.rows[pos].nature = ...], [table.rows[pos].styles = ...] (styled.py:77-85),
    [table.rows[pos].styles.update(...)] *)
Definition view_modify (ax : axis) (pos : Z) (f : view -> view) : SM table unit :=
  view_get ax pos ;;;
  vs <- views_get ax ;;
  vs' <- slift (py_upd vs (pos - 1) f) ;;
  views_put ax vs'.
Definition with_nature (na : nature) (v : view) : view :=
  MkView (v_pos v) (v_styles v) na (v_owned v) (v_caught v).
Definition with_styles (st : styles) (v : view) : view :=
  MkView (v_pos v) st (v_nature v) (v_owned v) (v_caught v).
Definition view_set_nature (ax : axis) (pos : Z) (na : nature) : SM table unit :=
  view_modify ax pos (with_nature na).
Definition view_set_styles (ax : axis) (pos : Z) (st : option styles) : SM table unit :=
  view_modify ax pos (with_styles (styles_of st)).
Definition view_update_styles (ax : axis) (pos : Z) (st : styles) : SM table unit :=
  view_modify ax pos (fun v => with_styles (dupdate (v_styles v) st) v).

(** ** The mapping methods inherited from MutableMapping (see M_Grid.v) *)

Definition table_pop (v : pyval) : SM table cell :=
  t <- sget ;;
  value <- slift (table_getitem t v) ;;
  table_delitem v ;;;
  sret value.
Definition table_setdefault (v : pyval) (default : cell) : SM table cell :=
  fun t =>
    match table_getitem t v with
    | Ok c => (t, Ok c)
    | Err EKeyError => (table_setitem v default ;;; sret default) t
    | Err e => (t, Err e)
    end.
Definition table_update (pairs : list (pyval * cell)) : SM table unit :=
  siter (fun kv => table_setitem (fst kv) (snd kv)) pairs.
Definition table_popitem : SM table (pyval * cell) :=
  t <- sget ;;
  match table_iter t with
  | [] => sraise EKeyError
  | c :: _ =>
      value <- slift (table_getitem t (py_of_cell c)) ;;
      table_delitem (py_of_cell c) ;;;
      sret (py_of_cell c, value)
  end.

(** ** Histories *)

Inductive top : Type :=
| TSet (v : pyval) (c : cell)
| TDel (v : pyval)
| TMerge (start end_ : pyval) (app : option appender)
| TExpand (v : pyval) (width height : Z) (app : option appender)
| TFill (bb : box) (ct : content) (st : option styles) (na : nature)
| TInsert (ax : axis) (pos : Z) (ct : content) (st : option styles) (na : nature) (width height : Z)
| TReadViews (ax : axis)
| TReadView (ax : axis) (pos : Z)
| TSetNature (ax : axis) (pos : Z) (na : nature)
| TSetStyles (ax : axis) (pos : Z) (st : option styles)
| TUpdateStyles (ax : axis) (pos : Z) (st : styles)
| TPop (v : pyval)
| TSetdefault (v : pyval) (c : cell)
| TUpdate (pairs : list (pyval * cell))
| TPopitem.

Definition tstep (o : top) : SM table unit :=
  match o with
  | TSet v c => table_setitem v c
  | TDel v => table_delitem v
  | TMerge s e a => table_merge s e a
  | TExpand v w h a => table_expand v w h a
  | TFill bb ct st na => table_fill_missing bb ct st na
  | TInsert ax pos ct st na w h => insert_cell ax pos ct st na w h
  | TReadViews ax => unit_of (views_get ax)
  | TReadView ax pos => unit_of (view_get ax pos)
  | TSetNature ax pos na => view_set_nature ax pos na
  | TSetStyles ax pos st => view_set_styles ax pos st
  | TUpdateStyles ax pos st => view_update_styles ax pos st
  | TPop v => unit_of (table_pop v)
  | TSetdefault v c => unit_of (table_setdefault v c)
  | TUpdate pairs => table_update pairs
  | TPopitem => unit_of table_popitem
  end.

Definition trun (t : table) (h : list top) : table := fold_left (fun t o => fst (tstep o t)) h t.
