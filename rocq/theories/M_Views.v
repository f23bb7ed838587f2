(** * Model of the view objects of benker/table.py

    In M_Table.v a row is reached through [table.rows[pos]].  A program may also keep the object it
    got, [row = table.rows[2]], and use it later.  Here the views are objects with an identity: each
    axis has a heap of all the views ever built, and [table.rows.views] is a list of references into
    this heap.  A reference is the rank of the object in its heap. *)
From Verif Require Import Base M_Geometry M_Xml M_Cell M_Grid M_Table.

(** A heap and a list of references into it: table.py:79-82, the attribute [views] of a list *)
Definition shelf : Type := list view * list nat.

(** table.py:130-135 TableViewList._fit_to_size: [del views[size:]] drops references, the objects
    stay as they are; the new views are new objects *)
Definition o_fit (size : Z) (truncate : bool) (s : shelf) : shelf :=
  let (heap, refs) := s in
  let refs := if truncate then firstn (Z.to_nat size) refs else refs in
  let fresh := map (fun index => new_view (index + 1)) (zrange (Z.of_nat (List.length refs)) size) in
  (heap ++ fresh, refs ++ seq (List.length heap) (List.length fresh)).

(** table.py:85-103 TableViewList.adopt_cell *)
Fixpoint o_adopt_at (ax : axis) (c : cell) (positions : list Z) (s : shelf) : result shelf :=
  match positions with
  | [] => Ok s
  | pos :: positions' =>
      r <-? py_nth (snd s) (pos - 1) ;;
      o_adopt_at ax c positions' (upd_nth (fst s) r (view_adopt ax c), snd s)
  end.
Definition o_adopt (ax : axis) (c : cell) (s : shelf) : result shelf :=
  o_adopt_at ax c (zrange (ax_lo ax (c_box c)) (ax_hi ax (c_box c) + 1))
    (o_fit (ax_hi ax (c_box c)) false s).
Fixpoint o_adopt_all (ax : axis) (cells : list cell) (s : shelf) : result shelf :=
  match cells with
  | [] => Ok s
  | c :: cells' => s' <-? o_adopt ax c s ;; o_adopt_all ax cells' s'
  end.

(** table.py:123-125: the views which are still in the list are emptied *)
Definition o_reset (s : shelf) : shelf :=
  (fold_left (fun heap r => upd_nth heap r view_reset) (snd s) (fst s), snd s).

(** table.py:105-128 TableViewList.refresh_all *)
Definition o_refresh (ax : axis) (g : grid) (s : shelf) : result shelf :=
  bb <-? grid_bounding_box g ;;
  match bb with
  | None => Ok (fst s, [])
  | Some bb => o_adopt_all ax g (o_reset (o_fit (ax_hi ax bb) true s))
  end.

(** table.py:468-486 Table: the grid, the two heaps with the two view lists (absent until they are
    read) and the attributes of the table *)
Record otable := MkO {
  o_grid : grid;
  o_rheap : list view;
  o_rows : option (list nat);
  o_cheap : list view;
  o_cols : option (list nat);
  o_styles : styles;
  o_nature : nature
}.

Definition o_heap (ax : axis) (o : otable) : list view :=
  match ax with Rows => o_rheap o | Cols => o_cheap o end.
Definition o_refs (ax : axis) (o : otable) : option (list nat) :=
  match ax with Rows => o_rows o | Cols => o_cols o end.
Definition o_set_heap (ax : axis) (heap : list view) (o : otable) : otable :=
  match ax with
  | Rows => MkO (o_grid o) heap (o_rows o) (o_cheap o) (o_cols o) (o_styles o) (o_nature o)
  | Cols => MkO (o_grid o) (o_rheap o) (o_rows o) heap (o_cols o) (o_styles o) (o_nature o)
  end.
Definition o_set (ax : axis) (s : shelf) (o : otable) : otable :=
  match ax with
  | Rows => MkO (o_grid o) (fst s) (Some (snd s)) (o_cheap o) (o_cols o) (o_styles o) (o_nature o)
  | Cols => MkO (o_grid o) (o_rheap o) (o_rows o) (fst s) (Some (snd s)) (o_styles o) (o_nature o)
  end.

Definition o_new (cells : list cell) (st : option styles) (na : nature) : result otable :=
  g <-? grid_new cells ;; Ok (MkO g [] None [] None (styles_of st) na).

(** table.py:175-180 ViewsProperty.__get__ and 69-83 TableViewList.__init__ *)
Definition o_get (ax : axis) : SM otable shelf :=
  o <- sget ;;
  match o_refs ax o with
  | Some refs => sret (o_heap ax o, refs)
  | None =>
      s <- slift (o_refresh ax (o_grid o) (o_heap ax o, [])) ;;
      sput (o_set ax s o) ;;;
      sret s
  end.

Definition o_put (ax : axis) (s : shelf) : SM otable unit :=
  o <- sget ;; sput (o_set ax s o).

(** table.py:137-139 TableViewList.__getitem__: the object *)
Definition o_view (ax : axis) (pos : Z) : SM otable nat :=
  s <- o_get ax ;;
  let s' := o_fit pos false s in
  o_put ax s' ;;;
  slift (py_nth (snd s') (pos - 1)).

(** table.py:501-510 Table._refresh_views *)
Definition o_refresh_cell (c : cell) : SM otable unit :=
  s <- o_get Rows ;;
  s' <- slift (o_adopt Rows c s) ;;
  o_put Rows s' ;;;
  s <- o_get Cols ;;
  s' <- slift (o_adopt Cols c s) ;;
  o_put Cols s'.
Definition o_refresh_all : SM otable unit :=
  s <- o_get Rows ;;
  o <- sget ;;
  s' <- slift (o_refresh Rows (o_grid o) s) ;;
  o_put Rows s' ;;;
  s <- o_get Cols ;;
  s' <- slift (o_refresh Cols (o_grid o) s) ;;
  o_put Cols s'.

(** A call on [self._grid] *)
Definition o_on_grid {A} (m : SM grid A) : SM otable A :=
  fun o => let (g', r) := m (o_grid o) in
           (MkO g' (o_rheap o) (o_rows o) (o_cheap o) (o_cols o) (o_styles o) (o_nature o), r).

(** table.py:524-537 Table.__setitem__, 539-547 __delitem__, 567-569 merge, 571-573 expand *)
Definition o_setitem (v : pyval) (c : cell) : SM otable unit :=
  o_on_grid (grid_setitem v c) ;;;
  o <- sget ;;
  c' <- slift (grid_getitem (o_grid o) v) ;;
  o_refresh_cell c'.
Definition o_delitem (v : pyval) : SM otable unit :=
  o_on_grid (grid_delitem v) ;;; o_refresh_all.
Definition o_merge (start end_ : pyval) (app : option appender) : SM otable unit :=
  o_on_grid (grid_merge start end_ app) ;;; o_refresh_all.
Definition o_expand (v : pyval) (width height : Z) (app : option appender) : SM otable unit :=
  o_on_grid (grid_expand v width height app) ;;; o_refresh_all.

(** table.py:575-612 Table.fill_missing *)
Definition o_fill_one (ct : content) (st : option styles) (na : nature) (xy : Z * Z) : SM otable unit :=
  o <- sget ;;
  b <- slift (grid_contains (o_grid o) (PTuple [PInt (fst xy); PInt (snd xy)])) ;;
  if b then sret tt
  else
    c <- slift (cell_new ct st na (fst xy) (snd xy) 1 1) ;;
    o_setitem (PTuple [PInt (fst xy); PInt (snd xy)]) c.
Definition o_fill_missing (bb : box) (ct : content) (st : option styles) (na : nature) : SM otable unit :=
  siter (o_fill_one ct st na) (fill_positions bb).

(** The object behind a reference (a program only holds references it was given) *)
Definition o_deref (ax : axis) (r : nat) : SM otable view :=
  o <- sget ;;
  match nth_error (o_heap ax o) r with Some v => sret v | None => sraise EAttributeError end.

(** table.py:286-335 RowView.insert_cell, 354-403 ColView.insert_cell: [row.insert_cell(...)] *)
Definition o_insert (ax : axis) (r : nat) (ct : content) (st : option styles) (na : nature)
    (width height : Z) : SM otable unit :=
  v <- o_deref ax r ;;
  i <- slift (next_free ax v) ;;
  let co := at_pos ax (v_pos v) i in
  c <- slift (cell_new ct st (inherit na (v_nature v)) (cx co) (cy co) width height) ;;
  o_setitem (PCoord (c_min c)) c.

(** [row.nature = ...], [row.styles = ...] (styled.py:77-85), [row.styles.update(...)] *)
Definition o_modify (ax : axis) (r : nat) (f : view -> view) : SM otable unit :=
  o_deref ax r ;;;
  o <- sget ;;
  sput (o_set_heap ax (upd_nth (o_heap ax o) r f) o).

(** The mapping methods inherited from MutableMapping (see M_Grid.v) *)
Definition o_pop (v : pyval) : SM otable cell :=
  o <- sget ;;
  value <- slift (grid_getitem (o_grid o) v) ;;
  o_delitem v ;;;
  sret value.
Definition o_setdefault (v : pyval) (default : cell) : SM otable cell :=
  fun o =>
    match grid_getitem (o_grid o) v with
    | Ok c => (o, Ok c)
    | Err EKeyError => (o_setitem v default ;;; sret default) o
    | Err e => (o, Err e)
    end.
Definition o_update (pairs : list (pyval * cell)) : SM otable unit :=
  siter (fun kv => o_setitem (fst kv) (snd kv)) pairs.
Definition o_popitem : SM otable (pyval * cell) :=
  o <- sget ;;
  match grid_iter (o_grid o) with
  | [] => sraise EKeyError
  | c :: _ =>
      value <- slift (grid_getitem (o_grid o) (py_of_cell c)) ;;
      o_delitem (py_of_cell c) ;;;
      sret (py_of_cell c, value)
  end.

(** ** Histories: calls on the table, and calls on an object which was kept *)

Inductive oop : Type :=
| OTable (op : top)
| OInsert (ax : axis) (r : nat) (ct : content) (st : option styles) (na : nature) (width height : Z)
| OSetNature (ax : axis) (r : nat) (na : nature)
| OSetStyles (ax : axis) (r : nat) (st : option styles)
| OUpdateStyles (ax : axis) (r : nat) (st : styles).

Definition otstep (op : top) : SM otable unit :=
  match op with
  | TSet v c => o_setitem v c
  | TDel v => o_delitem v
  | TMerge s e a => o_merge s e a
  | TExpand v w h a => o_expand v w h a
  | TFill bb ct st na => o_fill_missing bb ct st na
  | TInsert ax pos ct st na w h => r <- o_view ax pos ;; o_insert ax r ct st na w h
  | TReadViews ax => unit_of (o_get ax)
  | TReadView ax pos => unit_of (o_view ax pos)
  | TSetNature ax pos na => r <- o_view ax pos ;; o_modify ax r (with_nature na)
  | TSetStyles ax pos st => r <- o_view ax pos ;; o_modify ax r (with_styles (styles_of st))
  | TUpdateStyles ax pos st =>
      r <- o_view ax pos ;; o_modify ax r (fun v => with_styles (dupdate (v_styles v) st) v)
  | TPop v => unit_of (o_pop v)
  | TSetdefault v c => unit_of (o_setdefault v c)
  | TUpdate pairs => o_update pairs
  | TPopitem => unit_of o_popitem
  end.

Definition ostep (op : oop) : SM otable unit :=
  match op with
  | OTable op => otstep op
  | OInsert ax r ct st na w h => o_insert ax r ct st na w h
  | OSetNature ax r na => o_modify ax r (with_nature na)
  | OSetStyles ax r st => o_modify ax r (with_styles (styles_of st))
  | OUpdateStyles ax r st => o_modify ax r (fun v => with_styles (dupdate (v_styles v) st) v)
  end.

Definition orun (o : otable) (h : list oop) : otable := fold_left (fun o op => fst (ostep op o)) h o.
