(** * Identity of style dictionaries: benker/styled.py, cell.py and grid.py with references

    Here a dictionary, a styled object and a grid are heap cells, known by their index.  The other
    model files read the same code with values; theorem C13_grid_refines relates them.

    Style values are immutable (strings...): the copies of the code are shallow. *)
From Verif Require Import Base M_Geometry M_Xml M_Cell M_Grid.

(** A styled object.  For a Table, a RowView or a ColView only the styles and the nature are used. *)
Record obj := MkObj {
  o_content : content;
  o_styles : nat;          (* the attribute _styles: a reference *)
  o_nature : nature;
  o_box : box
}.

(** [h_own] and [h_made] are not data: they record which dictionaries and objects were created by
    the caller directly. *)
Record heap := MkHeap {
  h_dicts : list styles;
  h_objs : list obj;
  h_grids : list (list nat);    (* Grid._cells: references to cells *)
  h_own : list nat;
  h_made : list nat
}.
Definition heap0 : heap := MkHeap [] [] [] [] [].

Definition obj0 : obj := MkObj CNone 0 None (MkBox (Coord 1 1) (Coord 1 1)).
Definition dict_at (h : heap) (a : nat) : styles := nth a (h_dicts h) [].
Definition obj_at (h : heap) (i : nat) : obj := nth i (h_objs h) obj0.
Definition grid_at (h : heap) (g : nat) : list nat := nth g (h_grids h) [].

Definition with_dicts (h : heap) (d : list styles) : heap := MkHeap d (h_objs h) (h_grids h) (h_own h) (h_made h).
Definition with_objs (h : heap) (o : list obj) : heap := MkHeap (h_dicts h) o (h_grids h) (h_own h) (h_made h).
Definition with_grids (h : heap) (g : list (list nat)) : heap := MkHeap (h_dicts h) (h_objs h) g (h_own h) (h_made h).

(** [d.copy()] or [{}]: a new dictionary *)
Definition alloc_dict (d : styles) : SM heap nat :=
  fun h => (with_dicts h (h_dicts h ++ [d]), Ok (List.length (h_dicts h))).
Definition alloc_obj (o : obj) : SM heap nat :=
  fun h => (with_objs h (h_objs h ++ [o]), Ok (List.length (h_objs h))).
Definition alloc_grid (g : list nat) : SM heap nat :=
  fun h => (with_grids h (h_grids h ++ [g]), Ok (List.length (h_grids h))).

(** styled.py:84-88 the setter of [styles]: [{} if styles is None else styles.copy()] *)
Definition copy_styles (s : option nat) : SM heap nat :=
  h <- sget ;;
  alloc_dict (match s with None => [] | Some a => dict_at h a end).
Definition set_styles (i : nat) (s : option nat) : SM heap unit :=
  a <- copy_styles s ;;
  h <- sget ;;
  sput (with_objs h (upd_nth (h_objs h) i (fun o => MkObj (o_content o) a (o_nature o) (o_box o)))).

(** styled.py:50-68 Styled.__init__ of a Table (table.py:485) or a view (table.py:214) *)
Definition styled_new (s : option nat) (na : nature) : SM heap nat :=
  a <- copy_styles s ;;
  alloc_obj (MkObj CNone a na (o_box obj0)).

(** cell.py:207-210 Cell.__init__ *)
Definition hcell_new (ct : content) (s : option nat) (na : nature) (x y width height : Z) : SM heap nat :=
  a <- copy_styles s ;;
  b <- slift (box_new [PInt x; PInt y; PInt (x + width - 1); PInt (y + height - 1)]) ;;
  alloc_obj (MkObj ct a na b).

(** cell.py:292-315 Cell.transform: [Cell(self.content, styles=self.styles, ...)] *)
Definition hcell_transform (i : nat) (co sz : option pyval) : SM heap nat :=
  h <- sget ;;
  let o := obj_at h i in
  b <- slift (box_transform (o_box o) co sz) ;;
  hcell_new (o_content o) (Some (o_styles o)) (o_nature o)
    (cx (bmin b)) (cy (bmin b)) (box_width b) (box_height b).

Definition boxes_at (h : heap) (ids : list nat) : list box := map (fun i => o_box (obj_at h i)) ids.
Definition set_grid (g : nat) (ids : list nat) : SM heap unit :=
  h <- sget ;; sput (with_grids h (upd_nth (h_grids h) g (fun _ => ids))).

(** grid.py:176-178, 259-261 *)
Definition insert_sorted (h : heap) (ids : list nat) (n : nat) : result (list nat) :=
  b <-? box_new [PCoord (bmin (o_box (obj_at h n)))] ;;
  index <-? bisect_left (boxes_at h ids) b ;;
  Ok (insert_at ids index n).

(** grid.py:170-178 Grid.__setitem__ on a list of references *)
Definition cells_setitem (ids : list nat) (v : pyval) (i : nat) : SM heap (list nat) :=
  c <- slift (coord_from_value v) ;;
  n <- hcell_transform i (Some (PCoord c)) None ;;
  h <- sget ;;
  if existsb (fun j => box_intersect (o_box (obj_at h j)) (o_box (obj_at h n))) ids
  then sraise EKeyError
  else slift (insert_sorted h ids n).
Definition hgrid_setitem (g : nat) (v : pyval) (i : nat) : SM heap unit :=
  h <- sget ;;
  ids <- cells_setitem (grid_at h g) v i ;;
  set_grid g ids.

(** grid.py:130-145 Grid.__init__ *)
Fixpoint cells_fill (ids : list nat) (cells : list nat) : SM heap (list nat) :=
  match cells with
  | [] => sret ids
  | i :: cells' =>
      h <- sget ;;
      ids' <- cells_setitem ids (PCoord (bmin (o_box (obj_at h i)))) i ;;
      cells_fill ids' cells'
  end.
Definition hgrid_new (cells : list nat) : SM heap nat :=
  ids <- cells_fill [] cells ;;
  alloc_grid ids.

(** grid.py:155-160 Grid.__getitem__: the reference to the cell of the grid *)
Fixpoint find_covering (h : heap) (ids : list nat) (c : coord) : result nat :=
  match ids with
  | [] => Err EKeyError
  | i :: ids' => if box_has (o_box (obj_at h i)) c then Ok i else find_covering h ids' c
  end.

(** grid.py:162-168 Grid.__delitem__ *)
Fixpoint del_covering (h : heap) (ids : list nat) (c : coord) : option (list nat) :=
  match ids with
  | [] => None
  | i :: ids' =>
      if box_has (o_box (obj_at h i)) c then Some ids'
      else match del_covering h ids' c with Some l => Some (i :: l) | None => None end
  end.
Definition hgrid_delitem (g : nat) (v : pyval) : SM heap unit :=
  c <- slift (coord_from_value v) ;;
  h <- sget ;;
  match del_covering h (grid_at h g) c with
  | Some ids => set_grid g ids
  | None => sraise EKeyError
  end.

(** grid.py:236-244 *)
Fixpoint split_ids (h : heap) (new_box : box) (ids : list nat) : result (list nat * list nat) :=
  match ids with
  | [] => Ok ([], [])
  | i :: ids' =>
      if box_has_box new_box (o_box (obj_at h i)) then
        mu <-? split_ids h new_box ids' ;; Ok (i :: fst mu, snd mu)
      else if box_intersect (o_box (obj_at h i)) new_box then Err EValueError
      else mu <-? split_ids h new_box ids' ;; Ok (fst mu, i :: snd mu)
  end.

(** grid.py:251-257: [new_cell.content = ...], [new_cell.styles.update(cell.styles)] *)
Definition set_content (i : nat) (ct : content) : SM heap unit :=
  h <- sget ;;
  sput (with_objs h (upd_nth (h_objs h) i (fun o => MkObj ct (o_styles o) (o_nature o) (o_box o)))).
Definition update_dict (a : nat) (f : styles -> styles) : SM heap unit :=
  h <- sget ;; sput (with_dicts h (upd_nth (h_dicts h) a f)).
Fixpoint absorb (app : appender) (n : nat) (ids : list nat) : SM heap unit :=
  match ids with
  | [] => sret tt
  | i :: ids' =>
      h <- sget ;;
      ct <- slift (merge_content app (o_content (obj_at h n)) (o_content (obj_at h i))) ;;
      set_content n ct ;;;
      update_dict (o_styles (obj_at h n)) (fun d => dupdate d (dict_at h (o_styles (obj_at h i)))) ;;;
      absorb app n ids'
  end.

(** grid.py:198-262 Grid.merge *)
Definition hgrid_merge (g : nat) (start end_ : pyval) (app : option appender) : SM heap nat :=
  start_coord <- slift (coord_from_value start) ;;
  end_coord <- slift (coord_from_value end_) ;;
  let app := match app with Some f => f | None => content_add end in
  new_box <- slift (box_new [PCoord start_coord; PCoord end_coord]) ;;
  h <- sget ;;
  mu <- slift (split_ids h new_box (grid_at h g)) ;;
  match fst mu with
  | [] => sraise EValueError
  | first :: merged =>
      n <- hcell_transform first (Some (PCoord (bmin new_box))) (Some (PSize (box_size new_box))) ;;
      absorb app n merged ;;;
      set_grid g (snd mu) ;;;
      h' <- sget ;;
      ids <- slift (insert_sorted h' (snd mu) n) ;;
      set_grid g ids ;;;
      sret n
  end.

(** grid.py:264-296 Grid.expand *)
Definition hgrid_expand (g : nat) (v : pyval) (width height : Z) (app : option appender) : SM heap nat :=
  h <- sget ;;
  c <- slift (coord_from_value v) ;;
  i <- slift (find_covering h (grid_at h g) c) ;;
  let b := o_box (obj_at h i) in
  end_ <- slift (coord_add (bmax b) (PSize (Size width height))) ;;
  hgrid_merge g (PCoord (bmin b)) (PCoord end_) app.

(** ** What a program can do *)

Inductive hop : Type :=
| HDict (d : styles)                                   (* a dictionary of the caller *)
| HUpdate (a : nat) (f : styles -> styles)             (* any change of a dictionary, through any reference *)
| HCell (ct : content) (s : option nat) (na : nature) (x y w h : Z)
| HStyled (s : option nat) (na : nature)               (* Table(...), a row or a column *)
| HSetStyles (i : nat) (s : option nat)                (* obj.styles = s *)
| HSetContent (i : nat) (ct : content)                 (* cell.content = ct *)
| HSetNature (i : nat) (na : nature)                   (* obj.nature = na *)
| HTransform (i : nat) (co sz : option pyval)          (* transform, move_to, resize *)
| HGrid (cells : list nat)
| HSet (g : nat) (v : pyval) (i : nat)
| HDel (g : nat) (v : pyval)
| HMerge (g : nat) (start end_ : pyval) (app : option appender)
| HExpand (g : nat) (v : pyval) (w h : Z) (app : option appender).

Definition set_nature (i : nat) (na : nature) : SM heap unit :=
  h <- sget ;;
  sput (with_objs h (upd_nth (h_objs h) i (fun o => MkObj (o_content o) (o_styles o) na (o_box o)))).

Definition record_own (m : SM heap nat) : SM heap unit :=
  a <- m ;; h <- sget ;;
  sput (MkHeap (h_dicts h) (h_objs h) (h_grids h) (a :: h_own h) (h_made h)).
Definition record_made (m : SM heap nat) : SM heap unit :=
  a <- m ;; h <- sget ;;
  sput (MkHeap (h_dicts h) (h_objs h) (h_grids h) (h_own h) (a :: h_made h)).
Definition ignore {A} (m : SM heap A) : SM heap unit := m ;;; sret tt.

(** A program only uses references which exist. *)
Definition ref_ok {A} (l : list A) (i : nat) : bool := Nat.ltb i (List.length l).
Definition oref_ok {A} (l : list A) (o : option nat) : bool := match o with Some i => ref_ok l i | None => true end.
Definition refs_ok (o : hop) (h : heap) : bool :=
  match o with
  | HDict _ => true
  | HUpdate a _ => ref_ok (h_dicts h) a
  | HCell _ s _ _ _ _ _ | HStyled s _ => oref_ok (h_dicts h) s
  | HSetStyles i s => ref_ok (h_objs h) i && oref_ok (h_dicts h) s
  | HSetContent i _ | HSetNature i _ | HTransform i _ _ => ref_ok (h_objs h) i
  | HGrid cells => forallb (ref_ok (h_objs h)) cells
  | HSet g _ i => ref_ok (h_grids h) g && ref_ok (h_objs h) i
  | HDel g _ | HMerge g _ _ _ | HExpand g _ _ _ _ => ref_ok (h_grids h) g
  end.

Definition hexec (o : hop) : SM heap unit :=
  match o with
  | HDict d => record_own (alloc_dict d)
  | HUpdate a f => update_dict a f
  | HCell ct s na x y w h => record_made (hcell_new ct s na x y w h)
  | HStyled s na => record_made (styled_new s na)
  | HSetStyles i s => set_styles i s
  | HSetContent i ct => set_content i ct
  | HSetNature i na => set_nature i na
  | HTransform i co sz => record_made (hcell_transform i co sz)
  | HGrid cells => ignore (hgrid_new cells)
  | HSet g v i => hgrid_setitem g v i
  | HDel g v => hgrid_delitem g v
  | HMerge g s e app => ignore (hgrid_merge g s e app)
  | HExpand g v w h app => ignore (hgrid_expand g v w h app)
  end.
Definition hstep (o : hop) : SM heap unit :=
  fun h => if refs_ok o h then hexec o h else (h, Err EAttributeError).

Definition hrun (h : heap) (ops : list hop) : heap := fold_left (fun h o => fst (hstep o h)) ops h.
