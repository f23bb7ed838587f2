(** * Model of benker/grid.py *)
From Verif Require Import Base M_Geometry M_Xml M_Cell.

(** The state of a Grid is the list [_cells]. *)
Definition grid := list cell.

Definition appender := content -> content -> result content.

(** CPython Lib/bisect.py bisect_left(a, x) with [lo = 0], [hi = len(a)]: the loop
    [while lo < hi: mid = (lo + hi) // 2; if a[mid] < x: lo = mid + 1 else: hi = mid].
    The fuel is the length of the list. *)
Fixpoint bisect_loop (fuel : nat) (a : list box) (x : box) (lo hi : nat) : result nat :=
  if Nat.ltb lo hi then
    match fuel with
    | O => Err EOutOfFuel
    | S fuel' =>
        let mid := Nat.div (lo + hi) 2 in
        match nth_error a mid with
        | None => Err EIndexError
        | Some b => if box_lt b x then bisect_loop fuel' a x (S mid) hi
                    else bisect_loop fuel' a x lo mid
        end
    end
  else Ok lo.

Definition bisect_left (a : list box) (x : box) : result nat :=
  bisect_loop (List.length a) a x 0 (List.length a).

(** grid.py:151-153 Grid.__contains__ *)
Definition grid_contains_c (g : grid) (c : coord) : bool :=
  existsb (fun cell => box_has (c_box cell) c) g.
Definition grid_contains (g : grid) (v : pyval) : result bool :=
  c <-? coord_from_value v ;; Ok (grid_contains_c g c).

(** grid.py:155-160 Grid.__getitem__ *)
Fixpoint grid_getitem_c (g : grid) (c : coord) : result cell :=
  match g with
  | [] => Err EKeyError
  | cell :: g' => if box_has (c_box cell) c then Ok cell else grid_getitem_c g' c
  end.
Definition grid_getitem (g : grid) (v : pyval) : result cell :=
  c <-? coord_from_value v ;; grid_getitem_c g c.

(** grid.py:162-168 Grid.__delitem__: [_cells.remove(cell)] removes the object found by the
    loop, at the position where it is found. *)
Fixpoint remove_first_covering (g : grid) (c : coord) : option grid :=
  match g with
  | [] => None
  | cell :: g' =>
      if box_has (c_box cell) c then Some g'
      else match remove_first_covering g' c with
           | Some g'' => Some (cell :: g'')
           | None => None
           end
  end.
Definition grid_delitem (v : pyval) : SM grid unit :=
  c <- slift (coord_from_value v) ;;
  self <- sget ;;
  match remove_first_covering self c with
  | Some g' => sput g'
  | None => sraise EKeyError
  end.

(** grid.py:176-178 and 259-261: insertion at the place given by bisect_left *)
Definition grid_insert_sorted (new_cell : cell) : SM grid unit :=
  self <- sget ;;
  b <- slift (box_new [PCoord (bmin (c_box new_cell))]) ;;
  index <- slift (bisect_left (map c_box self) b) ;;
  sput (insert_at self index new_cell).

(** grid.py:170-178 Grid.__setitem__ *)
Definition grid_setitem (v : pyval) (new : cell) : SM grid unit :=
  c <- slift (coord_from_value v) ;;
  new_cell <- slift (cell_move_to new (PCoord c)) ;;
  self <- sget ;;
  if existsb (fun cell => box_intersect (c_box cell) (c_box new_cell)) self
  then sraise EKeyError
  else grid_insert_sorted new_cell.

(** grid.py:130-145 Grid.__init__; an exception aborts the construction *)
Definition grid_new (cells : list cell) : result grid :=
  match siter (fun cell => grid_setitem (PCoord (c_min cell)) cell) cells [] with
  | (g, Ok _) => Ok g
  | (_, Err e) => Err e
  end.

(** grid.py:180-184 Grid.__len__, Grid.__iter__ *)
Definition grid_len (g : grid) : nat := List.length g.
Definition grid_iter (g : grid) : list cell := g.

(** grid.py:189-196 Grid.bounding_box *)
Definition grid_bounding_box (g : grid) : result (option box) :=
  match map c_box g with
  | [] => Ok None
  | b :: bs => bb <-? box_union b bs ;; Ok (Some bb)
  end.

(** grid.py:236-244, the first loop of Grid.merge: (merged_cells, unchanged_cells) *)
Fixpoint merge_split (new_box : box) (cells : list cell) : result (list cell * list cell) :=
  match cells with
  | [] => Ok ([], [])
  | c :: cells' =>
      if box_has_box new_box (c_box c) then
        mu <-? merge_split new_box cells' ;; Ok (c :: fst mu, snd mu)
      else if box_intersect (c_box c) new_box then Err EValueError
      else mu <-? merge_split new_box cells' ;; Ok (fst mu, c :: snd mu)
  end.

(** grid.py:251-257, one turn of the second loop of Grid.merge *)
Definition merge_content (app : appender) (a b : content) : result content :=
  match a with
  | CNone => Ok b
  | _ => match b with
         | CNone => Ok a
         | _ => app a b
         end
  end.

Fixpoint merge_cells (app : appender) (new_cell : cell) (cells : list cell) : result cell :=
  match cells with
  | [] => Ok new_cell
  | c :: cells' =>
      ct <-? merge_content app (c_content new_cell) (c_content c) ;;
      merge_cells app
        (MkCell ct (dupdate (c_styles new_cell) (c_styles c)) (c_nature new_cell) (c_box new_cell))
        cells'
  end.

(** grid.py:198-262 Grid.merge; [None] as appender means [operator.__add__] *)
Definition grid_merge (start end_ : pyval) (app : option appender) : SM grid cell :=
  start_coord <- slift (coord_from_value start) ;;
  end_coord <- slift (coord_from_value end_) ;;
  let app := match app with Some f => f | None => content_add end in
  new_box <- slift (box_new [PCoord start_coord; PCoord end_coord]) ;;
  self <- sget ;;
  mu <- slift (merge_split new_box self) ;;
  match fst mu with
  | [] => sraise EValueError
  | first :: merged_cells =>
      new_cell0 <- slift (cell_transform first (Some (PCoord (bmin new_box)))
                            (Some (PSize (box_size new_box)))) ;;
      new_cell <- slift (merge_cells app new_cell0 merged_cells) ;;
      sput (snd mu) ;;;
      grid_insert_sorted new_cell ;;;
      sret new_cell
  end.

(** grid.py:264-296 Grid.expand *)
Definition grid_expand (v : pyval) (width height : Z) (app : option appender) : SM grid cell :=
  self <- sget ;;
  c <- slift (grid_getitem self v) ;;
  let b := c_box c in
  end_ <- slift (coord_add (bmax b) (PSize (Size width height))) ;;
  grid_merge (PCoord (bmin b)) (PCoord end_) app.

(** grid.py:298-302 Grid.iter_rows: [itertools.groupby] on consecutive equal keys *)
Fixpoint group_by_y (cells : list cell) : list (list cell) :=
  match cells with
  | [] => []
  | c :: cells' =>
      match group_by_y cells' with
      | (d :: grp) :: groups =>
          if cy (c_min c) =? cy (c_min d) then (c :: d :: grp) :: groups
          else [c] :: (d :: grp) :: groups
      | groups => [c] :: groups
      end
  end.
Definition grid_iter_rows (g : grid) : list (list cell) := group_by_y g.

(** ** The mapping methods inherited from [collections.abc.MutableMapping] (CPython
    Lib/_collections_abc.py), running on the methods above.  Iterating a Grid yields cells, which
    are not coordinates. *)

Definition py_of_cell (_ : cell) : pyval := PObj.

(** Mapping.get *)
Definition grid_get (g : grid) (v : pyval) : result (option cell) :=
  match grid_getitem g v with
  | Ok c => Ok (Some c)
  | Err EKeyError => Ok None
  | Err e => Err e
  end.

(** MutableMapping.pop(key) without default *)
Definition grid_pop (v : pyval) : SM grid cell :=
  self <- sget ;;
  value <- slift (grid_getitem self v) ;;
  grid_delitem v ;;;
  sret value.

(** MutableMapping.setdefault(key, default) *)
Definition grid_setdefault (v : pyval) (default : cell) : SM grid cell :=
  fun self =>
    match grid_getitem self v with
    | Ok c => (self, Ok c)
    | Err EKeyError => (grid_setitem v default ;;; sret default) self
    | Err e => (self, Err e)
    end.

(** list(grid.items()): [for key in self: yield (key, self[key])] *)
Definition grid_items (g : grid) : result (list (pyval * cell)) :=
  rmap (fun c => v <-? grid_getitem g (py_of_cell c) ;; Ok (py_of_cell c, v)) g.

(** list(grid.values()): [for key in self: yield self[key]] *)
Definition grid_values (g : grid) : result (list cell) :=
  rmap (fun c => grid_getitem g (py_of_cell c)) g.

(** MutableMapping.popitem: KeyError when the iterator is empty *)
Definition grid_popitem : SM grid (pyval * cell) :=
  self <- sget ;;
  match self with
  | [] => sraise EKeyError
  | c :: _ =>
      value <- slift (grid_getitem self (py_of_cell c)) ;;
      grid_delitem (py_of_cell c) ;;;
      sret (py_of_cell c, value)
  end.

(** MutableMapping.clear: [try: while True: self.popitem() except KeyError: pass] *)
Fixpoint grid_clear_loop (fuel : nat) : SM grid unit :=
  fun self =>
    match fuel with
    | O => (self, Err EOutOfFuel)
    | S fuel' =>
        match grid_popitem self with
        | (g', Ok _) => grid_clear_loop fuel' g'
        | (g', Err EKeyError) => (g', Ok tt)
        | (g', Err e) => (g', Err e)
        end
    end.
Definition grid_clear : SM grid unit :=
  fun self => grid_clear_loop (S (List.length self)) self.

(** Mapping.__eq__ between two grids: [dict(self.items()) == dict(other.items())]; only its
    failure matters here, the comparison itself is left out. *)
Definition grid_eq_raises (g h : grid) : option exn :=
  match grid_items g with
  | Err e => Some e
  | Ok _ => match grid_items h with Err e => Some e | Ok _ => None end
  end.

(** MutableMapping.update(pairs): [for key, value in other: self[key] = value] *)
Definition grid_update (pairs : list (pyval * cell)) : SM grid unit :=
  siter (fun kv => grid_setitem (fst kv) (snd kv)) pairs.

(** MutableMapping.update(other) for a Mapping [other]: [for key in other: self[key] = other[key]] *)
Definition grid_update_grid (other : grid) : SM grid unit :=
  siter (fun c => v <- slift (grid_getitem other (py_of_cell c)) ;; grid_setitem (py_of_cell c) v) other.

(** ** Histories *)

Inductive gop : Type :=
| GSet (v : pyval) (c : cell)
| GDel (v : pyval)
| GMerge (start end_ : pyval) (app : option appender)
| GExpand (v : pyval) (width height : Z) (app : option appender)
| GPop (v : pyval)
| GSetdefault (v : pyval) (c : cell)
| GPopitem
| GClear
| GUpdate (pairs : list (pyval * cell))
| GUpdateGrid (other : grid).

Definition unit_of {S A} (m : SM S A) : SM S unit := m ;;; sret tt.

Definition gstep (o : gop) : SM grid unit :=
  match o with
  | GSet v c => grid_setitem v c
  | GDel v => grid_delitem v
  | GMerge s e a => unit_of (grid_merge s e a)
  | GExpand v w h a => unit_of (grid_expand v w h a)
  | GPop v => unit_of (grid_pop v)
  | GSetdefault v c => unit_of (grid_setdefault v c)
  | GPopitem => unit_of grid_popitem
  | GClear => grid_clear
  | GUpdate pairs => grid_update pairs
  | GUpdateGrid other => grid_update_grid other
  end.

(** The caller catches the exceptions and goes on. *)
Definition grun (g : grid) (h : list gop) : grid :=
  fold_left (fun g o => fst (gstep o g)) h g.
