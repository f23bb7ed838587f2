(** * Specification vocabulary for tables and their views *)
From Verif Require Import Base M_Geometry M_Xml M_Cell M_Grid M_Table S_Geometry S_Grid.

(** The cell starts on row (column) [p]; it has coordinates on row (column) [p]. *)
Definition starts_at (ax : axis) (p : Z) (c : cell) : Prop :=
  match ax with
  | Rows => cy (bmin (c_box c)) = p
  | Cols => cx (bmin (c_box c)) = p
  end.
Definition spans (ax : axis) (p : Z) (c : cell) : Prop :=
  match ax with
  | Rows => cy (bmin (c_box c)) <= p <= cy (bmax (c_box c))
  | Cols => cx (bmin (c_box c)) <= p <= cx (bmax (c_box c))
  end.

(** The tables a program can reach: built by the constructor, then any sequence of calls, failing or
    not. *)
Inductive treachable : table -> Prop :=
| treach_new cells st na t : table_new cells st na = Ok t -> treachable t
| treach_step t o : treachable t -> treachable (fst (tstep o t)).

(** [reads ax p t v]: [table.rows[p]] (or [table.cols[p]]) gives the view [v]. *)
Definition reads (ax : axis) (p : Z) (t : table) (v : view) : Prop := snd (view_get ax p t) = Ok v.

(** [view_count ax t n]: [len(table.rows)] (or [len(table.cols)]) is [n]. *)
Definition view_count (ax : axis) (t : table) (n : Z) : Prop :=
  exists vs, snd (views_get ax t) = Ok vs /\ n = Z.of_nat (List.length vs).

(** Last row (column) of the table: 0 for an empty table *)
Definition last_pos (ax : axis) (t : table) (n : Z) : Prop :=
  (t_grid t = [] /\ n = 0) \/
  (exists bb, grid_bounding_box (t_grid t) = Ok (Some bb) /\
              n = match ax with Rows => cy (bmax bb) | Cols => cx (bmax bb) end).

(** Cells listed from left to right (for a column: from top to bottom) *)
Definition across (ax : axis) (c : cell) : Z :=
  match ax with Rows => cx (bmin (c_box c)) | Cols => cy (bmin (c_box c)) end.
Definition left_to_right (ax : axis) (l : list cell) : Prop :=
  StronglySorted (fun a b => across ax a < across ax b) l.

(** A coordinate of the table without cell *)
Definition free (g : grid) (c : coord) : Prop := forall d, In d g -> ~ covers (c_box d) c.

(** [table.rows] (or [table.cols]) was read at least once. *)
Definition materialised (ax : axis) (t : table) : Prop := t_views ax t <> None.

(** The calls which rebuild the views when they succeed *)
Definition rebuilds (o : top) : bool :=
  match o with TDel _ | TMerge _ _ _ | TExpand _ _ _ _ | TPop _ => true | _ => false end.

(** The calls which set attributes of the view at [p] *)
Definition sets_attributes (ax : axis) (p : Z) (o : top) : Prop :=
  match o with
  | TSetNature ax' p' _ | TSetStyles ax' p' _ | TUpdateStyles ax' p' _ => ax' = ax /\ (p' = p \/ p' <= 0)
  | _ => False
  end.

(** The calls made by the parsers to build a table row by row *)
Definition row_wise (o : top) : Prop :=
  match o with
  | TInsert Rows _ _ _ _ _ _ | TExpand _ _ _ _ | TReadViews _ | TReadView _ _
  | TSetNature _ _ _ | TSetStyles _ _ _ | TUpdateStyles _ _ _ => True
  | TFill bb _ _ _ => cx (bmin bb) = 1
  | _ => False
  end.

(** A new cell of one coordinate; the place taken by a cell of [w] columns and [h] rows inserted in
    row (column) [p] at column (row) [i] *)
Definition unit_cell (ct : content) (s : option styles) (na : nature) (k : coord) : cell :=
  MkCell ct (match s with Some s => s | None => [] end) na (MkBox k k).
Definition seat (ax : axis) (p i w h : Z) : box :=
  match ax with
  | Rows => MkBox (Coord i p) (Coord (i + w - 1) (p + h - 1))
  | Cols => MkBox (Coord p i) (Coord (p + w - 1) (i + h - 1))
  end.
Definition place (ax : axis) (p i : Z) : coord :=
  match ax with Rows => Coord i p | Cols => Coord p i end.
(** [i] is the first free place of row (column) [p] *)
Definition first_free (ax : axis) (p i : Z) (g : grid) : Prop :=
  1 <= i /\ free g (place ax p i) /\ forall j, 1 <= j < i -> ~ free g (place ax p j).

(** The calls a plain grid receives when the table receives the call [o] *)
Inductive calls (t : table) : top -> list gop -> Prop :=
| call_set v c : calls t (TSet v c) [GSet v c]
| call_del v : calls t (TDel v) [GDel v]
| call_merge s e a : calls t (TMerge s e a) [GMerge s e a]
| call_expand v w h a : calls t (TExpand v w h a) [GExpand v w h a]
| call_pop v : calls t (TPop v) [GPop v]
| call_setdefault v c : calls t (TSetdefault v c) [GSetdefault v c]
| call_update pairs : calls t (TUpdate pairs) [GUpdate pairs]
| call_popitem : calls t TPopitem [GPopitem]
| call_fill bb ct st na ks :
    NoDup ks -> (forall k, In k ks <-> covers bb k /\ free (t_grid t) k) ->
    calls t (TFill bb ct st na)
      (map (fun k => GSet (PTuple [PInt (cx k); PInt (cy k)]) (unit_cell ct st na k)) ks)
| call_insert ax p ct st na w h i na' :
    first_free ax p i (t_grid t) -> 1 <= w -> 1 <= h ->
    (forall n, na = Some n -> na' = na) -> (na = None -> forall v, reads ax p t v -> na' = v_nature v) ->
    calls t (TInsert ax p ct st na w h)
      [GSet (PCoord (place ax p i))
         (MkCell ct (match st with Some st => st | None => [] end) na' (seat ax p i w h))]
| call_insert_bad ax p ct st na w h : ~ (1 <= w /\ 1 <= h) -> calls t (TInsert ax p ct st na w h) []
| call_read_views ax : calls t (TReadViews ax) []
| call_read_view ax p : calls t (TReadView ax p) []
| call_nature ax p na : calls t (TSetNature ax p na) []
| call_styles ax p st : calls t (TSetStyles ax p st) []
| call_update_styles ax p st : calls t (TUpdateStyles ax p st) [].

(** Boxes and positions as the library accepts them *)
Definition proper (o : top) : Prop :=
  match o with
  | TFill bb _ _ _ => valid bb
  | TInsert _ p _ _ _ _ _ => 1 <= p
  | _ => True
  end.

(** The views at every position list each cell exactly once. *)
Definition views_exact (ax : axis) (t : table) : Prop :=
  forall p v, 1 <= p -> reads ax p t v ->
  (exists l, selects (starts_at ax p) (table_iter t) l /\ Permutation (v_owned v) l) /\
  (exists l, selects (spans ax p) (table_iter t) l /\ Permutation (v_caught v) l).
