(** * Specification: a drawing made with given tiles *)
From Verif Require Import Base M_Geometry M_Xml M_Cell M_Grid S_Geometry S_Grid S_Drawing.

Definition no_break (l : list ascii) : Prop := Forall (fun a => ~ line_break a) l.
(** The rows of a tile: the lines of its text which are not empty.  The lines end with a newline (for the last one: or not);
    no other line break is in the text. *)
Inductive rows_are : list ascii -> list (list ascii) -> Prop :=
| rows_none : rows_are [] []
| rows_last l : l <> [] -> no_break l -> rows_are l [l]
| rows_blank s rows : rows_are s rows -> rows_are (ascii_of_nat 10 :: s) rows
| rows_more l s rows : l <> [] -> no_break l -> rows_are s rows -> rows_are (l ++ ascii_of_nat 10 :: s) (l :: rows).

Definition placeholder : list ascii := repeat "X"%char 9.
(** [filled shown row out]: [out] is [row] where each placeholder, from left to right, is replaced by [shown] *)
Inductive filled (shown : list ascii) : list ascii -> list ascii -> Prop :=
| filled_end : filled shown [] []
| filled_here rest out : filled shown rest out -> filled shown (placeholder ++ rest) (shown ++ out)
| filled_other c rest out : (forall r, c :: rest <> placeholder ++ r) -> filled shown rest out -> filled shown (c :: rest) (c :: out).

(** A usable set of tiles: a dictionary which is not empty *)
Definition usable (tiles : list ((bool * bool * bool * bool) * string)) : Prop :=
  tiles <> [] /\ NoDup (map fst tiles) /\ forall key tile, In (key, tile) tiles -> exists rows, rows_are (list_ascii_of_string tile) rows.

(** [tile_at tiles g bb k drawn]: the rows drawn at coordinate [k]: those of the tile which has the borders of what is seen
    there, with the text where the centre is, and spaces elsewhere *)
Definition tile_at (tiles : list ((bool * bool * bool * bool) * string)) (g : grid) (bb : box) (k : coord) (drawn : list (list ascii)) : Prop :=
  exists b text tile rows shown,
    seen_at g k b text /\
    In ((cx (bmin b) =? cx k, cy (bmin b) =? cy k, cx (bmax bb) =? cx k, cy (bmax bb) =? cy k), tile) tiles /\
    rows_are (list_ascii_of_string tile) rows /\
    ((k = text_place b /\ centred text shown) \/ (k <> text_place b /\ shown = repeat " "%char 9)) /\
    Forall2 (filled shown) rows drawn.

(** The text of a drawing; without any line it is empty *)
Definition drawing_of (pic : list (list ascii)) (s : string) : Prop := (pic = [] /\ s = EmptyString) \/ text_of_lines pic s.
Definition columns_of (bb : box) : list Z := zrange (cx (bmin bb)) (cx (bmax bb) + 1).
Definition rows_of (bb : box) : list Z := zrange (cy (bmin bb)) (cy (bmax bb) + 1).

(** The lines of a row of the grid: as many as the first tile of the row has, each one made of the tiles side by side *)
Definition row_drawn (tiles : list ((bool * bool * bool * bool) * string)) (g : grid) (bb : box) (y : Z) (block : list (list ascii)) : Prop :=
  exists drawn first others, Forall2 (fun x t => tile_at tiles g bb (Coord x y) t) (columns_of bb) drawn /\ drawn = first :: others /\
    List.length block = List.length first /\
    forall i line, nth_error block i = Some line -> exists parts, Forall2 (fun t p => nth_error t i = Some p) drawn parts /\ line = List.concat parts.

(** All the tiles are there, with a size which only depends on the border at the bottom (for the height) and at the right
    (for the width) *)
Definition regular (tiles : list ((bool * bool * bool * bool) * string)) (h w : bool -> nat) : Prop :=
  (forall key, exists tile, In (key, tile) tiles) /\
  forall left top right bottom tile rows, In ((left, top, right, bottom), tile) tiles -> rows_are (list_ascii_of_string tile) rows ->
    List.length rows = h bottom /\ Forall (fun r => List.length r = w right) rows.
