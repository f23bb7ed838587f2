(** * Specification vocabulary for coordinates and boxes (no helper of the model is used besides
    the data types and projections) *)
From Verif Require Import Base M_Geometry.

(** A coordinate belongs to the area of a box. *)
Definition covers (b : box) (c : coord) : Prop :=
  cx (bmin b) <= cx c <= cx (bmax b) /\ cy (bmin b) <= cy c <= cy (bmax b).

(** A box of positive coordinates which is not empty. *)
Definition valid (b : box) : Prop :=
  1 <= cx (bmin b) <= cx (bmax b) /\ 1 <= cy (bmin b) <= cy (bmax b).

(** Two areas have a common coordinate. *)
Definition overlap (a b : box) : Prop := exists c, covers a c /\ covers b c.

(** Every coordinate of [a] is in [b]. *)
Definition subarea (a b : box) : Prop := forall c, covers a c -> covers b c.

(** The number an operand item contributes: ints and bools are numbers. *)
Inductive number : pyval -> Z -> Prop :=
| num_int z : number (PInt z) z
| num_true : number (PBool true) 1
| num_false : number (PBool false) 0.

(** The translation described by an operand of [+] and [-]. *)
Inductive offset : pyval -> Z -> Z -> Prop :=
| off_size w h : offset (PSize (Size w h)) w h
| off_int z : offset (PInt z) z z
| off_tuple v0 v1 rest dx dy :
    number v0 dx -> number v1 dy -> offset (PTuple (v0 :: v1 :: rest)) dx dy.

(** Values accepted where a coordinate (resp. a size) is expected. *)
Inductive denotes_coord : pyval -> coord -> Prop :=
| dc_coord c : denotes_coord (PCoord c) c
| dc_tuple x y : denotes_coord (PTuple [PInt x; PInt y]) (Coord x y).
Inductive denotes_size : pyval -> size -> Prop :=
| ds_size s : denotes_size (PSize s) s
| ds_tuple w h : denotes_size (PTuple [PInt w; PInt h]) (Size w h).

(** The documented argument forms of the Box constructor, with the corners they describe
    (left, top, right, bottom). *)
Inductive box_form : list pyval -> Z -> Z -> Z -> Z -> Prop :=
| bf_coords x1 y1 x2 y2 : box_form [PCoord (Coord x1 y1); PCoord (Coord x2 y2)] x1 y1 x2 y2
| bf_coord_size x y w h :
    box_form [PCoord (Coord x y); PSize (Size w h)] x y (x + w - 1) (y + h - 1)
| bf_coord x y : box_form [PCoord (Coord x y)] x y x y
| bf_ints x1 y1 x2 y2 : box_form [PInt x1; PInt y1; PInt x2; PInt y2] x1 y1 x2 y2
| bf_two_ints x y : box_form [PInt x; PInt y] x y x y.

(** Row-major order on boxes: top row, left column, bottom row, right column. *)
Definition row_major (a b : box) : Prop :=
  cy (bmin a) < cy (bmin b) \/
  (cy (bmin a) = cy (bmin b) /\
   (cx (bmin a) < cx (bmin b) \/
    (cx (bmin a) = cx (bmin b) /\
     (cy (bmax a) < cy (bmax b) \/
      (cy (bmax a) = cy (bmax b) /\ cx (bmax a) < cx (bmax b)))))).

(** The finite set of coordinates of an area: a duplicate-free listing. *)
Definition lists_area (l : list coord) (b : box) : Prop :=
  NoDup l /\ forall c, In c l <-> covers b c.
