(** * Model of benker/coord.py, benker/size.py, benker/box.py *)
From Verif Require Import Base M_Alphabet.

Record coord := Coord { cx : Z; cy : Z }.
Record size := Size { sw : Z; sh : Z }.

(** The namedtuple [BoxTuple(min, max)], box.py:102.  This is the raw tuple: the validity of the
    corners is enforced by the constructor [box_new] only. *)
Record box := MkBox { bmin : coord; bmax : coord }.

(** Python values which can be given as operands or arguments.  [PTuple] is a value whose type is
    exactly [tuple]; [PObj] stands for any object of another type (a cell, a float, a list...). *)
Inductive pyval : Type :=
| PNone
| PBool (b : bool)
| PInt (z : Z)
| PStr (s : string)
| PTuple (l : list pyval)
| PCoord (c : coord)
| PSize (s : size)
| PBox (b : box)
| PObj.

(** [x + v] / [x - v] for an int [x]: a bool is an int in python, everything else of the
    universe raises TypeError. *)
Definition int_add (x : Z) (v : pyval) : result Z :=
  match v with
  | PInt z => Ok (x + z)
  | PBool b => Ok (x + if b then 1 else 0)
  | _ => Err ETypeError
  end.

Definition int_sub (x : Z) (v : pyval) : result Z :=
  match v with
  | PInt z => Ok (x - z)
  | PBool b => Ok (x - if b then 1 else 0)
  | _ => Err ETypeError
  end.

(** coord.py:72-81 Coord.__add__ *)
Definition coord_add (c : coord) (v : pyval) : result coord :=
  match v with
  | PSize s => Ok (Coord (cx c + sw s) (cy c + sh s))
  | PTuple l =>
      v0 <-? py_nth l 0 ;; x <-? int_add (cx c) v0 ;;
      v1 <-? py_nth l 1 ;; y <-? int_add (cy c) v1 ;;
      Ok (Coord x y)
  | PInt z => Ok (Coord (cx c + z) (cy c + z))
  | _ => Err ETypeError
  end.

(** coord.py:83-92 Coord.__sub__ *)
Definition coord_sub (c : coord) (v : pyval) : result coord :=
  match v with
  | PSize s => Ok (Coord (cx c - sw s) (cy c - sh s))
  | PTuple l =>
      v0 <-? py_nth l 0 ;; x <-? int_sub (cx c) v0 ;;
      v1 <-? py_nth l 1 ;; y <-? int_sub (cy c) v1 ;;
      Ok (Coord x y)
  | PInt z => Ok (Coord (cx c - z) (cy c - z))
  | _ => Err ETypeError
  end.

(** coord.py:94-111 Coord.from_value *)
Definition coord_from_value (v : pyval) : result coord :=
  match v with
  | PCoord c => Ok c
  | PTuple [PInt x; PInt y] => Ok (Coord x y)
  | _ => Err ETypeError
  end.

(** coord.py:66-67 Coord.__str__ (with alphabet.py) *)
Definition coord_str (c : coord) : result string :=
  ls <-? int_to_alphabet (cx c) ascii_uppercase ;;
  Ok (String.append (string_of_list_ascii ls) (py_str_int (cy c))).

(** size.py:68-77 Size.__add__ *)
Definition size_add (s : size) (v : pyval) : result size :=
  match v with
  | PSize t => Ok (Size (sw s + sw t) (sh s + sh t))
  | PTuple l =>
      v0 <-? py_nth l 0 ;; w <-? int_add (sw s) v0 ;;
      v1 <-? py_nth l 1 ;; h <-? int_add (sh s) v1 ;;
      Ok (Size w h)
  | PInt z => Ok (Size (sw s + z) (sh s + z))
  | _ => Err ETypeError
  end.

(** size.py:79-88 Size.__sub__ *)
Definition size_sub (s : size) (v : pyval) : result size :=
  match v with
  | PSize t => Ok (Size (sw s - sw t) (sh s - sh t))
  | PTuple l =>
      v0 <-? py_nth l 0 ;; w <-? int_sub (sw s) v0 ;;
      v1 <-? py_nth l 1 ;; h <-? int_sub (sh s) v1 ;;
      Ok (Size w h)
  | PInt z => Ok (Size (sw s - z) (sh s - z))
  | _ => Err ETypeError
  end.

(** size.py:90-95 Size.__mul__ *)
Definition size_mul (s : size) (v : pyval) : result size :=
  match v with
  | PInt z => Ok (Size (sw s * z) (sh s * z))
  | _ => Err ETypeError
  end.

(** size.py:97-101 Size.__neg__, Size.__pos__ *)
Definition size_neg (s : size) : size := Size (- sw s) (- sh s).
Definition size_pos (s : size) : size := Size (sw s) (sh s).

(** size.py:103-120 Size.from_value *)
Definition size_from_value (v : pyval) : result size :=
  match v with
  | PSize s => Ok s
  | PTuple [PInt w; PInt h] => Ok (Size w h)
  | _ => Err ETypeError
  end.

(** box.py:169-174, the validation at the end of Box.__new__ *)
Definition box_validate (min_x min_y max_x max_y : Z) : result box :=
  if (0 <? min_x) && (min_x <=? max_x) && ((0 <? min_y) && (min_y <=? max_y))
  then Ok (MkBox (Coord min_x min_y) (Coord max_x max_y))
  else Err EValueError.

(** box.py:126-174 Box.__new__: dispatch on the exact types of the arguments *)
Definition box_new (args : list pyval) : result box :=
  match args with
  | [PCoord c1; PCoord c2] => box_validate (cx c1) (cy c1) (cx c2) (cy c2)
  | [PCoord c; PSize s] =>
      c2 <-? coord_add c (PSize s) ;;
      c3 <-? coord_sub c2 (PInt 1) ;;
      box_validate (cx c) (cy c) (cx c3) (cy c3)
  | [PCoord c] => box_validate (cx c) (cy c) (cx c) (cy c)
  | [PInt x1; PInt y1; PInt x2; PInt y2] => box_validate x1 y1 x2 y2
  | [PInt x; PInt y] => box_validate x y x y
  | [PBox b] => Ok b
  | _ => Err ETypeError
  end.

(** box.py:184-196 Box.width, Box.height, Box.size *)
Definition box_width (b : box) : Z := cx (bmax b) - cx (bmin b) + 1.
Definition box_height (b : box) : Z := cy (bmax b) - cy (bmin b) + 1.
Definition box_size (b : box) : size := Size (box_width b) (box_height b).

(** box.py:176-179 Box.__str__ *)
Definition box_str (b : box) : result string :=
  if (box_width b =? 1) && (box_height b =? 1) then coord_str (bmin b)
  else
    s1 <-? coord_str (bmin b) ;;
    s2 <-? coord_str (bmax b) ;;
    Ok (String.append s1 (String.append ":" s2)).

(** box.py:198-202 Box.transform; an argument equal to None is [None] here *)
Definition box_transform (b : box) (c : option pyval) (s : option pyval) : result box :=
  min_coord <-? match c with None => Ok (bmin b) | Some v => coord_from_value v end ;;
  sz <-? match s with None => Ok (box_size b) | Some v => size_from_value v end ;;
  c1 <-? coord_add min_coord (PSize sz) ;;
  max_coord <-? coord_sub c1 (PInt 1) ;;
  box_new [PCoord min_coord; PCoord max_coord].

(** box.py:204-208 Box.move_to, Box.resize.  An explicit None argument means "unchanged". *)
Definition box_move_to (b : box) (c : pyval) : result box :=
  box_transform b (match c with PNone => None | _ => Some c end) None.
Definition box_resize (b : box) (s : pyval) : result box :=
  box_transform b None (match s with PNone => None | _ => Some s end).

(** box.py:212-213, the case of a Coord in Box.__contains__ *)
Definition box_has (b : box) (c : coord) : bool :=
  (cx (bmin b) <=? cx c) && (cx c <=? cx (bmax b))
  && ((cy (bmin b) <=? cy c) && (cy c <=? cy (bmax b))).

(** box.py:216-217, the case of a Box in Box.__contains__ *)
Definition box_has_box (b : box) (b2 : box) : bool :=
  box_has b (bmin b2) && box_has b (bmax b2).

(** box.py:210-218 Box.__contains__ *)
Definition box_contains (b : box) (v : pyval) : result bool :=
  match v with
  | PCoord c => Ok (box_has b c)
  | PTuple [PInt x; PInt y] => Ok (box_has b (Coord x y))
  | PBox b2 => Ok (box_has_box b b2)
  | _ => Err ETypeError
  end.

(** box.py:220-223 Box.intersect *)
Definition box_intersect (self that : box) : bool :=
  (box_has that (bmin self) || box_has that (bmax self))
  || (box_has self (bmin that) || box_has self (bmax that)).

(** box.py:225-227 Box.isdisjoint *)
Definition box_isdisjoint (self that : box) : bool := negb (box_intersect self that).

(** python [min(...)] / [max(...)] of a non-empty sequence [a :: l] *)
Definition py_min (a : Z) (l : list Z) : Z := fold_left Z.min l a.
Definition py_max (a : Z) (l : list Z) : Z := fold_left Z.max l a.

(** box.py:229-261 Box.union (and [|]); the [assert] of line 258 is kept *)
Definition box_union (self : box) (others : list box) : result box :=
  let min_x := py_min (cx (bmin self)) (map (fun b => cx (bmin b)) others) in
  let min_y := py_min (cy (bmin self)) (map (fun b => cy (bmin b)) others) in
  let max_x := py_max (cx (bmax self)) (map (fun b => cx (bmax b)) others) in
  let max_y := py_max (cy (bmax self)) (map (fun b => cy (bmax b)) others) in
  bb <-? box_new [PCoord (Coord min_x min_y); PCoord (Coord max_x max_y)] ;;
  if forallb (fun b => box_has_box bb b) (self :: others) then Ok bb else Err EAssertionError.

(** box.py:263-299 Box.intersection (and [&]) *)
Definition box_intersection (self : box) (others : list box) : result box :=
  let min_x := py_max (cx (bmin self)) (map (fun b => cx (bmin b)) others) in
  let min_y := py_max (cy (bmin self)) (map (fun b => cy (bmin b)) others) in
  let max_x := py_min (cx (bmax self)) (map (fun b => cx (bmax b)) others) in
  let max_y := py_min (cy (bmax self)) (map (fun b => cy (bmax b)) others) in
  box_new [PCoord (Coord min_x min_y); PCoord (Coord max_x max_y)].

(** box.py:329-339 Box.__lt__ between two boxes *)
Definition box_lt (self other : box) : bool :=
  if cy (bmin self) =? cy (bmin other) then
    if cx (bmin self) =? cx (bmin other) then
      if cy (bmax self) =? cy (bmax other) then cx (bmax self) <? cx (bmax other)
      else cy (bmax self) <? cy (bmax other)
    else cx (bmin self) <? cx (bmin other)
  else cy (bmin self) <? cy (bmin other).

(** Tuple comparison inherited from [tuple]: the first differing items decide.
    A Coord is the tuple (x, y); a Box is the tuple (min, max). *)
Definition tuple_cmp (l1 l2 : list Z) : comparison :=
  (fix go (l1 l2 : list Z) : comparison :=
     match l1, l2 with
     | [], [] => Eq
     | [], _ => Lt
     | _, [] => Gt
     | a :: l1', b :: l2' => match a ?= b with Eq => go l1' l2' | c => c end
     end) l1 l2.

(** The comparison of (min, max) item by item is the comparison of the flattened tuples since
    Coord tuples all have two items. *)
Definition box_tuple (b : box) : list Z := [cx (bmin b); cy (bmin b); cx (bmax b); cy (bmax b)].
Definition box_tuple_le (a b : box) : bool :=
  match tuple_cmp (box_tuple a) (box_tuple b) with Gt => false | _ => true end.
Definition box_tuple_gt (a b : box) : bool :=
  match tuple_cmp (box_tuple a) (box_tuple b) with Gt => true | _ => false end.
Definition box_tuple_ge (a b : box) : bool :=
  match tuple_cmp (box_tuple a) (box_tuple b) with Lt => false | _ => true end.
(** [==] of tuples *)
Definition box_eqb (a b : box) : bool :=
  match tuple_cmp (box_tuple a) (box_tuple b) with Eq => true | _ => false end.

(** The comparison operators found on a class: [None] when the class only has the ones of
    [object] (which do not compare). *)
Record cmp_ops (A : Type) := {
  op_lt : option (A -> A -> bool);
  op_le : option (A -> A -> bool);
  op_gt : option (A -> A -> bool);
  op_ge : option (A -> A -> bool)
}.
Arguments op_lt {A}. Arguments op_le {A}. Arguments op_gt {A}. Arguments op_ge {A}.

Definition or_else {A} (o : option A) (d : A) : option A :=
  match o with Some a => Some a | None => Some d end.

(** CPython Lib/functools.py [total_ordering] when the class has [__lt__] (the preferred root):
    it adds the operators which the class does not have yet, own or inherited. *)
Definition total_ordering {A} (eqb : A -> A -> bool) (c : cmp_ops A) : cmp_ops A :=
  match op_lt c with
  | None => c
  | Some lt =>
      {| op_lt := Some lt;
         op_le := or_else (op_le c) (fun a b => lt a b || eqb a b);
         op_gt := or_else (op_gt c) (fun a b => negb (lt a b) && negb (eqb a b));
         op_ge := or_else (op_ge c) (fun a b => negb (lt a b)) |}
  end.

(** box.py:105-106: [@functools.total_ordering class Box(BoxTuple)].  Box defines [__lt__] and
    inherits the other three operators from [tuple]. *)
Definition box_ops : cmp_ops box :=
  total_ordering box_eqb
    {| op_lt := Some box_lt;
       op_le := Some box_tuple_le;
       op_gt := Some box_tuple_gt;
       op_ge := Some box_tuple_ge |}.
