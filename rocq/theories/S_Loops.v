(** * Specification vocabulary for the loops over rows and columns *)
From Verif Require Import Base M_Geometry M_Xml M_Cell M_Grid M_Table M_Views M_Loops.
From Verif Require Import S_Geometry S_Grid S_Table S_Views.

(** The same call through the table: [table.rows[p].insert_cell(...)] ... *)
Definition at_position (ax : axis) (p : Z) (c : rcall) : top :=
  match c with
  | RInsert ct st na w h => TInsert ax p ct st na w h
  | RSetNature na => TSetNature ax p na
  | RSetStyles st => TSetStyles ax p st
  | RUpdateStyles st => TUpdateStyles ax p st
  end.

(** Number of rows (columns) taken by a cell of [w] columns and [h] rows; and the other one *)
Definition along (ax : axis) (w h : Z) : Z := match ax with Rows => h | Cols => w end.
Definition aside (ax : axis) (w h : Z) : Z := match ax with Rows => w | Cols => h end.

(** The call adds no row (column) to the table. *)
Definition adds_none (ax : axis) (c : rcall) : Prop :=
  match c with RInsert _ _ _ w h => along ax w h <= 1 | _ => True end.

(** [in_turn f l s x]: doing [f a] for each [a] of [l], starting with [s], and stopping at the first
    error, ends with [x]. *)
Inductive in_turn {S A} (f : A -> S -> S * result unit) : list A -> S -> S * result unit -> Prop :=
| turn_end s : in_turn f [] s (s, Ok tt)
| turn_next a l s s' x : f a s = (s', Ok tt) -> in_turn f l s' x -> in_turn f (a :: l) s x
| turn_fail a l s s' e : f a s = (s', Err e) -> in_turn f (a :: l) s (s', Err e).
