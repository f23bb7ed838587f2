(** * Specification vocabulary for grids *)
From Verif Require Import Base M_Geometry M_Xml M_Cell M_Grid S_Geometry.

(** The top-left corner of [a] comes before the one of [b], reading row by row. *)
Definition before (a b : cell) : Prop :=
  cy (bmin (c_box a)) < cy (bmin (c_box b)) \/
  (cy (bmin (c_box a)) = cy (bmin (c_box b)) /\ cx (bmin (c_box a)) < cx (bmin (c_box b))).

(** Iteration is in strictly increasing order: every cell is before all the following ones. *)
Definition in_order (g : list cell) : Prop := StronglySorted before g.

(** What the library sees as an intersection: a corner (top-left or bottom-right) of one box lies
    in the other one. *)
Definition clash (a b : box) : Prop :=
  covers b (bmin a) \/ covers b (bmax a) \/ covers a (bmin b) \/ covers a (bmax b).

(** Two different cells never clash. *)
Definition no_clash (g : list cell) : Prop :=
  ForallOrdPairs (fun a b => ~ clash (c_box a) (c_box b)) g.

(** Two different cells have no common coordinate. *)
Definition no_overlap (g : list cell) : Prop :=
  ForallOrdPairs (fun a b => ~ overlap (c_box a) (c_box b)) g.

Definition all_valid (g : list cell) : Prop := Forall (fun c => valid (c_box c)) g.

(** The grids the library can reach *)
Inductive reachable : grid -> Prop :=
| reach_new cells g : grid_new cells = Ok g -> reachable g
| reach_step g o : reachable g -> reachable (fst (gstep o g)).

(** Same data at another place *)
Definition same_data (a b : cell) : Prop :=
  c_content a = c_content b /\ c_styles a = c_styles b /\ c_nature a = c_nature b.

(** ** merge *)

(** The content appender in use: [operator.__add__] by default *)
Definition chosen (app : option appender) : appender :=
  match app with Some f => f | None => content_add end.

(** An appender which never answers None *)
Definition never_none (app : appender) : Prop := forall a b c, app a b = Ok c -> c <> CNone.

(** A dictionary has each key once. *)
Definition dict_ok {V} (d : dict V) : Prop := NoDup (map fst d).

(** [inside area c]: every coordinate of the cell is in the area *)
Definition inside (area : box) (c : cell) : Prop := subarea (c_box c) area.

(** [l] lists, in the order of [g], the cells of [g] having the property. *)
Inductive selects {A} (P : A -> Prop) : list A -> list A -> Prop :=
| sel_nil : selects P [] []
| sel_in a g l : P a -> selects P g l -> selects P (a :: g) (a :: l)
| sel_out a g l : ~ P a -> selects P g l -> selects P (a :: g) l.

(** Left-to-right combination with a partial binary operation *)
Inductive combined (app : appender) : content -> list content -> content -> Prop :=
| comb_one a : combined app a [] a
| comb_more a b ab l r : app a b = Ok ab -> combined app ab l r -> combined app a (b :: l) r.

(** The content of a merged cell: nothing if all are None, else the combination of the others *)
Inductive merged_content (app : appender) : list content -> content -> Prop :=
| mc_none l : selects (fun c => c <> CNone) l [] -> merged_content app l CNone
| mc_some l a l' r :
    selects (fun c => c <> CNone) l (a :: l') -> combined app a l' r -> merged_content app l r.

(** [v] is the value of key [k] in the last dictionary which has it *)
Inductive last_wins (k : string) : list styles -> option sval -> Prop :=
| lw_nil : last_wins k [] None
| lw_here ds d v : dget d k = Some v -> last_wins k (ds ++ [d]) (Some v)
| lw_before ds d r : dget d k = None -> last_wins k ds r -> last_wins k (ds ++ [d]) r.

(** ** Mapping methods *)

(** The operations whose failure must have no effect *)
Definition is_update (o : gop) : bool :=
  match o with GUpdate _ => true | _ => false end.
