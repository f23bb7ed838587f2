(** * Specification vocabulary for the view objects a program keeps *)
From Verif Require Import Base M_Geometry M_Xml M_Cell M_Grid M_Table M_Views S_Geometry S_Grid S_Table.

(** The states a program can reach: the constructor, then any sequence of calls on the table and on
    the views it holds, failing or not. *)
Inductive oreachable : otable -> Prop :=
| oreach_new cells st na o : o_new cells st na = Ok o -> oreachable o
| oreach_step o op : oreachable o -> oreachable (fst (ostep op o)).

(** The object [r] is now the view [v]. *)
Definition holds (ax : axis) (r : nat) (o : otable) (v : view) : Prop := nth_error (o_heap ax o) r = Some v.

(** The object [r] is in [table.rows] (or [table.cols]): not dropped, and not a stranger. *)
Definition listed (ax : axis) (r : nat) (o : otable) : Prop :=
  exists refs, o_refs ax o = Some refs /\ In r refs.

(** [shows o t]: read through its lists of views, [o] is the table [t] of the model without
    identities. *)
Definition shows (o : otable) (t : table) : Prop :=
  o_grid o = t_grid t /\ o_styles o = t_styles t /\ o_nature o = t_nature t /\
  forall ax,
    match o_refs ax o, t_views ax t with
    | None, None => True
    | Some refs, Some vs => Forall2 (fun r v => holds ax r o v) refs vs
    | _, _ => False
    end.

(** The two runs end the same way: same outcome, and tables which agree. *)
Definition same_end (x : otable * result unit) (y : table * result unit) : Prop :=
  snd x = snd y /\ shows (fst x) (fst y).

(** The call sets an attribute of a view. *)
Definition sets_some_attribute (op : oop) : bool :=
  match op with
  | OTable (TSetNature _ _ _) | OTable (TSetStyles _ _ _) | OTable (TUpdateStyles _ _ _)
  | OSetNature _ _ _ | OSetStyles _ _ _ | OUpdateStyles _ _ _ => true
  | _ => false
  end.
(** The call sets an attribute of the object [r], through this object. *)
Definition sets_object (ax : axis) (r : nat) (op : oop) : Prop :=
  match op with
  | OSetNature ax' r' _ | OSetStyles ax' r' _ | OUpdateStyles ax' r' _ => ax' = ax /\ r' = r
  | _ => False
  end.
Definition drops (op : oop) : bool := match op with OTable op => rebuilds op | _ => false end.

Definition same_attributes (v v' : view) : Prop :=
  v_pos v' = v_pos v /\ v_styles v' = v_styles v /\ v_nature v' = v_nature v.
Definition same_cells (v v' : view) : Prop :=
  v_pos v' = v_pos v /\ v_owned v' = v_owned v /\ v_caught v' = v_caught v.

(** The object [r] was in [table.rows] (or [table.cols]) at some time. *)
Definition once_listed (ax : axis) (r : nat) (o : otable) : Prop :=
  exists o0 h, oreachable o0 /\ listed ax r o0 /\ orun o0 h = o.
