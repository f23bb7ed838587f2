(** * Specification vocabulary for the documents whose notes are all extracted *)
From Verif Require Import Base M_Geometry M_Xml M_Cell S_FormexFinish.
Open Scope string_scope.
Open Scope list_scope.

(** [part_of n m]: [m] is the node [n] or a node in it. *)
Inductive part_of (n : xnode) : xnode -> Prop :=
| part_self : part_of n n
| part_deeper c m : In c (x_children n) -> part_of c m -> part_of n m.

(** There is no row in the node. *)
Definition rowless (n : xnode) : Prop := forall m, part_of n m -> x_tag m <> Some "ROW".

Definition footer_row (n : xnode) : Prop := x_tag n = Some "ROW" /\ footer_type (x_attrs n).

(** In the footer rows, tables are only found in the first cell. *)
Definition tables_first (doc : xnode) : Prop :=
  forall r, part_of doc r -> footer_row r ->
  forall a c b, first_named "CELL" (x_children r) a c b -> forall d, In d (a ++ b) -> rowless d.

(** The rows which are still footer rows *)
Definition footers_left (doc : xnode) : Prop := exists r, part_of doc r /\ footer_row r.
