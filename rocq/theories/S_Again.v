(** * Specification: two CALS tables with the same rows and entries *)
From Verif Require Import Base M_Xml M_Builder M_Table.
From Verif Require Import S_Cell S_Builder S_Table S_Cals S_RoundTrip.
Open Scope string_scope.
Open Scope list_scope.
Open Scope Z_scope.

(** The rows of a table in document order, each one with its section *)
Definition rows_in_sections (ns : option string) (e : xnode) : list (xnode * xnode) :=
  flat_map (fun s => map (fun r => (s, r)) (children_named (expanded ns "row") [s])) (flat_map x_children (children_named (expanded ns "tgroup") [e])).
(** The same entry, in a table with the name space [ns'] and in one with [ns]: the columns, the rows below, the content *)
Definition same_entry (ns' ns : option string) (x y : xnode) : Prop :=
  named ns' "entry" x /\ named ns "entry" y /\
  (forall k, In k ["namest"; "nameend"; "morerows"] -> attribute ns' x k = attribute ns y k) /\ elem_pieces x = elem_pieces y.
(** The same row: in a section of the same name, with the same entries in the same order *)
Definition same_row (ns' ns : option string) (x y : xnode * xnode) : Prop :=
  (exists name, In name ["thead"; "tbody"; "tfoot"] /\ named ns' name (fst x) /\ named ns name (fst y)) /\
  Forall2 (same_entry ns' ns) (x_children (snd x)) (x_children (snd y)).
Definition same_columns (ns' ns : option string) (n : Z) (x y : xnode) : Prop :=
  exists tx ty, x_children x = [tx] /\ x_children y = [ty] /\
    attribute ns' tx "cols" = Some (py_str_int n) /\ attribute ns ty "cols" = Some (py_str_int n) /\
    List.length (children_named (expanded ns' "colspec") [tx]) = Z.to_nat n /\ List.length (children_named (expanded ns "colspec") [ty]) = Z.to_nat n.

(** With the natures which CALS can write, the rows are already in the order in which [sorting] puts them. *)
Definition kept_grouped (sorting : list string) (t : table) : Prop :=
  forall n p q u v j k, view_count Rows t n -> 1 <= p <= q -> q <= n -> reads Rows p t u -> reads Rows q t v ->
    rank sorting (Some (kept_nature (v_nature u))) j -> rank sorting (Some (kept_nature (v_nature v))) k -> (j <= k)%nat.
