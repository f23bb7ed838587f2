(** * Specification: a CALS table written through Formex and one written directly *)
From Verif Require Import Base M_Xml M_Builder M_Table.
From Verif Require Import S_Cell S_Builder S_Table S_Cals S_RoundTrip S_Again.
Open Scope string_scope.
Open Scope list_scope.
Open Scope Z_scope.

(** [x] is written through Formex, [y] directly: the same place, and the same content; or the content of [y] is
    [blank] and [x] has none. *)
Definition same_entry_but (blank : list piece -> Prop) (ns' ns : option string) (x y : xnode) : Prop :=
  named ns' "entry" x /\ named ns "entry" y /\
  (forall k, In k ["namest"; "nameend"; "morerows"] -> attribute ns' x k = attribute ns y k) /\
  (elem_pieces x = elem_pieces y \/ (elem_pieces x = [] /\ blank (elem_pieces y))).
Definition same_row_but (blank : list piece -> Prop) (ns' ns : option string) (x y : xnode * xnode) : Prop :=
  (exists name, In name ["thead"; "tbody"] /\ named ns' name (fst x) /\ named ns name (fst y)) /\
  Forall2 (same_entry_but blank ns' ns) (x_children (snd x)) (x_children (snd y)).
