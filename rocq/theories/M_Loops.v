(** * Model of a loop over the rows or the columns of a table: [for row in table.rows: ...] *)
From Verif Require Import Base M_Geometry M_Xml M_Cell M_Grid M_Table M_Views.

(** What the body of the loop does with the row: [row.insert_cell(...)], [row.nature = ...],
    [row.styles = ...], [row.styles.update(...)] *)
Inductive rcall : Type :=
| RInsert (ct : content) (st : option styles) (na : nature) (width height : Z)
| RSetNature (na : nature)
| RSetStyles (st : option styles)
| RUpdateStyles (st : styles).

Definition on_object (ax : axis) (r : nat) (c : rcall) : oop :=
  match c with
  | RInsert ct st na w h => OInsert ax r ct st na w h
  | RSetNature na => OSetNature ax r na
  | RSetStyles st => OSetStyles ax r st
  | RUpdateStyles st => OUpdateStyles ax r st
  end.

(** table.py:144-145 TableViewList.__iter__: [iter(self.views)].  The iterator of a python list keeps
    an index and looks at the list as it is when the next item is asked for; this list is changed in
    place (table.py:112-135).  A loop may never end: [fuel] bounds the number of times an item is asked
    for. *)
Fixpoint o_turns (fuel : nat) (ax : axis) (body : nat -> SM otable unit) (index : nat) : SM otable unit :=
  match fuel with
  | O => sraise EOutOfFuel
  | S fuel' =>
      o <- sget ;;
      match nth_error (match o_refs ax o with Some refs => refs | None => [] end) index with
      | None => sret tt
      | Some r => body r ;;; o_turns fuel' ax body (S index)
      end
  end.

(** [for row in table.rows: call(row)] *)
Definition o_for (fuel : nat) (ax : axis) (c : rcall) : SM otable unit :=
  o_get ax ;;;
  o_turns fuel ax (fun r => ostep (on_object ax r c)) O.
