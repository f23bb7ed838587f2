(** * Specification: a document in which the tables are replaced *)
From Verif Require Import Base M_Xml.

Section Replaced.
  Variable is_table : xnode -> bool.
  Variable convert : xnode -> result xnode.

  (** [replaced n n']: [n'] is [n] where each table is replaced by its conversion followed by the
      text which followed the table; everything else is the same. *)
  Inductive replaced : xnode -> xnode -> Prop :=
  | rep_table n e : is_table n = true -> convert n = Ok e -> replaced n (x_set_tail e (x_tail n))
  | rep_elem tag attrs text children children' tail :
      is_table (XElem tag attrs text children tail) = false ->
      Forall2 replaced children children' ->
      replaced (XElem tag attrs text children tail) (XElem tag attrs text children' tail)
  | rep_pi target pitext tail :
      is_table (XPI target pitext tail) = false -> replaced (XPI target pitext tail) (XPI target pitext tail)
  | rep_comment ctext tail :
      is_table (XComment ctext tail) = false -> replaced (XComment ctext tail) (XComment ctext tail).

  (** [inside n m]: [m] is a descendant of [n] *)
  Inductive inside : xnode -> xnode -> Prop :=
  | in_child n c : In c (x_children n) -> inside n c
  | in_deep n c m : In c (x_children n) -> inside c m -> inside n m.

  (** the tables of a document which are not the root *)
  Definition table_of (doc n : xnode) : Prop := inside doc n /\ is_table n = true.

  Definition not_nested (doc : xnode) : Prop :=
    forall n m, table_of doc n -> inside n m -> is_table m = false.
End Replaced.
