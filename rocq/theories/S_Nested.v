(** * Specification: a converted document in which tables were inside tables *)
From Verif Require Import Base M_Xml.
Open Scope string_scope.
Open Scope list_scope.

(** The same nodes, but for the text which comes after them *)
Definition same_node (n m : xnode) : Prop := x_set_tail n None = x_set_tail m None.

(** A document in memory: each table has a label, which stands for its identity.  The label is written as an attribute with an
    empty name. *)
Inductive labelled (is_table : xnode -> bool) : xnode -> xnode -> Prop :=
| labelled_table tag attrs text children children' tail v :
    is_table (XElem tag attrs text children tail) = true -> labelled_list is_table children children' ->
    labelled is_table (XElem tag attrs text children tail) (XElem tag (("", v) :: attrs) text children' tail)
| labelled_elem tag attrs text children children' tail :
    is_table (XElem tag attrs text children tail) = false -> labelled_list is_table children children' ->
    labelled is_table (XElem tag attrs text children tail) (XElem tag attrs text children' tail)
| labelled_pi target pitext tail : labelled is_table (XPI target pitext tail) (XPI target pitext tail)
| labelled_comment ctext tail : labelled is_table (XComment ctext tail) (XComment ctext tail)
with labelled_list (is_table : xnode -> bool) : list xnode -> list xnode -> Prop :=
| labelled_nil : labelled_list is_table [] []
| labelled_cons c c' l l' : labelled is_table c c' -> labelled_list is_table l l' -> labelled_list is_table (c :: l) (c' :: l').
(** The table without its own label; the text which comes after it may be another one. *)
Definition unlabelled (n n1 : xnode) : Prop :=
  exists tag v attrs text children tail tail',
    n = XElem tag (("", v) :: attrs) text children tail /\ n1 = XElem tag attrs text children tail'.

Section Full.
  Variable is_table : xnode -> bool.
  (** [R n e]: [e] is the element made from the table [n]; the tables in the cells of [n] are in [e] as they were in [n] *)
  Variable R : xnode -> xnode -> Prop.

  (** [full n n']: [n'] is [n] where each table is replaced by the element made from it, in which the tables are replaced
      in turn; each one is followed by the text which followed the table; everything else is the same. *)
  Inductive full : xnode -> xnode -> Prop :=
  | full_table n e e' : is_table n = true -> R n e -> full e e' -> full n (x_set_tail e' (x_tail n))
  | full_elem tag attrs text children children' tail :
      is_table (XElem tag attrs text children tail) = false ->
      full_list children children' ->
      full (XElem tag attrs text children tail) (XElem tag attrs text children' tail)
  | full_pi target pitext tail :
      is_table (XPI target pitext tail) = false -> full (XPI target pitext tail) (XPI target pitext tail)
  | full_comment ctext tail :
      is_table (XComment ctext tail) = false -> full (XComment ctext tail) (XComment ctext tail)
  with full_list : list xnode -> list xnode -> Prop :=
  | full_nil : full_list [] []
  | full_cons c c' l l' : full c c' -> full_list l l' -> full_list (c :: l) (c' :: l').
End Full.
