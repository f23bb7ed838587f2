(** * Specification vocabulary: a document which is converted twice *)
From Verif Require Import Base M_Xml.
Open Scope string_scope.
Open Scope list_scope.

(** The attributes without the one named [k] *)
Definition attrs_without (k : string) (attrs : dict string) : dict string := filter (fun kv => negb (String.eqb (fst kv) k)) attrs.

(** The second document is the first one in which the elements ROW have no attribute TYPE. *)
Inductive rows_untyped : xnode -> xnode -> Prop :=
| untyped_row attrs text ch ch' tail : Forall2 rows_untyped ch ch' ->
    rows_untyped (XElem "ROW" attrs text ch tail) (XElem "ROW" (attrs_without "TYPE" attrs) text ch' tail)
| untyped_other tag attrs text ch ch' tail : tag <> "ROW" -> Forall2 rows_untyped ch ch' ->
    rows_untyped (XElem tag attrs text ch tail) (XElem tag attrs text ch' tail)
| untyped_pi target text tail : rows_untyped (XPI target text tail) (XPI target text tail)
| untyped_comment text tail : rows_untyped (XComment text tail) (XComment text tail).
