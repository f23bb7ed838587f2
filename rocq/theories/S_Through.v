(** * Specification: two Formex tables with the same rows and cells *)
From Verif Require Import Base M_Xml M_Builder M_Formex.
From Verif Require Import S_Cell S_Builder S_Cals S_Formex S_Ooxml S_OoxmlStyle.
Open Scope string_scope.
Open Scope list_scope.

(** The rows of a TBL in document order *)
Definition tbl_rows (e : xnode) : list xnode := children_named "ROW" (children_named "CORPUS" [e]).
Definition tbl_titles (e : xnode) : list xnode := children_named "TITLE" [e].
(** A cell written as empty *)
Definition marked_empty (x : xnode) : Prop := x_text x = None /\ x_children x = [XElem "IE" [] None [] None].
(** The content of a cell; nothing if it is written as empty *)
Definition holds (x : xnode) (l : list piece) : Prop := (marked_empty x /\ l = []) \/ elem_pieces x = l.
(** The same place: column and spans *)
Definition same_place (x y : xnode) : Prop :=
  x_get x "COL" = x_get y "COL" /\ x_get x "COLSPAN" = x_get y "COLSPAN" /\ x_get x "ROWSPAN" = x_get y "ROWSPAN".
(** [x] is written through another format, [y] directly: they hold the same content; or [y] is written as empty
    and the content of [x] is [blank]. *)
Definition same_fcell (blank : list piece -> Prop) (x y : xnode) : Prop :=
  x_tag x = Some "CELL" /\ x_tag y = Some "CELL" /\ same_place x y /\
  exists l, holds x l /\ (holds y l \/ (marked_empty y /\ blank l)).
Definition same_frow (blank : list piece -> Prop) (x y : xnode) : Prop :=
  x_tag x = Some "ROW" /\ x_tag y = Some "ROW" /\ x_get x "TYPE" = x_get y "TYPE" /\ Forall2 (same_fcell blank) (x_children x) (x_children y).

(** A cell in a title: its content is in TI and STI; the same for the two ways as in a CELL. *)
Definition part_empty (l : list xnode) : Prop := l = [XElem "TI" [] None [XElem "IE" [] None [] None] None].
Definition part_holds (l : list xnode) (q : list piece) : Prop := (part_empty l /\ q = []) \/ flat_map elem_pieces l = q.
Definition same_part (blank : list piece -> Prop) (l g : list xnode) : Prop :=
  exists q, part_holds l q /\ (part_holds g q \/ (part_empty g /\ blank q)).
Definition same_title (blank : list piece -> Prop) (x y : xnode) : Prop :=
  x_tag x = Some "TITLE" /\ x_tag y = Some "TITLE" /\
  exists xs ys, x_children x = List.concat xs /\ x_children y = List.concat ys /\ Forall2 (same_part blank) xs ys.

(** Elements without text and without picture *)
Definition shows_nothing (l : list piece) : Prop :=
  forall q, In q l -> exists n, q = Node n /\ char_data (tokens n) = "" /\ forall d, below d n -> ~ is_word "drawing" d /\ ~ is_word "pict" d.
