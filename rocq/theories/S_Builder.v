(** * Specification vocabulary: what an element holds *)
From Verif Require Import Base M_Geometry M_Xml M_Cell.

(** Mixed content is a sequence of characters and of nodes (without their tail). *)
Inductive piece : Type := Char (a : ascii) | Node (n : xnode).

Definition text_pieces (s : string) : list piece := map Char (list_ascii_of_string s).
Definition otext_pieces (o : option string) : list piece :=
  match o with None => [] | Some s => text_pieces s end.
Definition node_pieces (n : xnode) : list piece := Node (x_set_tail n None) :: otext_pieces (x_tail n).

Fixpoint content_pieces (c : content) : list piece :=
  match c with
  | CNone => []
  | CText s => text_pieces s
  | CNum z => text_pieces (py_str_int z)
  | CList l => flat_map content_pieces l
  | CNode n => node_pieces n
  | COther s => text_pieces s
  end.

Definition elem_pieces (e : xnode) : list piece := otext_pieces (x_text e) ++ flat_map node_pieces (x_children e).

(** The contents which the builders can write: no object of another type; and in a list, texts and
    nodes only. *)
Definition writable (c : content) : Prop :=
  match c with
  | COther _ => False
  | CList l => forall d, In d l -> match d with CText _ | CNode _ => True | _ => False end
  | _ => True
  end.
