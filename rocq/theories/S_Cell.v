(** * Specification vocabulary for cells: the linear reading of an XML node *)
From Verif Require Import Base M_Geometry M_Xml M_Cell.

(** The tokens of a serialised XML document *)
Inductive token : Type :=
| TOpen (tag : string)
| TClose (tag : string)
| TChars (s : string)
| TPi (target data : string)
| TCom (data : string).

Definition chars (o : option string) : list token :=
  match o with Some s => [TChars s] | None => [] end.

(** Serialisation of a node and its tail *)
Fixpoint tokens (n : xnode) : list token :=
  match n with
  | XElem tag _ text children tail =>
      TOpen tag :: chars text ++ flat_map tokens children ++ [TClose tag] ++ chars tail
  | XPI target data tail => TPi target data :: chars tail
  | XComment data tail => TCom data :: chars tail
  end.

(** The characters outside of the tags, comments and instructions, in document order *)
Fixpoint char_data (l : list token) : string :=
  match l with
  | [] => EmptyString
  | TChars s :: l' => String.append s (char_data l')
  | _ :: l' => char_data l'
  end.

(** The leaves of a content (nested lists are flattened) *)
Fixpoint leaves (c : content) : list content :=
  match c with
  | CList l => flat_map leaves l
  | CNone => []
  | _ => [c]
  end.

Definition leaf_text (c : content) : string :=
  match c with
  | CText s => s
  | CNum z => py_str_int z
  | CNode n => char_data (tokens n)
  | COther s => s
  | _ => EmptyString
  end.
