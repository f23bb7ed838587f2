(** * Model of benker/builders/base_builder.py

    The texts are supposed to be XML compatible (lxml refuses control characters), and the nodes of
    a content to be different objects (lxml moves a node which is appended twice). *)
From Verif Require Import Base M_Geometry M_Xml M_Cell.

(** [isinstance(node, ElementType)]: an element, a comment or a processing instruction *)
Definition is_node (c : content) : bool := match c with CNode _ => true | _ => false end.

(** [cell_elem[-1].tail = f(cell_elem[-1].tail)] *)
Fixpoint upd_last (f : xnode -> xnode) (l : list xnode) : list xnode :=
  match l with
  | [] => []
  | [n] => [f n]
  | n :: l' => n :: upd_last f l'
  end.

(** [x or ""] followed by [+ node] *)
Definition add_text (t : option string) (s : string) : option string := Some (String.append (ostr t) s).

(** base_builder.py:83-93, one turn of the loop on the text and the children of the element *)
Definition append_one (node : content) (e : option string * list xnode) : result (option string * list xnode) :=
  let (text, children) := e in
  match node with
  | CNode n => Ok (text, children ++ [n])
  | CText s =>
      match children with
      | [] => Ok (add_text text s, children)
      | _ => Ok (text, upd_last (fun n => x_set_tail n (add_text (x_tail n) s)) children)
      end
  | _ => Err ETypeError        (* "" + node *)
  end.
Fixpoint append_all (nodes : list content) (e : option string * list xnode) : result (option string * list xnode) :=
  match nodes with
  | [] => Ok e
  | node :: nodes' => e' <-? append_one node e ;; append_all nodes' e'
  end.

(** base_builder.py:61-96 BaseBuilder.append_cell_elements *)
Definition append_elements (elements : content) (e : option string * list xnode) : result (option string * list xnode) :=
  match elements with
  | CNone => Ok (None, snd e)
  | CText s => Ok (Some s, snd e)
  | CNum z => Ok (Some (py_str_int z), snd e)
  | CNode n => Ok (fst e, snd e ++ [n])
  | CList l => append_all l e
  | COther _ => Err ETypeError
  end.
Definition append_cell_elements (cell_elem : xnode) (elements : content) : result xnode :=
  match cell_elem with
  | XElem tag attrs text children tail =>
      tc <-? append_elements elements (text, children) ;;
      Ok (XElem tag attrs (fst tc) (snd tc) tail)
  | _ => Err ETypeError
  end.
