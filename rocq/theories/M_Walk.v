(** * The walk over a tree written in Python: common/lxml_iterwalk.py (lxml before 4.2.1) *)
From Verif Require Import Base M_Xml M_Cals M_CalsParser.
Open Scope string_scope.
Open Scope list_scope.

(** The argument [tag]: None, a text, or several texts *)
Inductive tag_arg := TagNone | TagName (s : string) | TagNames (l : list string).
(** lxml_iterwalk.py:22-28 _MultiTagMatcher; :40 [matcher].  The tag of a comment is a function, which is not in a
    set of texts. *)
Definition matcher (tag : tag_arg) (n : xnode) : bool :=
  match tag with
  | TagNone => true
  | TagName s => if String.eqb s "*" then true else matching [s] n
  | TagNames l => matching l n
  end.
(** lxml_iterwalk.py:30-37 _iterwalk_impl: the events yielded, in order (for a tree which is not changed by the
    loop) *)
Fixpoint iterwalk_impl (events : list string) (m : xnode -> bool) (n : xnode) {struct n} : list (string * xnode) :=
  (if str_mem "start" events && m n then [("start", n)] else []) ++
  match n with XElem _ _ _ children _ => flat_map (iterwalk_impl events m) children | _ => [] end ++
  (if str_mem "end" events && m n then [("end", n)] else []).
(** lxml_iterwalk.py:39-42 iterwalk *)
Definition iterwalk (n : xnode) (events : list string) (tag : tag_arg) : list (string * xnode) :=
  iterwalk_impl events (matcher tag) n.
