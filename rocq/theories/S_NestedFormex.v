(** * Specification: a converted Formex document in which tables were inside tables *)
From Verif Require Import Base M_Xml.
Open Scope string_scope.
Open Scope list_scope.

(** The node without its label, the first attribute *)
Definition label_off (n n1 : xnode) : Prop :=
  exists tag v attrs text children tail, n = XElem tag (("", v) :: attrs) text children tail /\ n1 = XElem tag attrs text children tail.

Section Specs.
  Variables is_corpus is_notes is_blk : xnode -> bool.

  (** [notes_out n n']: [n'] is [n] where the notes which come before a CORPUS, in the same parent, are taken away; nothing
      changes in a CORPUS. *)
  Inductive notes_out : xnode -> xnode -> Prop :=
  | no_corpus n : is_corpus n = true -> notes_out n n
  | no_elem tag attrs text children children' tail :
      is_corpus (XElem tag attrs text children tail) = false -> notes_out_list children children' ->
      notes_out (XElem tag attrs text children tail) (XElem tag attrs text children' tail)
  | no_pi target pitext tail : notes_out (XPI target pitext tail) (XPI target pitext tail)
  | no_comment ctext tail : notes_out (XComment ctext tail) (XComment ctext tail)
  with notes_out_list : list xnode -> list xnode -> Prop :=
  | nol_nil : notes_out_list [] []
  | nol_out c l l' : is_notes c = true -> Exists (fun n => is_corpus n = true) l -> notes_out_list l l' -> notes_out_list (c :: l) l'
  | nol_kept c c' l l' : is_notes c = false \/ Forall (fun n => is_corpus n = false) l ->
      notes_out c c' -> notes_out_list l l' -> notes_out_list (c :: l) (c' :: l').

  (** [R parent blks before n e]: the element made from the CORPUS [n] (see S_ConvertDoc.v); the tables in the cells of [n]
      are in [e] *)
  Variable R : xnode -> Z -> list xnode -> xnode -> xnode -> Prop.

  (** [ffull blks n n']: [n'] is [n] where each CORPUS is replaced by the element made from it, in which the tables are
      replaced in turn, followed by the text which followed the CORPUS; the notes before it in its parent are taken away;
      everything else is the same.
      [ffull_children parent blks done l r]: the children [l] which remain, after those which are [done], give [r]. *)
  Inductive ffull : Z -> xnode -> xnode -> Prop :=
  | ff_elem blks tag attrs text children children' tail :
      is_corpus (XElem tag attrs text children tail) = false ->
      ffull_children (XElem tag attrs text children tail)
        (if is_blk (XElem tag attrs text children tail) then blks + 1 else blks)%Z [] children children' ->
      ffull blks (XElem tag attrs text children tail) (XElem tag attrs text children' tail)
  | ff_pi blks target pitext tail : ffull blks (XPI target pitext tail) (XPI target pitext tail)
  | ff_comment blks ctext tail : ffull blks (XComment ctext tail) (XComment ctext tail)
  with ffull_children : xnode -> Z -> list xnode -> list xnode -> list xnode -> Prop :=
  | ffc_end parent blks done : ffull_children parent blks done [] done
  | ffc_table parent blks done c e e' l r : is_corpus c = true -> R parent blks done c e -> ffull blks e e' ->
      ffull_children parent blks (filter (fun n => negb (is_notes n)) done ++ [x_set_tail e' (x_tail c)]) l r ->
      ffull_children parent blks done (c :: l) r
  | ffc_other parent blks done c c' l r : is_corpus c = false -> ffull blks c c' ->
      ffull_children parent blks (done ++ [c']) l r -> ffull_children parent blks done (c :: l) r.
End Specs.
