(** * Specification: a converted document *)
From Verif Require Import Base M_Xml.

Section Converted.
  Variable is_table : xnode -> bool.
  (** [R before after n e]: the element which takes the place of the table [n]; [before] and [after] are
      the trees which come before and after the table in the document (its ancestors are in neither) *)
  Variable R : list xnode -> list xnode -> xnode -> xnode -> Prop.

  (** [converted before after n n']: [n'] is [n] where each table is replaced by an element followed by the
      text which followed the table; everything else is the same. *)
  Inductive converted : list xnode -> list xnode -> xnode -> xnode -> Prop :=
  | cv_table before after n e : is_table n = true -> R before after n e -> converted before after n (x_set_tail e (x_tail n))
  | cv_elem before after tag attrs text children children' tail :
      is_table (XElem tag attrs text children tail) = false ->
      converted_list before after children children' ->
      converted before after (XElem tag attrs text children tail) (XElem tag attrs text children' tail)
  | cv_pi before after target pitext tail :
      is_table (XPI target pitext tail) = false -> converted before after (XPI target pitext tail) (XPI target pitext tail)
  | cv_comment before after ctext tail :
      is_table (XComment ctext tail) = false -> converted before after (XComment ctext tail) (XComment ctext tail)
  with converted_list : list xnode -> list xnode -> list xnode -> list xnode -> Prop :=
  | cvl_nil before after : converted_list before after [] []
  | cvl_cons before after c c' l l' :
      converted before (l ++ after) c c' -> converted_list (before ++ [c]) after l l' ->
      converted_list before after (c :: l) (c' :: l').
End Converted.

(** [place before after doc before' after' n]: [n] is in [doc], which has [before] and [after] around it; [before']
    and [after'] are around [n]. *)
Inductive place : list xnode -> list xnode -> xnode -> list xnode -> list xnode -> xnode -> Prop :=
| place_here before after n : place before after n before after n
| place_in before after tag attrs text l c r tail before' after' n :
    place (before ++ l) (r ++ after) c before' after' n ->
    place before after (XElem tag attrs text (l ++ c :: r) tail) before' after' n.

(** The first node in document order among some trees *)
Inductive first_of (p : xnode -> bool) : list xnode -> option xnode -> Prop :=
| first_none : first_of p [] None
| first_here n l : p n = true -> first_of p (n :: l) (Some n)
| first_next n l r : p n = false -> first_of p (x_children n ++ l) r -> first_of p (n :: l) r.

(** The number of nodes among some trees *)
Inductive counted (p : xnode -> bool) : list xnode -> Z -> Prop :=
| counted_none : counted p [] 0
| counted_here n l k : p n = true -> counted p (x_children n ++ l) k -> counted p (n :: l) (k + 1)
| counted_next n l k : p n = false -> counted p (x_children n ++ l) k -> counted p (n :: l) k.

(** The style sheet used for a document: the one which is given, else the first one in the document *)
Definition styles_used (is_styles : xnode -> bool) (given : option xnode) (doc : xnode) (used : option xnode) : Prop :=
  match given with
  | Some sheet => used = Some sheet
  | None => first_of is_styles (x_children doc) used
  end.

(** ** Formex documents *)
Section FormexConverted.
  Variables is_corpus is_notes is_blk : xnode -> bool.
  (** [R parent blks before n e]: the element which takes the place of the CORPUS [n]; [parent]: its parent, [blks]: the
      number of BLK around it, [before]: the nodes which come before it in its parent when it is converted *)
  Variable R : xnode -> Z -> list xnode -> xnode -> xnode -> Prop.

  (** [fconverted blks n n']: [n'] is [n] where each CORPUS is replaced by an element followed by the text which
      followed it, and the notes before it in its parent are taken away; everything else is the same.
      [fchildren parent blks done l r]: the children [l] which remain, after those which are [done], give [r]. *)
  Inductive fconverted : Z -> xnode -> xnode -> Prop :=
  | fc_elem blks tag attrs text children children' tail :
      is_corpus (XElem tag attrs text children tail) = false ->
      fchildren (XElem tag attrs text children tail)
        (if is_blk (XElem tag attrs text children tail) then blks + 1 else blks)%Z [] children children' ->
      fconverted blks (XElem tag attrs text children tail) (XElem tag attrs text children' tail)
  | fc_pi blks target pitext tail : fconverted blks (XPI target pitext tail) (XPI target pitext tail)
  | fc_comment blks ctext tail : fconverted blks (XComment ctext tail) (XComment ctext tail)
  with fchildren : xnode -> Z -> list xnode -> list xnode -> list xnode -> Prop :=
  | fch_end parent blks done : fchildren parent blks done [] done
  | fch_table parent blks done c e l r : is_corpus c = true -> R parent blks done c e ->
      fchildren parent blks (filter (fun n => negb (is_notes n)) done ++ [x_set_tail e (x_tail c)]) l r ->
      fchildren parent blks done (c :: l) r
  | fch_other parent blks done c c' l r : is_corpus c = false -> fconverted blks c c' ->
      fchildren parent blks (done ++ [c']) l r -> fchildren parent blks done (c :: l) r.
End FormexConverted.
