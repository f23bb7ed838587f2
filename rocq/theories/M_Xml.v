(** * XML trees, as seen through lxml.etree

    An element has an expanded tag name, attributes in order, an optional text, children and an
    optional tail.  [None] and the empty text are distinguished, as in lxml.  Comments and
    processing instructions are nodes whose [tag] is not a string. *)
From Verif Require Import Base.

Inductive xnode : Type :=
| XElem (tag : string) (attrs : dict string) (text : option string)
        (children : list xnode) (tail : option string)
| XPI (target : string) (pitext : string) (tail : option string)
| XComment (ctext : string) (tail : option string).

(** Induction principle giving the hypothesis on all the children. *)
Section XnodeInd.
  Variable P : xnode -> Prop.
  Hypothesis HE : forall tag attrs text children tail,
      Forall P children -> P (XElem tag attrs text children tail).
  Hypothesis HP : forall target pitext tail, P (XPI target pitext tail).
  Hypothesis HC : forall ctext tail, P (XComment ctext tail).

  Fixpoint xnode_ind' (n : xnode) : P n :=
    match n with
    | XElem tag attrs text children tail =>
        HE tag attrs text children tail
          ((fix go (l : list xnode) : Forall P l :=
              match l with
              | [] => Forall_nil P
              | c :: l' => Forall_cons c (xnode_ind' c) (go l')
              end) children)
    | XPI target pitext tail => HP target pitext tail
    | XComment ctext tail => HC ctext tail
    end.
End XnodeInd.

Definition x_tail (n : xnode) : option string :=
  match n with XElem _ _ _ _ t => t | XPI _ _ t => t | XComment _ t => t end.

Definition x_set_tail (n : xnode) (t : option string) : xnode :=
  match n with
  | XElem a b c d _ => XElem a b c d t
  | XPI a b _ => XPI a b t
  | XComment a _ => XComment a t
  end.

Definition x_children (n : xnode) : list xnode :=
  match n with XElem _ _ _ l _ => l | _ => [] end.

Definition x_text (n : xnode) : option string :=
  match n with XElem _ _ t _ _ => t | _ => None end.

Definition x_attrs (n : xnode) : dict string :=
  match n with XElem _ a _ _ _ => a | _ => [] end.

(** [Some tag] for an element, [None] for a comment or a processing instruction *)
Definition x_tag (n : xnode) : option string :=
  match n with XElem t _ _ _ _ => Some t | _ => None end.

Definition x_has_tag (n : xnode) (t : string) : bool :=
  match n with XElem t' _ _ _ _ => String.eqb t t' | _ => false end.

Definition x_get (n : xnode) (k : string) : option string := dget (x_attrs n) k.

Definition ostr (o : option string) : string := match o with Some s => s | None => EmptyString end.
