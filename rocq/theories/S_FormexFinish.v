(** * Specification vocabulary for the notes and the attributes of complete Formex documents *)
From Verif Require Import Base M_Geometry M_Xml M_Cell S_Builder S_Cals.
Open Scope string_scope.
Open Scope list_scope.

(** ** Tables in tables *)

(** [lifted n l]: [l] is what stands for the child [n] of a TBL: a TBL gives way to its children. *)
Inductive lifted : xnode -> list xnode -> Prop :=
| lifted_tbl attrs text children ls tail : Forall2 lifted children ls -> lifted (XElem "TBL" attrs text children tail) (List.concat ls)
| lifted_other n n' : x_tag n <> Some "TBL" -> flattened n n' -> lifted n [n']
(** [flattened n n']: no TBL is a child of a TBL any more. *)
with flattened : xnode -> xnode -> Prop :=
| flattened_pi a b c : flattened (XPI a b c) (XPI a b c)
| flattened_comment a b : flattened (XComment a b) (XComment a b)
| flattened_tbl attrs text children ls tail :
    Forall2 lifted children ls -> flattened (XElem "TBL" attrs text children tail) (XElem "TBL" attrs text (List.concat ls) tail)
| flattened_elem tag attrs text children children' tail :
    tag <> "TBL" -> Forall2 flattened children children' -> flattened (XElem tag attrs text children tail) (XElem tag attrs text children' tail).

(** ** Notes *)

Definition footer_type (attrs : dict string) : Prop := dget attrs "TYPE" = Some "__GR.NOTES__".

(** The rows are those of the CORPUS elements of the tables. *)
Inductive orderly : xnode -> Prop :=
| orderly_pi a b c : orderly (XPI a b c)
| orderly_comment a b : orderly (XComment a b)
| orderly_elem tag attrs text children tail :
    tag <> "TBL" -> tag <> "ROW" -> Forall orderly children -> orderly (XElem tag attrs text children tail)
| orderly_tbl attrs text children tail :
    Forall (fun c => (x_tag c <> Some "CORPUS" /\ orderly c) \/
                     (x_tag c = Some "CORPUS" /\
                      Forall (fun i => (x_tag i <> Some "ROW" /\ orderly i) \/
                                       (x_tag i = Some "ROW" /\ NoDup (map fst (x_attrs i)) /\ Forall orderly (x_children i))) (x_children c))) children ->
    orderly (XElem "TBL" attrs text children tail).

(** The attributes of a row but TYPE *)
Definition untyped (attrs attrs' : dict string) : Prop :=
  forall k, dget attrs' k = if String.eqb k "TYPE" then None else dget attrs k.
(** The attributes of [attrs], and those of the row which are not in it *)
Definition completed_attrs (attrs row attrs' : dict string) : Prop :=
  forall k, dget attrs' k = match dget attrs k with
                            | Some v => Some v
                            | None => if String.eqb k "TYPE" then None else dget row k
                            end.

Definition first_named (name : string) (l a : list xnode) (c : xnode) (b : list xnode) : Prop :=
  l = a ++ c :: b /\ x_tag c = Some name /\ forall d, In d a -> x_tag d <> Some name.

(** What is written for a footer row with these attributes and this (first) cell: a GR.NOTES with the content of the
    cell, or, if there is already a GR.NOTES in the cell, the content of the cell; the attributes of the row go to
    GR.NOTES. *)
Inductive notes_of (row : dict string) (cell : xnode) : list piece -> Prop :=
| notes_new attrs text children :
    (forall d, In d (x_children cell) -> x_tag d <> Some "GR.NOTES") -> untyped row attrs ->
    otext_pieces text ++ flat_map node_pieces children = elem_pieces cell ->
    notes_of row cell [Node (XElem "GR.NOTES" attrs text children None)]
| notes_old a attrs text children tail b attrs' :
    first_named "GR.NOTES" (x_children cell) a (XElem "GR.NOTES" attrs text children tail) b ->
    completed_attrs attrs row attrs' ->
    notes_of row cell (otext_pieces (x_text cell) ++ flat_map node_pieces (a ++ XElem "GR.NOTES" attrs' text children tail :: b)).

(** [noted n n']: in each table the footer rows are replaced by notes, before the first CORPUS and in the same order;
    the other rows have no TYPE. *)
Inductive noted : xnode -> xnode -> Prop :=
| noted_pi a b c : noted (XPI a b c) (XPI a b c)
| noted_comment a b : noted (XComment a b) (XComment a b)
| noted_elem tag attrs text children children' tail :
    tag <> "TBL" -> Forall2 noted children children' -> noted (XElem tag attrs text children tail) (XElem tag attrs text children' tail)
| noted_plain_tbl attrs text children children' tail :
    collected children children' [] -> noted (XElem "TBL" attrs text children tail) (XElem "TBL" attrs text children' tail)
| noted_tbl attrs text children before corpus after notes text' before' tail :
    collected children (before ++ corpus :: after) notes ->
    x_tag corpus = Some "CORPUS" -> (forall d, In d before -> x_tag d <> Some "CORPUS") ->
    otext_pieces text' ++ flat_map node_pieces before' = otext_pieces text ++ flat_map node_pieces before ++ List.concat notes ->
    noted (XElem "TBL" attrs text children tail) (XElem "TBL" attrs text' (before' ++ corpus :: after) tail)
with collected : list xnode -> list xnode -> list (list piece) -> Prop :=
| collected_nil : collected [] [] []
| collected_node c c' l l' m : x_tag c <> Some "CORPUS" -> noted c c' -> collected l l' m -> collected (c :: l) (c' :: l') m
| collected_corpus attrs text items kept tail notes l l' m :
    sorted items kept notes -> collected l l' m ->
    collected (XElem "CORPUS" attrs text items tail :: l) (XElem "CORPUS" attrs text kept tail :: l') (notes ++ m)
with sorted : list xnode -> list xnode -> list (list piece) -> Prop :=
| sorted_nil : sorted [] [] []
| sorted_node i i' l l' m : x_tag i <> Some "ROW" -> noted i i' -> sorted l l' m -> sorted (i :: l) (i' :: l') m
| sorted_row attrs attrs' text children children' tail l l' m :
    ~ footer_type attrs -> untyped attrs attrs' -> Forall2 noted children children' -> sorted l l' m ->
    sorted (XElem "ROW" attrs text children tail :: l) (XElem "ROW" attrs' text children' tail :: l') m
| sorted_footer attrs text children a cell b tail p l l' m :
    footer_type attrs -> Forall2 noted children (a ++ cell :: b) -> first_named "CELL" (a ++ cell :: b) a cell b -> notes_of attrs cell p ->
    sorted l l' m -> sorted (XElem "ROW" attrs text children tail :: l) l' (p :: m).

(** The footer rows have a cell. *)
Inductive footers_ready : xnode -> Prop :=
| footers_node n :
    (forall c, In c (x_children n) -> footers_ready c) ->
    (x_tag n = Some "ROW" -> footer_type (x_attrs n) -> exists c, In c (x_children n) /\ x_tag c = Some "CELL") ->
    footers_ready n.

(** ** Attributes *)

(** The names which the CALS attributes say again: the spans, and the style of the rows *)
Definition said_again (ns : option string) (k : string) : Prop :=
  In k (map (expanded ns) ["namest"; "nameend"; "morerows"; "rowstyle"]).
Definition of_table (tag : string) : Prop := In tag ["ROW"; "CELL"; "TI.BLK"; "STI.BLK"; "GR.NOTES"].
(** [lightened ns within n n']: the elements of the tables lose these attributes, the rest is the same; [within] says
    that [n] is in a table. *)
Inductive lightened (ns : option string) : bool -> xnode -> xnode -> Prop :=
| lightened_pi w a b c : lightened ns w (XPI a b c) (XPI a b c)
| lightened_comment w a b : lightened ns w (XComment a b) (XComment a b)
| lightened_elem w tag attrs attrs' text children children' tail :
    (w || String.eqb tag "TBL" = true -> of_table tag ->
       forall k, (said_again ns k -> dget attrs' k = None) /\ (~ said_again ns k -> dget attrs' k = dget attrs k)) ->
    (~ (w || String.eqb tag "TBL" = true /\ of_table tag) -> attrs' = attrs) ->
    Forall2 (lightened ns (w || String.eqb tag "TBL")) children children' ->
    lightened ns w (XElem tag attrs text children tail) (XElem tag attrs' text children' tail).
(** The attributes of an element have distinct names. *)
Inductive proper : xnode -> Prop :=
| proper_node n : NoDup (map fst (x_attrs n)) -> (forall c, In c (x_children n) -> proper c) -> proper n.
