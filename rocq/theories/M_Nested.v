(** * Model of the conversion of a document which has tables inside tables

    The loops of transform_tables: parsers/cals/__init__.py:108-120, parsers/ooxml/__init__.py:794-805.

    The list of the tables is made once, before the first turn ([xpath("//table")]); it has the tables at
    every depth, in document order.  The builders append the nodes of the contents to the elements they make
    (builders/cals.py, builders/formex.py): lxml moves them, so that a table inside a cell is a node of the
    new tree from then on, and its own turn replaces it there.

    M_ConvertDoc.v designates the nodes by their path, which says nothing of a node that has moved.  Here the
    identity of a node is written in the node: each table gets its rank as a mark, an attribute with an
    empty name, which no XML document has and which no parser looks at.

    Simplified: a table which is in no content any more (for instance a table between two rows) is converted
    all the same by the code, from the tree it was in, and the result is lost; here the trees which come
    after it (used for the Word sections) are left out.  The loop of the Formex parser, which takes
    the GR.NOTES before a table away, is in M_NestedFormex.v. *)
From Verif Require Import Base M_Xml M_Geometry M_Cell M_Grid M_Table M_Cals M_CalsParser M_Formex M_FormexParser M_FormexRead M_FormexFinal M_FormexFinish M_Ooxml M_Transform M_Convert M_ConvertDoc.
Open Scope string_scope.
Open Scope list_scope.

(** The mark of the node of rank [k] *)
Fixpoint unary (k : nat) : string := match k with O => EmptyString | S k' => String "1"%char (unary k') end.
Definition mark_name : string := "".
(** A node without its own mark *)
Definition drop_mark (n : xnode) : xnode :=
  match n with
  | XElem tag ((a, v) :: attrs) text children tail =>
      if String.eqb a mark_name then XElem tag attrs text children tail else n
  | _ => n
  end.

Section Loop.
  (** the name of the elements selected, and the conversion of one of them, as in M_ConvertDoc.Loop *)
  Variable name : string.
  Variable convert : list xnode -> Z -> xnode -> result xnode.

  (** [xpath("//name")]: the tables are given the ranks [k], [k+1]... in document order; the first value is the
      rank after the last *)
  Fixpoint mark_from (k : nat) (n : xnode) : nat * xnode :=
    match n with
    | XElem tag attrs text children tail =>
        let r := (fix go (k : nat) (l : list xnode) : nat * list xnode :=
                    match l with
                    | [] => (k, [])
                    | c :: l' => let r1 := mark_from k c in let r2 := go (fst r1) l' in (fst r2, snd r1 :: snd r2)
                    end) (if String.eqb name tag then S k else k) children in
        (fst r, XElem tag (if String.eqb name tag then (mark_name, unary k) :: attrs else attrs) text (snd r) tail)
    | _ => (k, n)
    end.
  Definition has_mark (k : nat) (n : xnode) : bool :=
    x_has_tag n name && match x_get n mark_name with Some v => String.eqb v (unary k) | None => false end.
  (** A tree without any mark *)
  Fixpoint unmark (n : xnode) : xnode :=
    match n with
    | XElem tag attrs text children tail =>
        let children' := map unmark children in
        if String.eqb name tag then drop_mark (XElem tag attrs text children' tail) else XElem tag attrs text children' tail
    | _ => n
    end.

  (** [parent.replace(table, table_elem)], with the text which follows the table
      (parsers/cals/__init__.py:112-119, parsers/ooxml/__init__.py:798-804) *)
  Fixpoint put_mark (k : nat) (e : xnode) (n : xnode) : xnode :=
    if has_mark k n then x_set_tail e (x_tail n)
    else match n with
         | XElem tag attrs text children tail => XElem tag attrs text (map (put_mark k e) children) tail
         | _ => n
         end.

  (** One turn of the loop; [src] is the document before the first turn *)
  Definition nested_one (src doc : xnode) (k : nat) : result xnode :=
    match find_all (has_mark k) doc with
    | p :: _ =>
        match node_at doc p with
        | None => Err EValueError
        | Some node =>
            table_elem <-? convert (map unmark (after_at doc p)) (Z.of_nat k) (drop_mark node) ;;
            match p with
            | [] => Err EAttributeError
            | _ => Ok (put_mark k table_elem doc)
            end
        end
    | [] =>
        match find (has_mark k) (tree_nodes src) with
        | None => Err EValueError
        | Some node => _ <-? convert [] (Z.of_nat k) (drop_mark node) ;; Ok doc
        end
    end.
  Fixpoint nested_all (src doc : xnode) (ks : list nat) : result xnode :=
    match ks with
    | [] => Ok doc
    | k :: ks' => doc' <-? nested_one src doc k ;; nested_all src doc' ks'
    end.
  Definition nested_tables (doc : xnode) : result xnode :=
    let m := mark_from 1 doc in
    nested_all (snd m) (snd m) (seq 1 (fst m - 1)).
End Loop.

(** ** The converters, as in M_ConvertDoc.v *)

(** converters/cals2formex.py *)
Definition nested_cals2formex (kw : kwargs) (doc : xnode) : result xnode :=
  doc' <-? nested_tables (pcals (cals_parser kw) "table") (fun _ k n => cals2formex kw k n) doc ;;
  finalize_tree (co_ns (fo_cals (formex_builder kw))) doc'.
(** converters/ooxml2formex.py *)
Definition nested_ooxml2formex (kw : kwargs) (ox : ooxml_opts) (doc : xnode) : result xnode :=
  doc' <-? nested_tables (wq "tbl") (fun after k n => ooxml2formex kw (with_styles ox doc) (sect_after after) k n) doc ;;
  finalize_tree (co_ns (fo_cals (formex_builder kw))) doc'.
(** converters/ooxml2cals.py *)
Definition nested_ooxml2cals (kw : kwargs) (ox : ooxml_opts) (doc : xnode) : result xnode :=
  _ <-? cals_builder kw ;;
  nested_tables (wq "tbl") (fun after _ n => ooxml2cals kw (with_styles ox doc) (sect_after after) n) doc.
