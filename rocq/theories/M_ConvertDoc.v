(** * Model of the conversion of a document

    benker/converters/base_converter.py:38-40, benker/parsers/base_parser.py:71-74 and the loops of
    transform_tables: parsers/cals/__init__.py:108-120, parsers/ooxml/__init__.py:794-805,
    parsers/formex.py:94-107.

    As in M_Transform.v, the nodes are designated by their path, and the model is faithful for the documents
    in which no table is inside another.  The reading and the writing of the files are not modelled: the
    document is its root element. *)
From Verif Require Import Base M_Xml M_Geometry M_Cell M_Grid M_Table M_Cals M_CalsParser M_Formex M_FormexParser M_FormexRead M_FormexFinal M_FormexFinish M_Ooxml M_Transform M_Convert.
Open Scope string_scope.
Open Scope list_scope.

(** The nodes of a tree in document order *)
Fixpoint tree_nodes (n : xnode) : list xnode :=
  n :: match n with XElem _ _ _ children _ => flat_map tree_nodes children | _ => [] end.

(** XPath [following::node()]: the trees which come after the node at the path, in document order *)
Fixpoint after_at (n : xnode) (p : path) : list xnode :=
  match p with
  | [] => []
  | i :: p' =>
      match nth_error (x_children n) i with
      | Some c => after_at c p' ++ skipn (S i) (x_children n)
      | None => []
      end
  end.

Section Loop.
  (** the nodes selected, and the conversion of one of them, from the trees which come after it and its
      number (builders/formex.py:143, 223) *)
  Variable is_table : xnode -> bool.
  Variable convert : list xnode -> Z -> xnode -> result xnode.

  (** one turn of the loop (see M_Transform.transform_one) *)
  Definition doc_one (doc : xnode) (k : Z) (p : path) : result xnode :=
    match node_at doc p with
    | None => Err EValueError
    | Some node =>
        table_elem <-? convert (after_at doc p) k node ;;
        match p with
        | [] => Err EAttributeError
        | _ => Ok (replace_at doc p (x_set_tail table_elem (x_tail node)))
        end
    end.
  Fixpoint doc_all (doc : xnode) (k : Z) (ps : list path) : result xnode :=
    match ps with
    | [] => Ok doc
    | p :: ps' => doc' <-? doc_one doc k p ;; doc_all doc' (k + 1)%Z ps'
    end.
  Definition doc_tables (doc : xnode) : result xnode := doc_all doc 1%Z (find_all is_table doc).
End Loop.

(** ** The loop of the Formex parser

    parsers/formex.py:94-107, 193-203: the GR.NOTES which come before the CORPUS in its parent are
    removed (with the text after them), then the CORPUS is replaced. *)
Section FormexLoop.
  Variable o : pfmx_opts.
  (** the conversion, from the parent, the number of BLK around and the siblings before *)
  Variable convert : option xnode -> Z -> list xnode -> xnode -> result xnode.

  Definition is_corpus (n : xnode) : bool := x_has_tag n (fmx o "CORPUS").
  Definition is_notes (n : xnode) : bool := x_has_tag n (fmx o "GR.NOTES").
  Definition without_notes (l : list xnode) : list xnode := filter (fun n => negb (is_notes n)) l.

  (** the elements BLK from the root to the parent of the node *)
  Fixpoint blks_above (n : xnode) (p : path) : Z :=
    match p with
    | [] => 0
    | i :: p' =>
        ((if x_has_tag n (fmx o "BLK") then 1 else 0) +
         match nth_error (x_children n) i with Some c => blks_above c p' | None => 0 end)%Z
    end.
  (** what becomes of the parent *)
  Definition put_table (i : nat) (new : xnode) (n : xnode) : xnode :=
    match n with
    | XElem tag attrs text children tail =>
        XElem tag attrs text (without_notes (firstn i children) ++ new :: skipn (S i) children) tail
    | _ => n
    end.
  (** the number of the children which have been removed, for the nodes which come after *)
  Fixpoint shift_path (p q : path) (removed : nat) : path :=
    match p, q with
    | [i], j :: q' => if (i <? j)%nat then (j - removed)%nat :: q' else q
    | i :: p', j :: q' => if (i =? j)%nat then j :: shift_path p' q' removed else q
    | _, _ => q
    end.
  Definition formex_one (doc : xnode) (p : path) : result (xnode * nat) :=
    match node_at doc p with
    | None => Err EValueError
    | Some node =>
        let parent := match p with [] => None | _ => node_at doc (removelast p) end in
        let i := last p 0%nat in
        let before := match parent with Some m => firstn i (x_children m) | None => [] end in
        table_elem <-? convert parent (blks_above doc p) before node ;;
        match parent with
        | None => Err EAttributeError
        | Some m =>
            Ok (replace_at doc (removelast p) (put_table i (x_set_tail table_elem (x_tail node)) m),
                List.length (filter is_notes before))
        end
    end.
  (** [sh]: where the nodes are now *)
  Fixpoint formex_all (doc : xnode) (sh : path -> path) (ps : list path) : result xnode :=
    match ps with
    | [] => Ok doc
    | p :: ps' =>
        r <-? formex_one doc (sh p) ;;
        formex_all (fst r) (fun q => shift_path (sh p) (sh q) (snd r)) ps'
    end.
  Definition formex_tables (doc : xnode) : result xnode := formex_all doc (fun q => q) (find_all is_corpus doc).
End FormexLoop.

(** ** The converters *)

(** converters/cals2formex.py *)
Definition convert_cals2formex (kw : kwargs) (doc : xnode) : result xnode :=
  doc' <-? doc_tables (cals_is_table (cals_parser kw)) (fun _ k n => cals2formex kw k n) doc ;;
  finalize_tree (co_ns (fo_cals (formex_builder kw))) doc'.

(** parsers/ooxml/__init__.py:795-796: the style sheet given, or the one of the document *)
Definition with_styles (ox : ooxml_opts) (doc : xnode) : ooxml_opts :=
  match ox_styles ox with
  | Some _ => ox
  | None =>
      MkOoxmlOpts (find (fun n => x_has_tag n (wq "styles")) (flat_map tree_nodes (x_children doc)))
        (ox_float ox) (ox_repr ox) (ox_fixed ox) (ox_page ox) (ox_limit ox)
  end.
(** parsers/ooxml/__init__.py:905: the sections which come after the table *)
Definition sect_after (after : list xnode) : option xnode :=
  find (fun n => x_has_tag n (wq "sectPr")) (flat_map tree_nodes after).
Definition is_word_tbl (n : xnode) : bool := x_has_tag n (wq "tbl").

(** converters/ooxml2formex.py *)
Definition convert_ooxml2formex (kw : kwargs) (ox : ooxml_opts) (doc : xnode) : result xnode :=
  doc' <-? doc_tables is_word_tbl (fun after k n => ooxml2formex kw (with_styles ox doc) (sect_after after) k n) doc ;;
  finalize_tree (co_ns (fo_cals (formex_builder kw))) doc'.
(** converters/ooxml2cals.py; the builder is made first, and it has nothing to do at the end
    (builders/base_builder.py:53) *)
Definition convert_ooxml2cals (kw : kwargs) (ox : ooxml_opts) (doc : xnode) : result xnode :=
  _ <-? cals_builder kw ;;
  doc_tables is_word_tbl (fun after _ n => ooxml2cals kw (with_styles ox doc) (sect_after after) n) doc.
(** converters/formex2cals.py *)
Definition convert_formex2cals (kw : kwargs) (doc : xnode) : result xnode :=
  _ <-? cals_builder kw ;;
  formex_tables (formex_parser kw) (formex2cals kw) doc.
