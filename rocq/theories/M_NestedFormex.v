(** * Model of the conversion of a Formex document which has tables inside tables

    The loop of transform_tables (parsers/formex.py:94-106).  As in M_Nested.v the list of the CORPUS elements is
    made before the first turn, each one keeps its identity (a mark) when the cell in which it stands is moved to the
    new table, and its own turn replaces it there.

    When a CORPUS is read, the GR.NOTES which come before a nested CORPUS (in the same parent) are taken from the
    document too (parsers/formex.py:191-203; see [end_corpus] in M_FormexRead.v, which makes rows from them), so that
    the content of the cell does not have them any more.

    Simplified: a CORPUS which is in no content any more is converted by the code from the tree it was in, and the
    result is lost; here it is converted from the document as it was before the first turn.  A node which is in the contents of
    two cells (a CELL inside a CELL of the same table) is in both places here, while lxml has it in the last one only;
    a turn replaces it at each place.  When a CORPUS is a child of a CELL, the notes before it in the CELL stay in the content
    (they were listed when the CELL was read), here they do not. *)
From Verif Require Import Base M_Xml M_Geometry M_Cell M_Grid M_Table M_Cals M_CalsParser M_FormexParser M_FormexRead M_Transform M_Convert M_ConvertDoc M_Nested.
Open Scope string_scope.
Open Scope list_scope.

Section Nested.
  Variable o : pfmx_opts.
  (** the conversion of one CORPUS, as in M_ConvertDoc.FormexLoop *)
  Variable convert : option xnode -> Z -> list xnode -> xnode -> result xnode.

  (** parsers/formex.py:193-203, the notes before a nested CORPUS *)
  Fixpoint notes_taken (l : list xnode) : list xnode :=
    match l with
    | [] => []
    | c :: l' => if is_notes o c && existsb (is_corpus o) l' then notes_taken l' else c :: notes_taken l'
    end.
  (** what is left of a node; the tables inside a nested table are skipped (parsers/formex.py:149-153) *)
  Fixpoint strip (n : xnode) : xnode :=
    match n with
    | XElem tag attrs text children tail =>
        if is_corpus o n then n else XElem tag attrs text (notes_taken (map strip children)) tail
    | _ => n
    end.

  (** parsers/formex.py:99-106, the turn of the CORPUS of rank [k] in the node [n] which has [blks] elements BLK around it *)
  Fixpoint turn (k : nat) (blks : Z) (n : xnode) {struct n} : result xnode :=
    match n with
    | XElem tag attrs text children tail =>
        let inner := (blks + (if x_has_tag n (fmx o "BLK") then 1 else 0))%Z in
        children' <-? (fix go (done l : list xnode) {struct l} : result (list xnode) :=
                         match l with
                         | [] => Ok done
                         | c :: l' =>
                             if has_mark (fmx o "CORPUS") k c then
                               e <-? convert (Some n) inner done (drop_mark c) ;;
                               go (without_notes o done ++ [x_set_tail (strip e) (x_tail c)]) l'
                             else
                               c' <-? turn k inner c ;;
                               go (done ++ [c']) l'
                         end) [] children ;;
        Ok (XElem tag attrs text children' tail)
    | _ => Ok n
    end.
  Definition fnested_one (src doc : xnode) (k : nat) : result xnode :=
    if has_mark (fmx o "CORPUS") k doc then
      _ <-? convert None 0%Z [] (drop_mark doc) ;; Err EAttributeError
    else if existsb (has_mark (fmx o "CORPUS") k) (tree_nodes doc) then turn k 0%Z doc
    else _ <-? turn k 0%Z src ;; Ok doc.
  Fixpoint fnested_all (src doc : xnode) (ks : list nat) : result xnode :=
    match ks with
    | [] => Ok doc
    | k :: ks' => doc' <-? fnested_one src doc k ;; fnested_all src doc' ks'
    end.
  Definition fnested_tables (doc : xnode) : result xnode :=
    let m := mark_from (fmx o "CORPUS") 1 doc in
    fnested_all (snd m) (snd m) (seq 1 (fst m - 1)).
End Nested.

(** converters/formex2cals.py *)
Definition nested_formex2cals (kw : kwargs) (doc : xnode) : result xnode :=
  _ <-? cals_builder kw ;;
  fnested_tables (formex_parser kw) (formex2cals kw) doc.
