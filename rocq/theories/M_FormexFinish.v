(** * Model of benker/builders/formex.py:639-749, 808-835: the other passes which complete a Formex
    document

    As in M_FormexFinal, the passes are functions on trees and the elements have no name space
    (formex.py:163-165).  lxml moves the text after an element together with it, and removes it with it. *)
From Verif Require Import Base M_Geometry M_Xml M_Cell M_Str M_Cals M_Formex M_FormexFinal.
Open Scope Z_scope.
Open Scope string_scope.
Open Scope list_scope.

(** ** formex.py:683-695 cleanup_tbl_in_tbl

    The tables are met from the outermost to the innermost: a TBL which is in a TBL is replaced by its
    children (its text and its tail are lost), and so are those of its children which are TBL. *)
Fixpoint cleanup_in (under : bool) (n : xnode) : list xnode :=
  match n with
  | XElem tag attrs text children tail =>
      let is_tbl := String.eqb tag "TBL" in
      let children' := flat_map (cleanup_in is_tbl) children in
      if under && is_tbl then children' else [XElem tag attrs text children' tail]
  | _ => [n]
  end.
Definition cleanup_tbl_in_tbl (root : xnode) : xnode :=
  match cleanup_in false root with [n] => n | _ => root end.

(** ** formex.py:697-749 extract_gr_notes *)

(** What a row gives: the text which goes before (when the cell has a GR.NOTES) and the nodes *)
Definition note := (option string * list xnode)%type.

(** [next(fmx_cell.iterchildren(GR_NOTES), None)], updated *)
Definition x_add_attrs (a : dict string) (n : xnode) : xnode :=
  match n with
  | XElem tag attrs text children tail =>
      XElem tag (fold_left (fun d kv => if dmem d (fst kv) then d else dset d (fst kv) (snd kv)) a attrs) text children tail
  | _ => n
  end.
Fixpoint update_first (p : xnode -> bool) (f : xnode -> xnode) (l : list xnode) : option (list xnode) :=
  match l with
  | [] => None
  | c :: l' => if p c then Some (f c :: l') else match update_first p f l' with Some r => Some (c :: r) | None => None end
  end.
(** formex.py:724-746: the attributes of the row without TYPE, and its children *)
Definition note_of (attrs : dict string) (children : list xnode) : result note :=
  match find (fun c => x_has_tag c "CELL") children with
  | None => Err EAttributeError
  | Some cell =>
      match update_first (fun c => x_has_tag c "GR.NOTES") (x_add_attrs attrs) (x_children cell) with
      | None => Ok (None, [x_add_attrs attrs (XElem "GR.NOTES" [] (Some (ostr (x_text cell))) (x_children cell) None)])
      | Some l => Ok (Some (ostr (x_text cell)), l)
      end
  end.

(** formex.py:737-743: the notes are put one after the other before the CORPUS *)
Fixpoint tail_last (s : string) (l : list xnode) : list xnode :=
  match l with
  | [] => []
  | [n] => [x_set_tail n (Some (ostr (x_tail n) ++ s)%string)]
  | n :: l' => n :: tail_last s l'
  end.
Fixpoint put_notes (text : option string) (before : list xnode) (notes : list note) : option string * list xnode :=
  match notes with
  | [] => (text, before)
  | (None, nodes) :: r => put_notes text (before ++ nodes) r
  | (Some s, nodes) :: r =>
      match before with
      | [] => put_notes (Some (ostr text ++ s)%string) nodes r
      | _ => put_notes text (tail_last s before ++ nodes) r
      end
  end.
Fixpoint split_corpus (l : list xnode) : option (list xnode * list xnode) :=
  match l with
  | [] => None
  | c :: l' =>
      if x_has_tag c "CORPUS" then Some ([], l)
      else match split_corpus l' with Some (a, b) => Some (c :: a, b) | None => None end
  end.
(** formex.py:721-722: [fmx_tbl.index(None)] raises TypeError *)
Definition insert_notes (text : option string) (children : list xnode) (notes : list note) : result (option string * list xnode) :=
  match notes with
  | [] => Ok (text, children)
  | _ =>
      match split_corpus children with
      | None => Err ETypeError
      | Some (before, after) => let (text', before') := put_notes text before notes in Ok (text', before' ++ after)
      end
  end.

(** formex.py:716-749.  What is left of the node, and the notes for the table around it.  The rows are
    met in document order; a row is removed after the next one is found.  The model is not faithful for a row
    "__GR.NOTES__" with a table in another cell than the first one (which is dropped with the cell, and the loop
    ends there): for these see M_NotesLoop.v, and T_NotesLoop.v for the documents on which both agree. *)
Fixpoint extract_in (n : xnode) : result (list xnode * list note) :=
  match n with
  | XElem tag attrs text children tail =>
      cn <-? (fix go (l : list xnode) : result (list xnode * list note) :=
                match l with
                | [] => Ok ([], [])
                | c :: l' => a <-? extract_in c ;; b <-? go l' ;; Ok (fst a ++ fst b, snd a ++ snd b)
                end) children ;;
      let (children', notes) := cn in
      if String.eqb tag "TBL" then
        tc <-? insert_notes text children' notes ;;
        Ok ([XElem tag attrs (fst tc) (snd tc) tail], [])
      else if String.eqb tag "ROW" then
        let attrs' := ddel attrs "TYPE" in
        match dget attrs "TYPE" with
        | Some t =>
            if String.eqb t "__GR.NOTES__" then
              x <-? note_of attrs' children' ;; Ok ([], x :: notes)
            else Ok ([XElem tag attrs' text children' tail], notes)
        | None => Ok ([XElem tag attrs' text children' tail], notes)
        end
      else Ok ([XElem tag attrs text children' tail], notes)
  | _ => Ok ([n], [])
  end.
(** formex.py:720: [next(fmx_row.iterancestors(TBL))] raises StopIteration for a row which is in no table *)
Definition extract_gr_notes (root : xnode) : result xnode :=
  r <-? extract_in root ;;
  match r with
  | ([root'], []) => Ok root'
  | _ => Err EStopIteration
  end.

(** ** formex.py:808-835 drop_superfluous_attrs *)
Definition SUPERFLUOUS : list string := ["namest"; "nameend"; "morerows"; "rowstyle"].
Definition DROP_IN : list string := ["ROW"; "CELL"; "TI.BLK"; "STI.BLK"; "GR.NOTES"].
Fixpoint drop_in (ns : option string) (under : bool) (n : xnode) : xnode :=
  match n with
  | XElem tag attrs text children tail =>
      let under' := under || String.eqb tag "TBL" in
      XElem tag
        (if under' && existsb (String.eqb tag) DROP_IN
         then fold_left (fun a k => ddel a (qname ns k)) SUPERFLUOUS attrs else attrs)
        text (map (drop_in ns under') children) tail
  | _ => n
  end.
Definition drop_superfluous_attrs (ns : option string) (root : xnode) : xnode := drop_in ns false root.

(** ** formex.py:639-659 finalize_tree *)
Definition finalize_tree (ns : option string) (root : xnode) : result xnode :=
  let root := update_no_seq root in
  let root := cleanup_tbl_in_tbl root in
  root <-? extract_gr_notes root ;;
  root <-? insert_blk ns root ;;
  Ok (drop_superfluous_attrs ns root).
