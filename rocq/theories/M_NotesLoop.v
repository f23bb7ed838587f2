(** * Model of the loop of benker/builders/formex.py:718-749 (extract_gr_notes)

    [extract_in] (M_FormexFinish.v) treats all the rows.  The loop [for fmx_row in fmx_root.iter(ROW)] does
    not always do so: the iterator of lxml finds the next row before the current one is given to the body.  If
    the current row is a footer row which has rows of its own, the next row is the first one of these.
    The body then moves the content of the first CELL of the footer row before the CORPUS, and removes the
    row with the rest.  So
    - if the next row is in the first CELL it goes on from the place where the content was moved, the rows of the
      CORPUS which follow included (those it meets again have no TYPE any more);
    - if it is elsewhere in the footer row, it goes on in the removed row, and stops at the end of it: the rest of the
      document is never visited.
    As in [extract_in], the rows are those of the CORPUS of a TBL. *)
From Verif Require Import Base M_Geometry M_Xml M_Cell M_Str M_Cals M_Formex M_FormexFinal M_FormexFinish.
Open Scope Z_scope.
Open Scope string_scope.
Open Scope list_scope.

(** [next(node.iter("ROW"), None) is not None] *)
Fixpoint has_row (n : xnode) : bool :=
  match n with
  | XElem tag _ _ children _ => String.eqb tag "ROW" || existsb has_row children
  | _ => false
  end.

(** formex.py:719-720 *)
Definition is_footer (tag : string) (attrs : dict string) : bool :=
  String.eqb tag "ROW" &&
  match dget attrs "TYPE" with Some t => String.eqb t "__GR.NOTES__" | None => false end.

(** What is left of the nodes, the notes for the table around them, and whether the loop has ended *)
Definition walked := (list xnode * list note * bool)%type.

(** The nodes of a list, from the first to the last *)
Definition walks (walk : xnode -> bool -> result walked) : list xnode -> bool -> result walked :=
  fix go (l : list xnode) (ended : bool) : result walked :=
    match l with
    | [] => Ok ([], [], ended)
    | c :: l' =>
        a <-? walk c ended ;;
        b <-? go l' (snd a) ;;
        Ok (fst (fst a) ++ fst (fst b), snd (fst a) ++ snd (fst b), snd b)
    end.

(** formex.py:725-749, the content of a footer row: the first CELL as the loop leaves it, and the notes of
    the rows in it.  [rows]: there are rows before the first CELL. *)
Definition walk_footer (walk : xnode -> bool -> result walked) : bool -> bool -> list xnode -> result walked :=
  fix go (rows ended : bool) (l : list xnode) : result walked :=
    match l with
    | [] => Err EAttributeError
    | c :: l' =>
        match c with
        | XElem tag attrs text content tail =>
            if String.eqb tag "CELL" then
              if rows then
                _ <-? walks walk l' ended ;;
                Ok ([c], [], true)
              else if existsb has_row content then
                a <-? walks walk content false ;;
                Ok ([XElem tag attrs text (fst (fst a)) tail], snd (fst a), snd a)
              else if existsb has_row l' then
                _ <-? walks walk l' false ;;
                Ok ([c], [], true)
              else Ok ([c], [], false)
            else
              a <-? walk c ended ;;
              go (rows || has_row c) (snd a) l'
        | _ => go rows ended l'
        end
    end.

Fixpoint walk (n : xnode) (ended : bool) {struct n} : result walked :=
  if ended then Ok ([n], [], true)
  else
    match n with
    | XElem tag attrs text children tail =>
        if is_footer tag attrs then
          r <-? walk_footer walk false false children ;;
          x <-? note_of (ddel attrs "TYPE") (fst (fst r)) ;;
          Ok ([], x :: snd (fst r), snd r)
        else
          r <-? walks walk children false ;;
          if String.eqb tag "TBL" then
            tc <-? insert_notes text (fst (fst r)) (snd (fst r)) ;;
            Ok ([XElem tag attrs (fst tc) (snd tc) tail], [], snd r)
          else
            Ok ([XElem tag (if String.eqb tag "ROW" then ddel attrs "TYPE" else attrs) text (fst (fst r)) tail], snd (fst r), snd r)
    | _ => Ok ([n], [], false)
    end.

Definition loop_gr_notes (root : xnode) : result xnode :=
  r <-? walk root false ;;
  match r with
  | ([root'], [], _) => Ok root'
  | _ => Err EStopIteration
  end.

(** formex.py:639-659 finalize_tree, with this loop *)
Definition finalize_loop (ns : option string) (root : xnode) : result xnode :=
  let root := update_no_seq root in
  let root := cleanup_tbl_in_tbl root in
  root <-? loop_gr_notes root ;;
  root <-? insert_blk ns root ;;
  Ok (drop_superfluous_attrs ns root).
