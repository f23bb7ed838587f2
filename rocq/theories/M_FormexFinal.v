(** * Model of benker/builders/formex.py:639-835: the completion of a Formex document

    The passes are written as functions on trees.  The elements are those of the Formex schema,
    without name space (formex.py:163-165). *)
From Verif Require Import Base M_Geometry M_Xml M_Cell M_Regex M_Str M_Cals M_Formex.
Open Scope Z_scope.
Open Scope string_scope.
Open Scope list_scope.

(** ** formex.py:662-681 update_no_seq *)

(** formex.py:673-679: the counters, after a table which has [level - 1] tables around it *)
Fixpoint incr_last (l : list Z) : list Z :=
  match l with
  | [] => []
  | [x] => [x + 1]
  | x :: l' => x :: incr_last l'
  end.
Definition bump (level : nat) (stack : list Z) : list Z :=
  let n := List.length stack in
  incr_last (if (n <? level)%nat then stack ++ repeat 0 (level - n) else firstn level stack).
(** formex.py:680 *)
Definition no_seq_text (stack : list Z) : string := String.concat "." (map format04 stack).

(** [level] tables are around the node; the node and the counters after it *)
Fixpoint number (level : nat) (n : xnode) (stack : list Z) {struct n} : xnode * list Z :=
  match n with
  | XElem tag attrs text children tail =>
      let go := fix go (level : nat) (l : list xnode) (stack : list Z) : list xnode * list Z :=
        match l with
        | [] => ([], stack)
        | c :: l' =>
            let (c', s1) := number level c stack in
            let (r, s2) := go level l' s1 in
            (c' :: r, s2)
        end in
      if String.eqb tag "TBL" then
        let s := bump (S level) stack in
        let (children', s') := go (S level) children s in
        (XElem tag (dset attrs "NO.SEQ" (no_seq_text s)) text children' tail, s')
      else
        let (children', s') := go level children stack in
        (XElem tag attrs text children' tail, s')
  | _ => (n, stack)
  end.
Definition update_no_seq (root : xnode) : xnode := fst (number 0 root []).

(** ** formex.py:751-806 insert_blk *)

(** XPath [string()]: the texts in an element *)
Fixpoint string_value (n : xnode) : string :=
  match n with
  | XElem _ _ text children _ =>
      (ostr text ++ String.concat "" (map (fun c => (string_value c ++ ostr (x_tail c))%string) children))%string
  | _ => ""
  end.
(** formex.py:784 *)
Definition cell_filled (c : xnode) : bool :=
  negb (String.eqb (string_value c) "") || existsb (fun n => x_has_tag n "IE") (x_children c).

(** formex.py:782-797: the first CELL which is not empty, its position among the CELL elements and
    the columns; the second member of the pairs is what the cell is in the result *)
Fixpoint title_cell_of (ns : option string) (pos : Z) (cells : list (xnode * xnode)) : result (option (xnode * (Z * Z))) :=
  match cells with
  | [] => Ok None
  | (c, c') :: cells' =>
      if cell_filled c then
        let st := x_get c (qname ns "namest") in
        let en := x_get c (qname ns "nameend") in
        if truthy st && truthy en then
          a <-? first_int (ostr st) ;;
          b <-? first_int (ostr en) ;;
          Ok (Some (c', (a, b)))
        else Ok (Some (c', (pos, pos)))
      else title_cell_of ns (pos + 1) cells'
  end.
Definition x_set (n : xnode) (k v : string) : xnode :=
  match n with XElem tag attrs text children tail => XElem tag (dset attrs k v) text children tail | _ => n end.

Section InsertBlk.
  Variable ns : option string.

  (** formex.py:775-803, from the row and what it is in the result (the tables in it being
      completed), the node which is added *)
  Definition blk_item (info : row_info) (row row' : xnode) : result xnode :=
    if String.eqb (ri_tag info) "ROW" then
      match ri_type info with
      | None => Ok row'
      | Some t =>
          Ok (match row' with
              | XElem tag attrs text children tail =>
                  XElem tag (dset attrs "TYPE" t) text
                    (map (fun c => if x_has_tag c "CELL" then x_set c "TYPE" t else c) children) tail
              | _ => row'
              end)
      end
    else
      let cells := filter (fun p => x_has_tag (fst p) "CELL") (combine (x_children row) (x_children row')) in
      found <-? title_cell_of ns 1 cells ;;
      cell <-? match found with
               | Some f => Ok f
               | None => match cells with [] => Err EIndexError | (_, c') :: _ => Ok (c', (1, 1)) end
               end ;;
      let '(c', (a, b)) := cell in
      Ok (XElem (ri_tag info)
            (dupdate [("COL.START", py_str_int a); ("COL.END", py_str_int b)]
               (filter (fun kv => negb (String.eqb (fst kv) "TYPE")) (x_attrs row)))
            (x_text c') (x_children c') None).

  (** formex.py:761, 769-774: the elements which are open, the innermost first, with their children so
      far; a BLK is added to its parent when it is left (nothing else is added to the parent in the
      meantime) *)
  Definition blk_close (st : list (list xnode)) : list (list xnode) :=
    match st with
    | f :: g :: r => (g ++ [XElem "BLK" [] None f None]) :: r
    | _ => st
    end.
  Definition blk_level (depth : nat) (st : list (list xnode)) : list (list xnode) :=
    repeat [] (S depth - List.length st) ++ Nat.iter (List.length st - S depth) blk_close st.
  Definition blk_put (x : xnode) (st : list (list xnode)) : list (list xnode) :=
    match st with f :: r => (f ++ [x]) :: r | [] => [] end.
  (** formex.py:762-803, the body of the loop *)
  Definition blk_step (st : list (list xnode)) (p : xnode * xnode) : result (list (list xnode)) :=
    let '(row, row') := p in
    match row with
    | XPI _ _ _ => Ok (blk_put row' st)
    | _ =>
        let info := guess_row_info (x_get row (qname ns "rowstyle")) in
        x <-? blk_item info row row' ;;
        Ok (blk_put x (blk_level (Z.to_nat (ri_level info)) st))
    end.
  Fixpoint blk_steps (st : list (list xnode)) (l : list (xnode * xnode)) : result (list (list xnode)) :=
    match l with
    | [] => Ok st
    | p :: l' => st' <-? blk_step st p ;; blk_steps st' l'
    end.
  Definition blk_children (l : list (xnode * xnode)) : result (list xnode) :=
    st <-? blk_steps [[]] l ;;
    Ok (match Nat.iter (List.length st - 1) blk_close st with f :: _ => f | [] => [] end).

  (** formex.py:751-806 insert_blk.  The tables are completed from the outermost to the innermost; here
      the children of a node are completed first but the decisions are taken on the node as it was.
      A CORPUS which is a child of a CORPUS is not supported. *)
  Fixpoint insert_blk (n : xnode) : result xnode :=
    match n with
    | XElem tag attrs text children tail =>
        children' <-? (fix go (l : list xnode) : result (list xnode) :=
                         match l with
                         | [] => Ok []
                         | c :: l' => c' <-? insert_blk c ;; r <-? go l' ;; Ok (c' :: r)
                         end) children ;;
        if String.eqb tag "CORPUS" then
          children'' <-? blk_children (combine children children') ;;
          Ok (XElem tag attrs text children'' tail)
        else Ok (XElem tag attrs text children' tail)
    | _ => Ok n
    end.
End InsertBlk.
