(** * Specification vocabulary for complete Formex documents *)
From Verif Require Import Base M_Geometry M_Xml M_Cell M_Table S_Units S_Int S_Builder S_Cals S_Formex.
Open Scope Z_scope.
Open Scope string_scope.
Open Scope list_scope.

(** ** Numbers of tables *)

(** A number is written with four digits, more if need be. *)
Definition four_digits (n : Z) (s : string) : Prop :=
  let l := list_ascii_of_string s in
  digits_value l n /\ (4 <= List.length l)%nat /\
  (List.length l = 4%nat \/ exists c r, l = c :: r /\ c <> "0"%char).

Definition is_tbl (n : xnode) : bool := x_has_tag n "TBL".
(** The outermost tables of a node, in document order, the node included; the tables which are in a
    table without another one in between; all the tables *)
Fixpoint outer_tables (n : xnode) : list xnode :=
  if is_tbl n then [n] else match n with XElem _ _ _ children _ => flat_map outer_tables children | _ => [] end.
Definition tables_in (n : xnode) : list xnode := flat_map outer_tables (x_children n).
Fixpoint all_tables (n : xnode) : list xnode :=
  (if is_tbl n then [n] else []) ++ match n with XElem _ _ _ children _ => flat_map all_tables children | _ => [] end.

(** The tables of a list are numbered 1, 2, 3... after [prefix], those which are in a table after the
    number of this table and a dot. *)
Inductive numbered : string -> list xnode -> Prop :=
| numbered_list prefix l :
    (forall i a, nth_error l i = Some a ->
       exists s, four_digits (Z.of_nat i + 1) s /\ x_get a "NO.SEQ" = Some (prefix ++ s)%string /\
         numbered (prefix ++ s ++ ".")%string (tables_in a)) ->
    numbered prefix l.

(** Everything but the numbers *)
Fixpoint without_numbers (n : xnode) : xnode :=
  match n with
  | XElem tag attrs text children tail =>
      XElem tag (if String.eqb tag "TBL" then ddel attrs "NO.SEQ" else attrs) text (map without_numbers children) tail
  | _ => n
  end.

(** ** Blocks *)

Definition is_blk (n : xnode) : bool := x_has_tag n "BLK".
(** The nodes of a list with the number of blocks around them *)
Fixpoint leaves (depth : nat) (n : xnode) : list (nat * xnode) :=
  if is_blk n then match n with XElem _ _ _ children _ => flat_map (leaves (S depth)) children | _ => [] end else [(depth, n)].
Definition leaves_of (depth : nat) (l : list xnode) : list (nat * xnode) := flat_map (leaves depth) l.
(** No block is empty and two blocks do not follow one another. *)
Inductive tidy : list xnode -> Prop :=
| tidy_nil : tidy []
| tidy_leaf n l : is_blk n = false -> tidy l -> tidy (n :: l)
| tidy_blk children l : children <> [] -> tidy children -> tidy l ->
    (forall n l', l = n :: l' -> is_blk n = false) -> tidy (XElem "BLK" [] None children None :: l).

Definition no_blk (l : list xnode) : Prop := forall n, In n l -> is_blk n = false.

(** What the style of a row says *)
Definition decoded (ns : option string) (row : xnode) (tag : string) (type : option string) (level : Z) : Prop :=
  match attribute ns row "rowstyle" with
  | None => tag = "ROW" /\ type = None /\ level = 0
  | Some s =>
      (exists lv, row_style_name s tag type lv /\ level = match lv with Some n => n | None => 0 end) \/
      ((forall a b c, ~ row_style_name s a b c) /\ tag = "ROW" /\ type = None /\ level = 0)
  end.

(** There is some text in the element; it is marked as empty *)
Inductive says : xnode -> Prop :=
| says_text n s : x_text n = Some s -> s <> "" -> says n
| says_tail n c s : In c (x_children n) -> x_tail c = Some s -> s <> "" -> says n
| says_inside n c : In c (x_children n) -> says c -> says n.
Definition filled (c : xnode) : Prop := says c \/ exists e, In e (x_children c) /\ x_tag e = Some "IE".

Definition cells_of (row : xnode) : list xnode := children_named "CELL" [row].
(** The columns of the [i]th cell (from 0) *)
Definition title_columns (ns : option string) (c : xnode) (i : nat) (a b : Z) : Prop :=
  match attribute ns c "namest", attribute ns c "nameend" with
  | Some s, Some t => if String.eqb s "" || String.eqb t "" then a = Z.of_nat i + 1 /\ b = Z.of_nat i + 1
                      else first_number s a /\ first_number t b
  | _, _ => a = Z.of_nat i + 1 /\ b = Z.of_nat i + 1
  end.

(** A node with one attribute more *)
Definition with_attr (k v : string) (n n' : xnode) : Prop :=
  x_tag n' = x_tag n /\ x_text n' = x_text n /\ x_children n' = x_children n /\ x_tail n' = x_tail n /\
  x_get n' k = Some v /\ forall k', k' <> k -> x_get n' k' = x_get n k'.

(** What is written for a row whose style says [tag] and [type]: [row'] is the row with the tables in
    it completed *)
Definition typed_row (t : string) (row' x : xnode) : Prop :=
  x_tag x = x_tag row' /\ x_text x = x_text row' /\ x_tail x = x_tail row' /\
  x_get x "TYPE" = Some t /\ (forall k, k <> "TYPE" -> x_get x k = x_get row' k) /\
  Forall2 (fun c d => if x_has_tag c "CELL" then with_attr "TYPE" t c d else d = c) (x_children row') (x_children x).
Definition block_title (ns : option string) (tag : string) (row row' x : xnode) : Prop :=
  exists i c c' a b,
    nth_error (cells_of row) i = Some c /\ nth_error (cells_of row') i = Some c' /\
    ((filled c /\ title_columns ns c i a b /\ forall j d, (j < i)%nat -> nth_error (cells_of row) j = Some d -> ~ filled d) \/
     (i = 0%nat /\ a = 1 /\ b = 1 /\ forall d, In d (cells_of row) -> ~ filled d)) /\
    x_tag x = Some tag /\ x_text x = x_text c' /\ x_children x = x_children c' /\ x_tail x = None /\
    (NoDup (map fst (x_attrs row)) ->
       forall k, x_get x k = match (if String.eqb k "TYPE" then None else x_get row k) with
                             | Some v => Some v
                             | None => if String.eqb k "COL.START" then Some (py_str_int a)
                                       else if String.eqb k "COL.END" then Some (py_str_int b) else None
                             end).
Definition block_item (ns : option string) (tag : string) (type : option string) (row row' x : xnode) : Prop :=
  if String.eqb tag "ROW" then match type with None => x = row' | Some t => typed_row t row' x end
  else block_title ns tag row row' x.

(** The rows in order, with their levels; a processing instruction has the level of what precedes. *)
Inductive placed (ns : option string) : nat -> list (xnode * xnode) -> list (nat * xnode) -> Prop :=
| placed_nil d : placed ns d [] []
| placed_pi d a b c row' l m : placed ns d l m -> placed ns d ((XPI a b c, row') :: l) ((d, row') :: m)
| placed_row d row row' tag type level x l m :
    (forall a b c, row <> XPI a b c) -> decoded ns row tag type level -> block_item ns tag type row row' x ->
    placed ns (Z.to_nat level) l m -> placed ns d ((row, row') :: l) ((Z.to_nat level, x) :: m).

(** The rows of each CORPUS are grouped in blocks; the rest of the document is the same. *)
Inductive blocked (ns : option string) : xnode -> xnode -> Prop :=
| blocked_pi a b c : blocked ns (XPI a b c) (XPI a b c)
| blocked_comment a b : blocked ns (XComment a b) (XComment a b)
| blocked_elem tag attrs text children children' tail :
    tag <> "CORPUS" -> Forall2 (blocked ns) children children' ->
    blocked ns (XElem tag attrs text children tail) (XElem tag attrs text children' tail)
| blocked_corpus attrs text children rows children' tail :
    Forall2 (blocked ns) children rows -> tidy children' ->
    placed ns 0 (combine children rows) (leaves_of 0 children') ->
    blocked ns (XElem "CORPUS" attrs text children tail) (XElem "CORPUS" attrs text children' tail).

(** No block nor CORPUS is a child of a CORPUS. *)
Inductive plain_corpora : xnode -> Prop :=
| plain_node n :
    (forall c, In c (x_children n) -> plain_corpora c) ->
    (x_tag n = Some "CORPUS" -> forall c, In c (x_children n) -> is_blk c = false /\ x_tag c <> Some "CORPUS") ->
    plain_corpora n.

(** The columns which are given can be read; the rows which are titles have a cell. *)
Definition columns_ready (ns : option string) (c : xnode) : Prop :=
  forall s t, attribute ns c "namest" = Some s -> attribute ns c "nameend" = Some t -> s <> "" -> t <> "" ->
    (exists a, first_number s a) /\ (exists b, first_number t b).
Definition title_ready (ns : option string) (row : xnode) : Prop :=
  forall tag type level, decoded ns row tag type level -> tag <> "ROW" ->
    cells_of row <> [] /\ forall c, In c (cells_of row) -> columns_ready ns c.
Inductive titles_ready (ns : option string) : xnode -> Prop :=
| ready_node n :
    (forall c, In c (x_children n) -> titles_ready ns c) ->
    (x_tag n = Some "CORPUS" -> forall c, In c (x_children n) -> title_ready ns c) ->
    titles_ready ns n.
(** No row of the document is a title. *)
Inductive untitled (ns : option string) : xnode -> Prop :=
| untitled_node n :
    (forall c, In c (x_children n) -> untitled ns c) ->
    (x_tag n = Some "CORPUS" -> forall c tag type level, In c (x_children n) -> decoded ns c tag type level -> tag = "ROW") ->
    untitled ns n.
