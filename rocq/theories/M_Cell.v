(** * Model of benker/styled.py, benker/cell.py *)
From Verif Require Import Base M_Geometry M_Xml.

(** Cell contents.  [CNum] stands for python numbers ([str] of an int); [COther s] is any other
    object, known by its [str].  [bytes] (python 2) are left out. *)
Inductive content : Type :=
| CNone
| CText (s : string)
| CNum (z : Z)
| CList (l : list content)
| CNode (n : xnode)
| COther (s : string).

Section ContentInd.
  Variable P : content -> Prop.
  Hypothesis H0 : P CNone.
  Hypothesis H1 : forall s, P (CText s).
  Hypothesis H2 : forall z, P (CNum z).
  Hypothesis H3 : forall l, Forall P l -> P (CList l).
  Hypothesis H4 : forall n, P (CNode n).
  Hypothesis H5 : forall s, P (COther s).

  Fixpoint content_ind' (c : content) : P c :=
    match c with
    | CNone => H0
    | CText s => H1 s
    | CNum z => H2 z
    | CList l => H3 l ((fix go (l : list content) : Forall P l :=
                          match l with
                          | [] => Forall_nil P
                          | c :: l' => Forall_cons c (content_ind' c) (go l')
                          end) l)
    | CNode n => H4 n
    | COther s => H5 s
    end.
End ContentInd.

(** [u"".join(...)] *)
Definition str_concat (l : list string) : string := String.concat EmptyString l.

(** cell.py:110-116 _safe_text *)
Definition safe_text (t : option string) : string :=
  match t with None => EmptyString | Some s => s end.

(** cell.py:119-125 _get_node_text *)
Fixpoint get_node_text (n : xnode) : string :=
  match n with
  | XElem _ _ text children tail =>
      String.append (String.append (safe_text text) (str_concat (map get_node_text children)))
        (safe_text tail)
  | XPI _ _ tail => safe_text tail
  | XComment _ tail => safe_text tail
  end.

(** cell.py:128-180 get_content_text *)
Fixpoint get_content_text (c : content) : string :=
  match c with
  | CNone => EmptyString
  | CText s => s
  | CNum z => py_str_int z
  | CList l => str_concat (map get_content_text l)
  | CNode n => get_node_text n
  | COther s => s
  end.

(** Values of the style dictionaries: strings, booleans ("x-ins"), pairs of numbers
    ("x-sect-size"), None ("cellstyle", parsers/formex.py:548-549). *)
Inductive sval : Type := SStr (s : string) | SBool (b : bool) | SPair (a b : Z) | SNone.
Definition styles := dict sval.

Definition nature := option string.

(** cell.py:184-210 Cell: content, styles, nature and box.  Styled.__init__ (styled.py:50-68)
    copies the dictionary: [None] gives the empty dictionary; see M_Heap.v for the identity of
    the copies. *)
Record cell := MkCell {
  c_content : content;
  c_styles : styles;
  c_nature : nature;
  c_box : box
}.

Definition styles_of (s : option styles) : styles :=
  match s with None => [] | Some d => d end.

(** cell.py:207-210 Cell.__init__ *)
Definition cell_new (ct : content) (st : option styles) (na : nature) (x y width height : Z)
  : result cell :=
  b <-? box_new [PInt x; PInt y; PInt (x + width - 1); PInt (y + height - 1)] ;;
  Ok (MkCell ct (styles_of st) na b).

(** cell.py:250-278 properties *)
Definition c_min (c : cell) : coord := bmin (c_box c).
Definition c_max (c : cell) : coord := bmax (c_box c).
Definition c_size (c : cell) : size := box_size (c_box c).
Definition c_width (c : cell) : Z := box_width (c_box c).
Definition c_height (c : cell) : Z := box_height (c_box c).

(** cell.py:280-281 Cell.__contains__ *)
Definition cell_contains (c : cell) (v : pyval) : result bool := box_contains (c_box c) v.

(** cell.py:212-230 Cell.__str__ *)
Definition cell_str (c : cell) : string := get_content_text (c_content c).

(** cell.py:292-315 Cell.transform *)
Definition cell_transform (c : cell) (co : option pyval) (sz : option pyval) : result cell :=
  b <-? box_transform (c_box c) co sz ;;
  cell_new (c_content c) (Some (c_styles c)) (c_nature c)
    (cx (bmin b)) (cy (bmin b)) (box_width b) (box_height b).

(** cell.py:317-343 Cell.move_to, Cell.resize *)
Definition cell_move_to (c : cell) (co : pyval) : result cell :=
  cell_transform c (match co with PNone => None | _ => Some co end) None.
Definition cell_resize (c : cell) (sz : pyval) : result cell :=
  cell_transform c None (match sz with PNone => None | _ => Some sz end).

(** A reference to a cell object: [==] on cells is the identity of the objects (neither Cell nor
    Styled defines [__eq__]), represented by [cr_id]. *)
Record cellref := { cr_id : Z; cr_cell : cell }.

(** cell.py:285-290 Cell.__lt__ between two cells, and between a cell and a box *)
Definition cell_lt (a b : cellref) : bool := box_lt (c_box (cr_cell a)) (c_box (cr_cell b)).
Definition cell_lt_box (a : cellref) (b : box) : bool := box_lt (c_box (cr_cell a)) b.

(** cell.py:183-184: [@functools.total_ordering class Cell(Styled)]; Cell inherits no comparison
    operator besides the ones of [object]. *)
Definition cell_ops : cmp_ops cellref :=
  total_ordering (fun a b => cr_id a =? cr_id b)
    {| op_lt := Some cell_lt; op_le := None; op_gt := None; op_ge := None |}.

(** [operator.__add__] on contents, the default content appender (grid.py:234): texts, numbers
    and lists are added to the same kind, other combinations raise TypeError. *)
Definition content_add (a b : content) : result content :=
  match a, b with
  | CText s, CText t => Ok (CText (String.append s t))
  | CNum x, CNum y => Ok (CNum (x + y))
  | CList l, CList m => Ok (CList (l ++ m))
  | _, _ => Err ETypeError
  end.
