(** * Model of the printed forms of coordinates, sizes, boxes and rows

    coord.py:69-70, size.py:62-66, box.py:181-182, table.py:220-222.

    Simplified: the numbers are integers; [repr] of an integer is its decimal form.  The printed forms of cells,
    grids and styles contain those of texts and dictionaries of Python, which are not modelled. *)
From Verif Require Import Base M_Geometry M_Xml M_Cell M_Grid M_Table M_Drawing.
Open Scope string_scope.
Open Scope list_scope.

(** [s.replace(old, new)] on strings; M_Drawing.py_replace *)
Definition str_replace (s old new : string) : string :=
  string_of_list_ascii (py_replace (list_ascii_of_string s) (list_ascii_of_string old) (list_ascii_of_string new)).

Section Version.
  (** collections.namedtuple: the name of the class of the object is written by Python 3; Python 2 writes the
      name which was given to [namedtuple] *)
  Variable python2 : bool.
  (** The method [__repr__] of a named tuple with two fields; [a] and [b] are the printed values *)
  Definition namedtuple_repr (cls typename f1 a f2 b : string) : string :=
    (if python2 then typename else cls) ++ "(" ++ f1 ++ "=" ++ a ++ ", " ++ f2 ++ "=" ++ b ++ ")".
  (** coord.py:69-70; the named tuple of coord.py:17 *)
  Definition coord_repr (c : coord) : string :=
    str_replace (namedtuple_repr "Coord" "CoordTuple" "x" (py_str_int (cx c)) "y" (py_str_int (cy c))) "CoordTuple" "Coord".
  (** size.py:65-66; the named tuple of size.py:14 *)
  Definition size_repr (s : size) : string :=
    str_replace (namedtuple_repr "Size" "SizeTuple" "width" (py_str_int (sw s)) "height" (py_str_int (sh s))) "SizeTuple" "Size".
  (** box.py:181-182; the named tuple of box.py:102 *)
  Definition box_repr (b : box) : string :=
    str_replace (namedtuple_repr "Box" "BoxTuple" "min" (coord_repr (bmin b)) "max" (coord_repr (bmax b))) "BoxTuple" "Box".
End Version.

(** size.py:62-63 *)
Definition size_str (s : size) : string := "(" ++ py_str_int (sw s) ++ " x " ++ py_str_int (sh s) ++ ")".
(** table.py:220-222 *)
Definition view_str (v : view) : string := "[" ++ String.concat ", " (map cell_str (v_owned v)) ++ "]".
