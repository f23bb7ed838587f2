(** * Model of benker/parsers/formex.py *)
From Coq Require Import QArith.
From Verif Require Import Base M_Geometry M_Xml M_Cell M_Grid M_Table M_Regex M_Str M_Units M_Cals M_CalsParser.
Open Scope Z_scope.
Open Scope string_scope.

(** formex.py:312-319: the name of the style of a ROW in [blk_count] BLK elements; an empty TYPE is
    ignored *)
Definition fmx_row_style (row_type : option string) (blk_count : Z) : option string :=
  let parts := ((if truthy row_type then [ostr row_type] else []) ++
                (if (blk_count =? 0)%Z then [] else [("level" ++ py_str_int blk_count)%string]))%list in
  match parts with
  | [] => None
  | _ => Some (String.concat "-" ("ROW" :: parts))
  end.
(** formex.py:388-391, 415-418: the style of a TI.BLK or STI.BLK *)
Definition fmx_title_style (tag : string) (blk_count : Z) : string := tag ++ "-level" ++ py_str_int blk_count.
