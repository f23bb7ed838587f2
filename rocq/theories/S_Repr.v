(** * Specification vocabulary: printed forms *)
From Verif Require Import Base M_Geometry.
Open Scope string_scope.

(** What is printed *)
Inductive printable := ACoord (c : coord) | ASize (s : size) | ABox (b : box).

(** [listing l s]: [s] is the texts of [l], one after the other, with a comma and a space between two of them *)
Inductive listing : list string -> string -> Prop :=
| listing_none : listing [] ""
| listing_one a : listing [a] a
| listing_more a b l s : listing (b :: l) s -> listing (a :: b :: l) (a ++ ", " ++ s).
