(** * Specification vocabulary for the spacing and the shadow of Word borders *)
From Coq Require Import QArith.
From Verif Require Import Base M_Geometry M_Xml M_Cell M_Ooxml S_Ooxml S_OoxmlStyle.
Open Scope Z_scope.
Open Scope string_scope.
Open Scope list_scope.

Section Spacing.
  Variable o : ooxml_opts.

  (** The space between the border and what is inside, in points, and its text; none is zero *)
  Definition distance (names : list string) (b : xnode) (q : Q) (s : string) : Prop :=
    (exists v, given names "space" b v /\ ox_float o v = Ok q /\ s = (ox_repr o q ++ "pt")%string) \/
    ((forall v, ~ given names "space" b v) /\ q = 0%Q /\ s = "0pt").
  (** The shadow of a border is as wide as the border. *)
  Definition shade (names : list string) (b : xnode) (s : string) : Prop :=
    (given names "shadow" b "true" /\
     exists v q, given names "sz" b v /\ ox_float o v = Ok q /\ s = (ox_repr o (q / 8)%Q ++ "pt")%string) \/
    (~ given names "shadow" b "true" /\ s = "0ptpt").

  (** [spacing sides b k t]: what the borders [b] (the names of the elements of each side) say of the model of the
      borders, of the space between them, of their shadow *)
  Definition spacing (sides : list (list string)) (b : xnode) (k t : string) : Prop :=
    (k = "border-collapse" /\ (exists names v, In names sides /\ given names "space" b v) /\
     exists l, Forall2 (fun names d => distance names b (fst d) (snd d)) sides l /\
       ((t = "collapse" /\ Forall (fun d => fst d == 0)%Q l) \/ (t = "separate" /\ Exists (fun d => ~ fst d == 0)%Q l))) \/
    (k = "border-spacing" /\
     exists l, Forall2 (fun names d => distance names b (fst d) (snd d)) sides l /\ Exists (fun d => ~ fst d == 0)%Q l /\ t = spaced (map snd l)) \/
    (k = "box-shadow" /\ (exists names, In names sides /\ given names "shadow" b "true") /\
     exists l, Forall2 (fun names s => shade names b s) sides l /\ t = spaced l).

  (** The sides of a table, and those of its cells *)
  Definition OUTER_SIDES : list (list string) := [["top"]; ["end"; "right"]; ["bottom"]; ["start"; "left"]; ["tr2bl"]; ["tl2br"]].
  Definition INNER_SIDES : list (list string) := [["insideH"]; ["insideV"]; ["insideH"]; ["insideV"]].
  Definition SPACING : list string := ["border-collapse"; "border-spacing"; "box-shadow"].
  Definition CELL_SPACING : list string := ["x-cell-border-collapse"; "x-cell-border-spacing"; "x-cell-box-shadow"].

  (** What the properties of the style [n] say; what those of the table [n] say *)
  Definition style_spacing (n : xnode) (k t : string) : Prop :=
    exists b, element_at ["tblPr"; "tblBorders"] n b /\
      (spacing OUTER_SIDES b k t \/ exists s, k = ("x-cell-" ++ s)%string /\ spacing INNER_SIDES b s t).
  Definition table_spacing (n : xnode) (k t : string) : Prop :=
    exists b, element_at ["tblPr"; "tblBorders"] n b /\ spacing OUTER_SIDES b k t.
  (** The nearest style which says something *)
  Definition nearest_spacing (l : list xnode) (k t : string) : Prop :=
    exists near st far, l = near ++ st :: far /\ style_spacing st k t /\ forall s u, In s near -> ~ style_spacing s k u.
End Spacing.
