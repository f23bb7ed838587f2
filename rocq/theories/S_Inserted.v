(** * Vocabulary of C99: the rows inserted in a Word table (w:ins in w:trPr) and the marks around the converted rows *)
From Verif Require Import Base M_Xml S_Ooxml S_Attrs.
Open Scope string_scope.
Open Scope list_scope.

Definition inserted (tr : xnode) : Prop := exists_at ["trPr"; "ins"] tr.
(** The attribute [a] of the insertion is written under [name], after [prefix]; nothing is written if there is none or
    if it is empty. *)
Definition noted (tr : xnode) (a name prefix : string) (l : list (string * string)) : Prop :=
  (exists u, value_at ["trPr"; "ins"] a tr u /\ u <> "" /\ l = [(name, String.append prefix u)]) \/
  ((forall u, value_at ["trPr"; "ins"] a tr u -> u = "") /\ l = []).
(** What stands for the Word row: its element, between two processing instructions if the row is inserted *)
Definition marked (tag : string) (tr : xnode) (items : list xnode) : Prop :=
  exists row, x_tag row = Some tag /\
    (~ inserted tr -> items = [row]) /\
    (inserted tr -> exists start finish id creator date,
       items = [XPI "change-start" start None; row; XPI "change-end" finish None] /\
       noted tr "id" "change-id" "ct" id /\ noted tr "author" "creator" "" creator /\ noted tr "date" "date" "" date /\
       says start (("type", "row:insertion") :: id ++ creator ++ date) /\ says finish (("type", "row:insertion") :: id)).
