(** * Specification: the first table which cannot be converted *)
From Verif Require Import Base M_Xml M_ConvertDoc S_Nested.
Open Scope string_scope.
Open Scope list_scope.

(** [fails i n x]: the conversion of [n], the table of rank [i], raises [x]; [works i n]: it succeeds.
    [first_error]: the first table, in the order of the document [memory], which cannot be converted raises [x]. *)
Definition first_error (is_table : xnode -> bool) (fails : nat -> xnode -> exn -> Prop) (works : nat -> xnode -> Prop) (memory : xnode) (x : exn) : Prop :=
  exists i n n1, nth_error (filter is_table (tree_nodes memory)) i = Some n /\ unlabelled n n1 /\ fails i n1 x /\
    forall i', (i' < i)%nat -> exists m m1, nth_error (filter is_table (tree_nodes memory)) i' = Some m /\ unlabelled m m1 /\ works i' m1.
(** The root of the document is a table, which has no parent where the result could be put; the conversion of the table succeeds. *)
Definition root_error (is_table : xnode -> bool) (works : nat -> xnode -> Prop) (memory : xnode) (x : exn) : Prop :=
  is_table memory = true /\ x = EAttributeError /\ exists n1, unlabelled memory n1 /\ works 0%nat n1.
