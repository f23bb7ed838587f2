(** * Theorems about keys which are no coordinates (C25) *)
From Verif Require Import Base M_Geometry M_Cell M_Grid M_Table.
From Verif Require Import S_Geometry S_Grid.
From Verif Require Import P_Geometry.
Open Scope string_scope.
Open Scope list_scope.
Open Scope Z_scope.

(** An error of [grid[key]] which is not KeyError is the error of get, pop and setdefault, for grids and tables; and
    nothing is changed. *)
Theorem C25_other_errors : forall v e, e <> EKeyError ->
    (forall g, grid_getitem g v = Err e ->
       grid_get g v = Err e /\ grid_pop v g = (g, Err e) /\ forall c, grid_setdefault v c g = (g, Err e)) /\
    (forall t, table_getitem t v = Err e -> table_pop v t = (t, Err e) /\ forall c, table_setdefault v c t = (t, Err e)).
Proof.
  intros v e He. split; [intros g H|intros t H].
  - split; [unfold grid_get; rewrite H; destruct e; congruence|]. split.
    + unfold grid_pop, sbind, sget, slift. rewrite H. reflexivity.
    + intros c. unfold grid_setdefault. rewrite H. destruct e; congruence.
  - split.
    + unfold table_pop, sbind, sget, slift. rewrite H. reflexivity.
    + intros c. unfold table_setdefault. rewrite H. destruct e; congruence.
Qed.
(** Every error of a key which is no coordinate is of this kind: the only KeyError is that of a coordinate without cell. *)
Theorem C25_key_errors : forall v g, grid_getitem g v = Err EKeyError <->
    exists c, denotes_coord v c /\ forall d, In d g -> ~ covers (c_box d) c.
Proof.
  intros v g. unfold grid_getitem. destruct (coord_from_value v) as [c|e] eqn:E; cbn [rbind].
  - assert (X : grid_getitem_c g c = Err EKeyError <-> forall d, In d g -> ~ covers (c_box d) c).
    { clear E. induction g as [|d g IH]; [split; [intros _ d []|reflexivity]|]. cbn [grid_getitem_c].
      assert (HB : box_has (c_box d) c = true <-> covers (c_box d) c) by (unfold box_has, covers; destruct (c_box d) as [[a b] [x y]], c; cbn; rewrite !andb_true_iff, !Z.leb_le; lia).
      destruct (box_has (c_box d) c).
      - split; [discriminate|]. intros H. exfalso. apply (H d (or_introl eq_refl)), HB. reflexivity.
      - rewrite IH. split; [intros H x [<-|Hx]; [intros K; apply HB in K; discriminate|exact (H x Hx)]|intros H x Hx; apply H; right; exact Hx]. }
    rewrite X. split; [intros H; exists c; split; [apply coord_from_value_spec, E|exact H]|].
    intros (c' & Hc & H). apply coord_from_value_spec in Hc. rewrite E in Hc. injection Hc as <-. exact H.
  - split; [|intros (c & H & _); apply coord_from_value_spec in H; congruence]. intros [= ->]. exfalso.
    rewrite coord_from_value_err in E; [discriminate E|]. intros c H. apply coord_from_value_spec in H. congruence.
Qed.
Example C25_other_errors_ex : forall g, grid_getitem g PObj = Err ETypeError /\ grid_get g PObj = Err ETypeError.
Proof. split; reflexivity. Qed.
Print Assumptions C25_other_errors.
Print Assumptions C25_key_errors.
