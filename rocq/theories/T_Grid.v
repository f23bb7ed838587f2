(** * Theorems about grids (C14-C25) *)
From Verif Require Import Base M_Geometry M_Xml M_Cell M_Grid.
From Verif Require Import S_Geometry S_Cell S_Grid P_Geometry P_Cell P_Grid P_GridFacts.

(** A grid used in the examples: a 2x1 cell, a 1x2 cell, a 1x1 cell, reached by insertions (one of
    them failing) and a merge. *)
Definition ex_cell (s : string) (w h : Z) : cell :=
  MkCell (CText s) [] None (MkBox (Coord 1 1) (Coord w h)).
Definition ex_history : list gop :=
  [GSet (PTuple [PInt 2; PInt 2]) (ex_cell "c" 1 1);
   GSet (PTuple [PInt 1; PInt 1]) (ex_cell "a" 1 1);
   GSet (PTuple [PInt 2; PInt 1]) (ex_cell "b" 1 1);
   GSet (PTuple [PInt 2; PInt 1]) (ex_cell "z" 1 1);
   GSet (PTuple [PInt 3; PInt 1]) (ex_cell "d" 1 2);
   GMerge (PTuple [PInt 1; PInt 1]) (PTuple [PInt 2; PInt 1]) None].
Definition ex_grid : grid := grun [] ex_history.

Example ex_grid_value :
  reachable ex_grid /\
  map (fun c => (c_content c, c_box c)) ex_grid =
  [(CText "ab", MkBox (Coord 1 1) (Coord 2 1));
   (CText "d", MkBox (Coord 3 1) (Coord 3 2));
   (CText "c", MkBox (Coord 2 2) (Coord 2 2))].
Proof. split; [apply grun_reachable; eapply (reach_new []); reflexivity | reflexivity]. Qed.

(** Every history of calls leads to a reachable grid. *)
Theorem C14_histories_are_reachable : forall cells g h, grid_new cells = Ok g -> reachable (grun g h).
Proof. intros cells g h H. apply grun_reachable. econstructor; exact H. Qed.

(** ** C14 *)

Theorem C14_iteration_in_order : forall g, reachable g -> in_order (grid_iter g).
Proof. intros g H. apply (reachable_inv g H). Qed.

(** ** C15 *)

(** Full statement: [forall g, reachable g -> no_overlap g].  It is false: *)
Theorem C15_overlap_refuted : exists g, reachable g /\ ~ no_overlap g.
Proof.
  set (a := MkCell (CText "a") [] None (MkBox (Coord 1 2) (Coord 2 3))).
  set (b := MkCell (CText "b") [] None (MkBox (Coord 2 1) (Coord 3 2))).
  exists [b; a]. split; [apply (reach_new [a; b]); reflexivity|].
  intros H. inversion H as [|? ? Hf _]; subst. inversion Hf as [|? ? Hn _]; subst.
  apply Hn. exists (Coord 2 2). unfold covers; cbn. lia.
Qed.

(** What holds: no cell of the grid has a corner (top-left or bottom-right) in another one. *)
Theorem C15_no_clash_partial : forall g, reachable g -> no_clash g.
Proof. intros g H. apply (reachable_inv g H). Qed.

(** Hence two overlapping cells are always shifted along the anti-diagonal... *)
Theorem C15_overlap_only_antidiagonal : forall g l a m b n,
    reachable g -> g = l ++ a :: m ++ b :: n -> overlap (c_box a) (c_box b) ->
    antidiagonal (c_box a) (c_box b).
Proof. intros g l a m b n H. apply inv_overlap_antidiagonal, (reachable_inv g H). Qed.

(** ... and there is no overlap when all cells have one row, or all have one column, and never with
    a cell of a single coordinate. *)
Theorem C15_no_overlap_flat : forall g, reachable g ->
    (forall c, In c g -> box_height (c_box c) = 1) \/ (forall c, In c g -> box_width (c_box c) = 1) ->
    no_overlap g.
Proof.
  intros g H D. apply inv_no_overlap; [apply (reachable_inv g H)|].
  intros a b Ha Hb Ho. destruct D as [D|D].
  - apply overlap_rows_not_antidiagonal; auto.
    + specialize (D a Ha). unfold box_height in D. lia.
    + specialize (D b Hb). unfold box_height in D. lia.
  - apply overlap_cols_not_antidiagonal; auto.
    + specialize (D a Ha). unfold box_width in D. lia.
    + specialize (D b Hb). unfold box_width in D. lia.
Qed.

Theorem C15_unit_cell_never_overlaps : forall g a b, reachable g -> In a g -> In b g ->
    box_width (c_box a) = 1 -> box_height (c_box a) = 1 -> overlap (c_box a) (c_box b) -> a = b.
Proof.
  intros g a b H Ha Hb Hw Hh Ho. pose proof (reachable_inv g H) as HI.
  assert (Va : valid (c_box a)) by (eapply inv_valid; eassumption).
  assert (Vb : valid (c_box b)) by (eapply inv_valid; eassumption).
  eapply no_clash_In; eauto; [apply HI|]. apply intersect_clash.
  apply box_intersect_complete_unit; auto. apply coord_ext.
  - unfold box_width in Hw. lia.
  - unfold box_height in Hh. lia.
Qed.

Example C15_ex_unit : reachable ex_grid /\
  In (MkCell (CText "c") [] None (MkBox (Coord 2 2) (Coord 2 2))) ex_grid.
Proof. split; [apply ex_grid_value | vm_compute; auto]. Qed.

(** ** C16 *)

Theorem C16_lookup : forall g v, reachable g ->
    (grid_getitem g v = Err ETypeError /\ grid_contains g v = Err ETypeError /\
     (forall c, ~ denotes_coord v c)) \/
    (exists c, denotes_coord v c /\
       ((exists d, grid_getitem g v = Ok d /\ In d (grid_iter g) /\ covers (c_box d) c /\
                   grid_contains g v = Ok true) \/
        (grid_getitem g v = Err EKeyError /\ grid_contains g v = Ok false /\
         forall d, In d (grid_iter g) -> ~ covers (c_box d) c))).
Proof. intros g v _. apply getitem_cases. Qed.

Theorem C16_corners : forall g d, reachable g -> In d (grid_iter g) ->
    grid_getitem g (PCoord (bmin (c_box d))) = Ok d /\ grid_getitem g (PCoord (bmax (c_box d))) = Ok d.
Proof. intros g d H Hd. apply grid_getitem_corner; [apply reachable_inv, H | exact Hd]. Qed.

Example C16_ex :
  rmap (grid_getitem ex_grid) [PTuple [PInt 3; PInt 1]; PTuple [PInt 3; PInt 2]]
  = Ok (let d := MkCell (CText "d") [] None (MkBox (Coord 3 1) (Coord 3 2)) in [d; d]) /\
  grid_getitem ex_grid (PTuple [PInt 1; PInt 2]) = Err EKeyError.
Proof. split; reflexivity. Qed.

(** ** C17 *)

Theorem C17_insert_success : forall v new g g',
    reachable g -> grid_setitem v new g = (g', Ok tt) ->
    exists co c', denotes_coord v co /\ same_data c' new /\ bmin (c_box c') = co /\
      box_width (c_box c') = box_width (c_box new) /\ box_height (c_box c') = box_height (c_box new) /\
      Permutation g' (c' :: g) /\ grid_getitem g' v = Ok c'.
Proof. intros v new g g' H. apply setitem_success, (reachable_inv g H). Qed.

Theorem C17_insert_outcome : forall v new g co,
    valid (c_box new) -> denotes_coord v co ->
    let target := MkBox co (Coord (cx co + box_width (c_box new) - 1)
                                  (cy co + box_height (c_box new) - 1)) in
    (~ (1 <= cx co /\ 1 <= cy co) -> grid_setitem v new g = (g, Err EValueError)) /\
    (1 <= cx co /\ 1 <= cy co -> (exists d, In d g /\ clash (c_box d) target) ->
     grid_setitem v new g = (g, Err EKeyError)) /\
    (1 <= cx co /\ 1 <= cy co -> (forall d, In d g -> ~ clash (c_box d) target) ->
     exists g', grid_setitem v new g = (g', Ok tt)).
Proof. exact setitem_outcome. Qed.

Example C17_ex : snd (grid_setitem (PTuple [PInt 4; PInt 1]) (ex_cell "e" 2 2) ex_grid) = Ok tt /\
  snd (grid_setitem (PTuple [PInt 3; PInt 2]) (ex_cell "e" 2 2) ex_grid) = Err EKeyError /\
  snd (grid_setitem (PTuple [PInt 0; PInt 2]) (ex_cell "e" 2 2) ex_grid) = Err EValueError.
Proof. repeat split; reflexivity. Qed.

(** ** C18 *)

Theorem C18_delete_success : forall v g g', grid_delitem v g = (g', Ok tt) ->
    exists d, grid_getitem g v = Ok d /\ exists l m, g = l ++ d :: m /\ g' = l ++ m.
Proof. exact delitem_success. Qed.

Theorem C18_delete_outcome : forall v g,
    (grid_contains g v = Ok true <-> exists g', grid_delitem v g = (g', Ok tt)) /\
    (grid_contains g v = Ok false <-> grid_delitem v g = (g, Err EKeyError)) /\
    (grid_contains g v = Err ETypeError <-> grid_delitem v g = (g, Err ETypeError)).
Proof. exact delitem_outcome. Qed.

Theorem C18_delete_then_insert : forall v g g' d, reachable g ->
    grid_getitem g v = Ok d -> grid_delitem v g = (g', Ok tt) ->
    grid_setitem (PCoord (bmin (c_box d))) d g' = (g, Ok tt).
Proof. intros v g g' d H. apply delete_reinsert, (reachable_inv g H). Qed.

Example C18_ex : exists g', grid_delitem (PTuple [PInt 3; PInt 2]) ex_grid = (g', Ok tt) /\
  List.length g' = 2%nat.
Proof. eexists; split; [vm_compute; reflexivity|]; reflexivity. Qed.

(** ** C19 *)

Theorem C19_constructor_outcome : forall cells, all_valid cells ->
    (no_clash cells /\ exists g, grid_new cells = Ok g /\ in_order g /\ Permutation g cells) \/
    (~ no_clash cells /\ grid_new cells = Err EKeyError).
Proof. exact grid_new_spec. Qed.

Theorem C19_constructor_order_independent : forall cells cells',
    all_valid cells -> Permutation cells cells' -> grid_new cells = grid_new cells'.
Proof. exact grid_new_perm. Qed.

Theorem C19_copy : forall g, reachable g -> grid_new g = Ok g.
Proof. intros g H. apply grid_new_self, reachable_inv, H. Qed.

Example C19_ex : grid_new (rev ex_grid) = Ok ex_grid /\
  grid_new [ex_cell "a" 1 1; ex_cell "b" 2 2] = Err EKeyError.
Proof. split; reflexivity. Qed.

(** ** C20 *)

Theorem C20_bounding_box : forall g, reachable g ->
    (g = [] /\ grid_bounding_box g = Ok None) \/
    (g <> [] /\ exists bb, grid_bounding_box g = Ok (Some bb) /\ valid bb /\
       forall v, valid v -> (subarea bb v <-> forall c, In c g -> subarea (c_box c) v)).
Proof. intros g H. apply bounding_box_spec, (reachable_inv g H). Qed.

Theorem C20_insert_grows : forall v new g g' bb, reachable g ->
    grid_setitem v new g = (g', Ok tt) -> grid_bounding_box g = Ok (Some bb) ->
    exists c' bb', grid_getitem g' v = Ok c' /\ box_union bb [c_box c'] = Ok bb' /\
                   grid_bounding_box g' = Ok (Some bb').
Proof. intros v new g g' bb H. apply bounding_box_insert, (reachable_inv g H). Qed.

Theorem C20_delete_shrinks : forall v g g' bb bb', reachable g ->
    grid_delitem v g = (g', Ok tt) ->
    grid_bounding_box g = Ok (Some bb) -> grid_bounding_box g' = Ok (Some bb') -> subarea bb' bb.
Proof. intros v g g' bb bb' H. apply bounding_box_delete, (reachable_inv g H). Qed.

Example C20_ex : grid_bounding_box ex_grid = Ok (Some (MkBox (Coord 1 1) (Coord 3 2))).
Proof. reflexivity. Qed.

(** ** C21 *)

Theorem C21_merge_success : forall v1 v2 app g g' r, reachable g ->
    grid_merge v1 v2 app g = (g', Ok r) ->
    exists a b first others rest,
      denotes_coord v1 a /\ denotes_coord v2 b /\ valid (MkBox a b) /\
      selects (inside (MkBox a b)) g (first :: others) /\
      selects (fun c => ~ inside (MkBox a b) c) g rest /\
      c_box r = MkBox a b /\ c_nature r = c_nature first /\
      in_order g' /\ Permutation g' (r :: rest) /\
      (never_none (chosen app) ->
       merged_content (chosen app) (map c_content (first :: others)) (c_content r)) /\
      (Forall (fun c => dict_ok (c_styles c)) (first :: others) ->
       forall k, last_wins k (map c_styles (first :: others)) (dget (c_styles r) k)) /\
      (app = None -> Forall (fun c => forall z, c_content c <> CNum z) (first :: others) ->
       cell_str r = str_concat (map cell_str (first :: others))).
Proof.
  intros v1 v2 app g g' r H E. pose proof (reachable_inv g H) as HI.
  destruct (merge_success v1 v2 app g g' r HI E)
    as (a & b & f & l & rest & Ha & Hb & V & Hins & Hrest & Hbox & Hna & HO & HP & Hcl & Hm).
  exists a, b, f, l, rest. repeat (split; [assumption|]).
  exact (merge_content_styles v1 v2 app g g' r (f :: l) a b HI E Ha Hb Hins).
Qed.

Theorem C21_merge_outcome : forall v1 v2 app g a b, reachable g ->
    denotes_coord v1 a -> denotes_coord v2 b ->
    let bad := ~ valid (MkBox a b) \/
               (exists c, In c g /\ ~ inside (MkBox a b) c /\ clash (c_box c) (MkBox a b)) \/
               (forall c, In c g -> ~ inside (MkBox a b) c) in
    (bad -> grid_merge v1 v2 app g = (g, Err EValueError)) /\
    (~ bad -> (exists g' r, grid_merge v1 v2 app g = (g', Ok r)) \/
              (exists e x y, grid_merge v1 v2 app g = (g, Err e) /\ chosen app x y = Err e)).
Proof. intros v1 v2 app g a b H. apply merge_outcome, (reachable_inv g H). Qed.

Theorem C21_default_appender_never_none : never_none (chosen None).
Proof. exact content_add_never_none. Qed.

Example C21_ex : exists g' r,
  grid_merge (PTuple [PInt 2; PInt 1]) (PTuple [PInt 3; PInt 2]) None
    (grun [] (firstn 5 ex_history)) = (g', Ok r) /\
  c_content r = CText "bdc" /\ List.length g' = 2%nat.
Proof. do 2 eexists. split; [vm_compute; reflexivity|]. split; reflexivity. Qed.
Example C21_ex_cut :
  grid_merge (PTuple [PInt 2; PInt 1]) (PTuple [PInt 3; PInt 2]) None ex_grid = (ex_grid, Err EValueError).
Proof. reflexivity. Qed.

(** ** C22 *)

Theorem C22_failure_atomic : forall o g g' e, is_update o = false -> gstep o g = (g', Err e) -> g' = g.
Proof. exact atomic_gstep. Qed.

Example C22_ex :
  let app : appender := fun _ _ => Err (EUser 7) in
  gstep (GMerge (PTuple [PInt 1; PInt 1]) (PTuple [PInt 3; PInt 2]) (Some app)) ex_grid
  = (ex_grid, Err (EUser 7)).
Proof. reflexivity. Qed.

(** ** C23 *)

(** Full statement: expand gives the cell exactly [width] and [height] more columns and rows, also
    for negative numbers (shrinking).  Shrinking never works: *)
Theorem C23_shrink_always_fails : forall v w h app g c, reachable g ->
    grid_getitem g v = Ok c -> w < 0 \/ h < 0 ->
    grid_expand v w h app g = (g, Err EValueError).
Proof. intros v w h app g c H. apply expand_negative, (reachable_inv g H). Qed.

Theorem C23_expand_partial : forall v w h app g g' r, reachable g ->
    grid_expand v w h app g = (g', Ok r) ->
    exists c ins rest area, grid_getitem g v = Ok c /\ 0 <= w /\ 0 <= h /\
      area = MkBox (bmin (c_box c)) (Coord (cx (bmax (c_box c)) + w) (cy (bmax (c_box c)) + h)) /\
      c_box r = area /\ c_nature r = c_nature c /\
      selects (inside area) g (c :: ins) /\
      selects (fun d => ~ inside area d) g rest /\
      in_order g' /\ Permutation g' (r :: rest).
Proof. intros v w h app g g' r H. apply expand_success, (reachable_inv g H). Qed.

Theorem C23_expand_zero : forall v app g c, reachable g ->
    grid_getitem g v = Ok c -> grid_expand v 0 0 app g = (g, Ok c).
Proof. intros v app g c H. apply expand_zero, (reachable_inv g H). Qed.

Example C23_ex : exists g' r,
  grid_expand (PTuple [PInt 1; PInt 1]) 0 1 None ex_grid = (g', Ok r) /\ List.length g' = 2%nat /\
  c_content r = CText "abc".
Proof. do 2 eexists. split; [vm_compute; reflexivity|]. split; reflexivity. Qed.
Theorem C23_shrink_refuted : exists g c, reachable g /\
  grid_getitem g (PTuple [PInt 1; PInt 1]) = Ok c /\ box_width (c_box c) = 2 /\
  grid_expand (PTuple [PInt 1; PInt 1]) (-1) 0 None g = (g, Err EValueError).
Proof.
  exists ex_grid. eexists. split; [apply ex_grid_value|].
  split; [vm_compute; reflexivity|]. split; reflexivity.
Qed.

(** ** C24 *)

Theorem C24_iter_rows : forall g, reachable g ->
    List.concat (grid_iter_rows g) = grid_iter g /\
    Forall (fun grp => grp <> []) (grid_iter_rows g) /\
    (forall grp, In grp (grid_iter_rows g) ->
       exists y, selects (fun c => cy (bmin (c_box c)) = y) g grp) /\
    StronglySorted
      (fun a b => forall c d, In c a -> In d b -> cy (bmin (c_box c)) < cy (bmin (c_box d)))
      (grid_iter_rows g).
Proof. intros g H. apply iter_rows_facts, (reachable_inv g H). Qed.

Example C24_ex : map (map c_content) (grid_iter_rows ex_grid) = [[CText "ab"; CText "d"]; [CText "c"]].
Proof. reflexivity. Qed.

(** ** C25 *)

(** get, pop and setdefault work as for any mapping ... *)
Theorem C25_get_pop_setdefault_partial : forall v g,
    (forall d, grid_getitem g v = Ok d ->
       grid_get g v = Ok (Some d) /\
       (exists g', grid_pop v g = (g', Ok d) /\ grid_delitem v g = (g', Ok tt)) /\
       (forall c, grid_setdefault v c g = (g, Ok d))) /\
    (grid_getitem g v = Err EKeyError ->
       grid_get g v = Ok None /\ grid_pop v g = (g, Err EKeyError) /\
       (forall c g', grid_setitem v c g = (g', Ok tt) -> grid_setdefault v c g = (g', Ok c))).
Proof.
  intros v g. split.
  - intros d Hd. split; [unfold grid_get; rewrite Hd; reflexivity|]. split.
    + destruct (grid_delitem_cases v g)
        as [[Ev E]|(co & _ & [(_ & Hg & E)|(d' & l & m & Hg & _ & Hd' & _ & E)])].
      * unfold grid_getitem in Hd. rewrite Ev in Hd. discriminate.
      * congruence.
      * exists (l ++ m). split; [|exact E]. unfold grid_pop, sbind, sget, slift, sret.
        rewrite Hd, E. reflexivity.
    + intros c. unfold grid_setdefault. rewrite Hd. reflexivity.
  - intros He. split; [unfold grid_get; rewrite He; reflexivity|]. split.
    + unfold grid_pop, sbind, sget, slift. rewrite He. reflexivity.
    + intros c g' H. unfold grid_setdefault. rewrite He. unfold sbind. rewrite H. reflexivity.
Qed.

(** ... but the methods which iterate over the keys fail on every non-empty grid, because the
    iteration yields cells, which are not keys. *)
Theorem C25_key_iteration_fails : forall c g,
    grid_items (c :: g) = Err ETypeError /\ grid_values (c :: g) = Err ETypeError /\
    grid_popitem (c :: g) = (c :: g, Err ETypeError) /\
    grid_clear (c :: g) = (c :: g, Err ETypeError) /\
    grid_eq_raises (c :: g) (c :: g) = Some ETypeError /\
    (forall h, grid_update_grid (c :: g) h = (h, Err ETypeError)).
Proof.
  intros c g. repeat split; try reflexivity.
Qed.

Theorem C25_mapping_protocol_refuted : exists g, reachable g /\
  grid_items g = Err ETypeError /\ grid_values g = Err ETypeError /\
  grid_popitem g = (g, Err ETypeError) /\ grid_clear g = (g, Err ETypeError).
Proof. exists ex_grid. split; [apply ex_grid_value|]. repeat split; reflexivity. Qed.

Example C25_ex : exists d, grid_get ex_grid (PTuple [PInt 2; PInt 1]) = Ok (Some d).
Proof. eexists; vm_compute; reflexivity. Qed.

Print Assumptions C14_histories_are_reachable.
Print Assumptions C14_iteration_in_order.
Print Assumptions C15_overlap_refuted.
Print Assumptions C15_no_clash_partial.
Print Assumptions C15_overlap_only_antidiagonal.
Print Assumptions C15_no_overlap_flat.
Print Assumptions C15_unit_cell_never_overlaps.
Print Assumptions C16_lookup.
Print Assumptions C16_corners.
Print Assumptions C17_insert_success.
Print Assumptions C17_insert_outcome.
Print Assumptions C18_delete_success.
Print Assumptions C18_delete_outcome.
Print Assumptions C18_delete_then_insert.
Print Assumptions C19_constructor_outcome.
Print Assumptions C19_constructor_order_independent.
Print Assumptions C19_copy.
Print Assumptions C20_bounding_box.
Print Assumptions C20_insert_grows.
Print Assumptions C20_delete_shrinks.
Print Assumptions C21_merge_success.
Print Assumptions C21_merge_outcome.
Print Assumptions C21_default_appender_never_none.
Print Assumptions C22_failure_atomic.
Print Assumptions C23_shrink_always_fails.
Print Assumptions C23_expand_partial.
Print Assumptions C23_expand_zero.
Print Assumptions C24_iter_rows.
Print Assumptions C25_get_pop_setdefault_partial.
Print Assumptions C25_key_iteration_fails.
Print Assumptions C23_shrink_refuted.
Print Assumptions C25_mapping_protocol_refuted.
