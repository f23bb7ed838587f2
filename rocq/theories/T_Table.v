(** * Theorems about tables and their views (C22, C25, C26-C32) *)
From Verif Require Import Base M_Geometry M_Xml M_Cell M_Grid M_Table.
From Verif Require Import S_Geometry S_Cell S_Grid S_Table P_Geometry P_Cell P_Grid P_GridFacts.
From Verif Require Import P_Table P_TableStep P_TableFacts P_TableMore P_TableRefine.

(** A table used in the examples: built row by row, with a 2x1 cell, a 1x2 cell, an expansion, a
    failing deletion and a row nature. *)
Definition et_start : table := MkTable [] None None [] None.
Definition et_history : list top :=
  [TReadViews Rows;
   TSetNature Rows 1 (Some "header"%string);
   TInsert Rows 1 (CText "a") None None 2 1;
   TInsert Rows 1 (CText "b") None None 1 2;
   TDel (PTuple [PInt 9; PInt 9]);
   TInsert Rows 2 (CText "c") None (Some "body"%string) 1 1;
   TInsert Rows 2 (CText "d") None None 1 1;
   TInsert Rows 2 (CText "e") None None 1 1;
   TExpand (PTuple [PInt 4; PInt 2]) 1 0 None].
Definition et : table := trun et_start et_history.
Lemma et_start_new : table_new [] None None = Ok et_start.
Proof. reflexivity. Qed.
Lemma et_reachable h : treachable (trun et_start h).
Proof. apply trun_treachable. eapply treach_new. exact et_start_new. Qed.

Example et_value :
  treachable et /\
  map (fun c => (c_content c, c_nature c, c_box c)) (table_iter et) =
  [(CText "a", Some "header"%string, MkBox (Coord 1 1) (Coord 2 1));
   (CText "b", Some "header"%string, MkBox (Coord 3 1) (Coord 3 2));
   (CText "c", Some "body"%string, MkBox (Coord 1 2) (Coord 1 2));
   (CText "d", None, MkBox (Coord 2 2) (Coord 2 2));
   (CText "e", None, MkBox (Coord 4 2) (Coord 5 2))].
Proof. split; [apply et_reachable | vm_compute; reflexivity]. Qed.

(** ** C22: failing calls *)

(** Set, delete, merge, expand, pop, setdefault and popitem: the whole table is unchanged (cells,
    views and attributes), also when the appender raises. *)
Theorem C22_table_failure_atomic : forall op t t' e, treachable t ->
    (match op with
     | TSet _ _ | TDel _ | TMerge _ _ _ | TExpand _ _ _ _ | TPop _ | TSetdefault _ _ | TPopitem => True
     | _ => False
     end) ->
    tstep op t = (t', Err e) -> t' = t.
Proof. intros op t t' e H. apply atomic_tstep, H. Qed.

(** insert_cell through a row or a column: same cells, and every view reads the same. *)
Theorem C22_insert_cell_failure : forall ax p ct s na w h t t' e, treachable t ->
    insert_cell ax p ct s na w h t = (t', Err e) ->
    table_iter t' = table_iter t /\ forall ax' q v, 1 <= q -> (reads ax' q t' v <-> reads ax' q t v).
Proof. exact insert_failure. Qed.

Example C22_table_ex :
  let app : appender := fun _ _ => Err (EUser 7) in
  tstep (TMerge (PTuple [PInt 1; PInt 1]) (PTuple [PInt 3; PInt 2]) (Some app)) et = (et, Err (EUser 7)) /\
  snd (insert_cell Rows 1 CNone None None 0 1 et) = Err EValueError.
Proof. split; vm_compute; reflexivity. Qed.

(** ** C25: mapping methods of a table *)

Theorem C25_table_pop_setdefault_partial : forall v t, treachable t ->
    (forall d, table_getitem t v = Ok d ->
       (exists t', table_pop v t = (t', Ok d) /\ table_delitem v t = (t', Ok tt)) /\
       (forall c, table_setdefault v c t = (t, Ok d))) /\
    (table_getitem t v = Err EKeyError ->
       table_pop v t = (t, Err EKeyError) /\
       (forall c t', table_setitem v c t = (t', Ok tt) -> table_setdefault v c t = (t', Ok c))).
Proof.
  intros v t HR. split.
  - intros d Hd. split.
    + destruct (table_del_grid v t HR) as [_ B].
      assert (G : snd (grid_delitem v (t_grid t)) = Ok tt).
      { unfold table_getitem in Hd.
        destruct (grid_delitem_cases v (t_grid t))
          as [[Ev E]|(co & _ & [(_ & Hg & E)|(d' & l & m & Hg & _ & Hd' & _ & E)])]; rewrite E; cbn;
          [unfold grid_getitem in Hd; rewrite Ev in Hd; discriminate|congruence|reflexivity]. }
      rewrite G in B. unfold table_pop, sbind, sget, slift, sret. rewrite Hd.
      destruct (table_delitem v t) as [t' [[]|e]]; cbn in B; [|discriminate]. eauto.
    + intros c. unfold table_setdefault. rewrite Hd. reflexivity.
  - intros Hd. split.
    + unfold table_pop, sbind, sget, slift. rewrite Hd. reflexivity.
    + intros c t' E. unfold table_setdefault. rewrite Hd. unfold sbind. rewrite E. reflexivity.
Qed.

Theorem C25_table_popitem_fails : forall t, table_iter t <> [] -> table_popitem t = (t, Err ETypeError).
Proof. intros t H. rewrite table_popitem_eq. unfold table_iter, grid_iter in H. destruct (t_grid t); [congruence|reflexivity]. Qed.

Theorem C25_table_popitem_refuted : exists t, treachable t /\ table_iter t <> [] /\
    table_popitem t = (t, Err ETypeError).
Proof. exists et. split; [apply et_value|]. split; [vm_compute; discriminate|]. rewrite table_popitem_eq. vm_compute. reflexivity. Qed.

Example C25_table_ex : exists t' d, table_pop (PTuple [PInt 3; PInt 2]) et = (t', Ok d) /\ c_content d = CText "b".
Proof. eexists; eexists. split; [vm_compute; reflexivity|vm_compute; reflexivity]. Qed.

(** ** C26: views and table *)

(** Full statement: for all reachable tables, [table.rows[p].owned_cells] is a permutation of the
    cells which start on row [p] and [caught_cells] of those which span it, the same for columns.
    The multiplicity is wrong in general: *)
Theorem C26_duplicate_refuted : exists t v c, treachable t /\ reads Cols 1 t v /\
    v_owned v = [c; c] /\ table_iter t = [c].
Proof.
  set (t := trun et_start [TInsert Rows 1 (CText "a") None None 1 1]).
  exists t. eexists. eexists. split; [apply et_reachable|].
  split; [vm_compute; reflexivity|]. split; vm_compute; reflexivity.
Qed.
Theorem C26_multiplicity_refuted : exists t, treachable t /\ ~ views_exact Cols t.
Proof.
  exists (trun et_start [TInsert Rows 1 (CText "a") None None 1 1]). split; [apply et_reachable|].
  intros H. edestruct (H 1) as [(l & Hs & HP) _]; [lia|vm_compute; reflexivity|].
  apply Permutation_length in HP. vm_compute in HP.
  inversion Hs as [|? ? l' _ Hs'|? ? l' _ Hs']; subst; inversion Hs'; subst; discriminate.
Qed.

(** The cells are right for all reachable tables and positions: no cell is missing, no stranger. *)
Theorem C26_membership_partial : forall ax p t v, treachable t -> 1 <= p -> reads ax p t v ->
    v_pos v = p /\
    (forall c, In c (v_owned v) <-> In c (table_iter t) /\ starts_at ax p c) /\
    (forall c, In c (v_caught v) <-> In c (table_iter t) /\ spans ax p c).
Proof. exact view_membership. Qed.

Theorem C26_every_position_has_a_view : forall ax p t, treachable t -> 1 <= p -> exists v, reads ax p t v.
Proof. exact reads_exists. Qed.

(** Each cell appears once, for ever, as soon as a deletion, merge or expansion succeeded ... *)
Theorem C26_exact_after_rebuild : forall ax op t t' h, treachable t ->
    rebuilds op = true -> tstep op t = (t', Ok tt) -> views_exact ax (trun t' h).
Proof. exact exact_after_rebuild. Qed.

(** ... or when the list of views was first read before any insertion made through the table. *)
Theorem C26_exact_after_first_read : forall ax t h, treachable t -> ~ materialised ax t ->
    views_exact ax (trun t (TReadViews ax :: h)).
Proof. exact exact_after_first_read. Qed.

Example C26_ex : exists v, reads Rows 2 et v /\
  map c_content (v_owned v) = [CText "c"; CText "d"; CText "e"] /\
  map c_content (v_caught v) = [CText "b"; CText "c"; CText "d"; CText "e"].
Proof. eexists. split; [vm_compute; reflexivity|]. split; vm_compute; reflexivity. Qed.
Example C26_ex_rebuild : exists t', tstep (TDel (PTuple [PInt 1; PInt 1])) et = (t', Ok tt).
Proof. eexists. vm_compute. reflexivity. Qed.
Example C26_ex_first : ~ materialised Rows et_start.
Proof. intros H. apply H. reflexivity. Qed.

(** ** C27: order in the views *)

(** Full statement: [forall t p v, treachable t -> reads Rows p t v -> left_to_right Rows (v_owned v)]. *)
Theorem C27_order_refuted : exists t v, treachable t /\ reads Rows 1 t v /\ ~ left_to_right Rows (v_owned v).
Proof.
  set (t := trun et_start [TReadViews Rows; TReadViews Cols;
                           TSet (PTuple [PInt 2; PInt 1]) (unit_cell CNone None None (Coord 1 1));
                           TSet (PTuple [PInt 1; PInt 1]) (unit_cell CNone None None (Coord 1 1))]).
  exists t. eexists. split; [apply et_reachable|]. split; [vm_compute; reflexivity|].
  intros H. inversion H as [|? ? _ HF]; subst. inversion HF as [|? ? Hlt _]; subst. cbn in Hlt. lia.
Qed.

(** It holds after each deletion, merge or expansion, for rows and columns ... *)
Theorem C27_order_after_rebuild_partial : forall ax op t t' p v, treachable t -> rebuilds op = true ->
    tstep op t = (t', Ok tt) -> 1 <= p -> reads ax p t' v ->
    selects (starts_at ax p) (table_iter t') (v_owned v) /\ left_to_right ax (v_owned v).
Proof. exact sorted_after_rebuild. Qed.

(** ... and, for rows, after any history which only uses row insertions, expansions, filling from
    the first column and attributes (as the parsers do), on a table created empty. *)
Theorem C27_order_row_wise_partial : forall s na t h p v,
    table_new [] s na = Ok t -> Forall row_wise h ->
    (forall bb ct s na, In (TFill bb ct s na) h -> valid bb) ->
    1 <= p -> reads Rows p (trun t (TReadViews Rows :: h)) v ->
    left_to_right Rows (v_owned v).
Proof.
  intros s na t h p v E HF Hbb Hp Hv. destruct (rw_start s na t E) as [o HR].
  destruct (rw_run h _ o HR HF Hbb) as [o' HR']. eapply rw_views; [exact HR'|exact Hp|exact Hv].
Qed.

Example C27_ex : Forall row_wise (filter (fun o => match o with TDel _ => false | _ => true end) et_history) /\
  exists v, reads Rows 2 et v /\ List.length (v_owned v) = 3%nat.
Proof. split; [repeat constructor|]. eexists. split; [vm_compute; reflexivity|vm_compute; reflexivity]. Qed.

(** ** C28: number of views *)

Theorem C28_count_after_rebuild : forall ax op t t', treachable t -> rebuilds op = true ->
    tstep op t = (t', Ok tt) -> exists n, view_count ax t' n /\ last_pos ax t' n.
Proof. exact count_after_rebuild. Qed.

Theorem C28_count_at_least : forall ax t, treachable t ->
    exists n m, view_count ax t n /\ last_pos ax t m /\ m <= n.
Proof. exact count_at_least. Qed.

(** Reading changes no cell and no view. *)
Theorem C28_reading_is_harmless : forall ax p t, treachable t ->
    table_iter (fst (view_get ax p t)) = table_iter t /\
    forall ax' q v, 1 <= q -> (reads ax' q (fst (view_get ax p t)) v <-> reads ax' q t v).
Proof.
  intros ax p t HR. split; [|apply reads_after_read, HR].
  destruct (treachable_tinv t HR) as (o & HS & HM).
  destruct (view_get_st ax p t _ o HS (proj1 (proj1 HM))) as (t1 & vs & HS1 & _ & _ & _ & E). rewrite E. apply HS1.
Qed.

Example C28_ex : view_count Rows et 2 /\ view_count Cols et 5 /\ last_pos Cols et 5.
Proof.
  split; [eexists; split; [vm_compute; reflexivity|vm_compute; reflexivity]|].
  split; [eexists; split; [vm_compute; reflexivity|vm_compute; reflexivity]|].
  right. eexists. split; [vm_compute; reflexivity|vm_compute; reflexivity].
Qed.

(** ** C29: insert_cell *)

Theorem C29_insert_cell : forall ax p ct s na w h t v, treachable t -> 1 <= p -> reads ax p t v ->
    exists i, first_free ax p i (table_iter t) /\
    let c := MkCell ct (match s with Some s => s | None => [] end)
               (match na with None => v_nature v | Some _ => na end) (seat ax p i w h) in
    (~ (1 <= w /\ 1 <= h) /\ insert_cell ax p ct s na w h t = (fst (view_get ax p t), Err EValueError)) \/
    (1 <= w /\ 1 <= h /\
     (((exists d, In d (table_iter t) /\ clash (c_box d) (seat ax p i w h)) /\
       insert_cell ax p ct s na w h t = (fst (view_get ax p t), Err EKeyError)) \/
      ((forall d, In d (table_iter t) -> ~ clash (c_box d) (seat ax p i w h)) /\
       exists t', insert_cell ax p ct s na w h t = (t', Ok tt) /\
                  Permutation (table_iter t') (c :: table_iter t)))).
Proof.
  intros ax p ct s na w h t v HR Hp Hv. destruct (insert_cell_spec ax p ct s na w h t v HR Hp Hv) as (i & Hi & Hf & Hl & H).
  exists i. split; [|exact H]. split; [exact Hi|]. destruct ax; auto.
Qed.

Theorem C29_unit_insertion_never_fails : forall ax p ct s na t, treachable t -> 1 <= p ->
    exists t', insert_cell ax p ct s na 1 1 t = (t', Ok tt).
Proof. exact insert_cell_unit. Qed.

Example C29_ex : first_free Rows 1 4 (table_iter et) /\
  exists t', insert_cell Rows 1 (CText "z") None None 2 1 et = (t', Ok tt) /\
  map (fun c => (c_content c, c_nature c)) (filter (fun c => cx (c_min c) =? 4) (table_iter t')) =
  [(CText "z", Some "header"%string); (CText "e", None)].
Proof.
  split.
  - split; [lia|]. split.
    + intros d Hd. vm_compute in Hd. unfold covers. repeat (destruct Hd as [<-|Hd]; [cbn; lia|]). destruct Hd.
    + intros j Hj Hf. assert (E : j = 1 \/ j = 2 \/ j = 3) by lia.
      destruct E as [->|[->| ->]].
      * eapply Hf; [vm_compute; left; reflexivity|]. unfold covers; cbn; lia.
      * eapply Hf; [vm_compute; left; reflexivity|]. unfold covers; cbn; lia.
      * eapply Hf; [vm_compute; right; left; reflexivity|]. unfold covers; cbn; lia.
  - eexists. split; [vm_compute; reflexivity|vm_compute; reflexivity].
Qed.
Example C29_ex_too_large :
  snd (insert_cell Rows 1 (CText "z") None None 1 2 et) = Err EKeyError.
Proof. vm_compute. reflexivity. Qed.

(** ** C30: fill_missing *)

Theorem C30_fill_missing : forall bb ct s na t, treachable t -> valid bb ->
    exists t' ks, table_fill_missing bb ct s na t = (t', Ok tt) /\
      Permutation (table_iter t') (map (unit_cell ct s na) ks ++ table_iter t) /\ NoDup ks /\
      (forall k, In k ks <-> covers bb k /\ free (table_iter t) k).
Proof. exact fill_missing_spec. Qed.

Theorem C30_fill_twice : forall bb ct s na ct' s' na' t t', treachable t -> valid bb ->
    table_fill_missing bb ct s na t = (t', Ok tt) ->
    table_fill_missing bb ct' s' na' t' = (t', Ok tt).
Proof. exact fill_missing_twice. Qed.

Example C30_ex : exists t', table_fill_missing (MkBox (Coord 1 1) (Coord 5 3)) (CText "-") None None et = (t', Ok tt) /\
  table_len t' = 12%nat /\ table_len et = 5%nat.
Proof. eexists. split; [vm_compute; reflexivity|]. split; vm_compute; reflexivity. Qed.

(** ** C31: attributes of rows and columns *)

Theorem C31_attributes_kept : forall op t ax p v v' n, treachable t -> 1 <= p ->
    reads ax p t v -> ~ sets_attributes ax p op -> reads ax p (fst (tstep op t)) v' ->
    last_pos ax (fst (tstep op t)) n -> (rebuilds op = true -> p <= n) ->
    v_styles v' = v_styles v /\ v_nature v' = v_nature v.
Proof. exact attributes_kept. Qed.

Theorem C31_attributes_kept_history : forall ax p h t v v', treachable t -> 1 <= p -> reads ax p t v ->
    (forall h1 op h2, h = h1 ++ op :: h2 ->
       ~ sets_attributes ax p op /\
       (rebuilds op = true -> exists n, last_pos ax (trun t (h1 ++ [op])) n /\ p <= n)) ->
    reads ax p (trun t h) v' ->
    v_styles v' = v_styles v /\ v_nature v' = v_nature v.
Proof. exact attributes_kept_run. Qed.

Theorem C31_attributes_set : forall ax p na s t t' v' v, treachable t -> 1 <= p -> reads ax p t v ->
    (tstep (TSetNature ax p na) t = (t', Ok tt) -> reads ax p t' v' -> v_nature v' = na /\ v_styles v' = v_styles v) /\
    (tstep (TSetStyles ax p s) t = (t', Ok tt) -> reads ax p t' v' ->
       v_styles v' = (match s with Some s => s | None => [] end) /\ v_nature v' = v_nature v) /\
    (forall st, dict_ok st -> tstep (TUpdateStyles ax p st) t = (t', Ok tt) -> reads ax p t' v' ->
       v_nature v' = v_nature v /\
       forall k, dget (v_styles v') k = match dget st k with Some x => Some x | None => dget (v_styles v) k end).
Proof. exact attribute_set. Qed.

Example C31_ex : exists v v', reads Rows 1 et v /\
  reads Rows 1 (fst (tstep (TDel (PTuple [PInt 1; PInt 2])) et)) v' /\
  v_nature v = Some "header"%string /\ v_nature v' = Some "header"%string.
Proof. eexists; eexists. split; [vm_compute; reflexivity|]. split; [vm_compute; reflexivity|]. split; vm_compute; reflexivity. Qed.
(** Outside of the bounding box the attributes are lost by a rebuild. *)
Example C31_ex_outside : exists v',
  reads Rows 4 (trun et [TSetNature Rows 4 (Some "footer"%string); TDel (PTuple [PInt 1; PInt 2])]) v' /\
  v_nature v' = None.
Proof. eexists. split; [vm_compute; reflexivity|]. reflexivity. Qed.

(** ** C32: a table is a grid *)

(** Every call on a table has on its cells the effect of the corresponding calls on a plain grid,
    and the same outcome (set, delete, merge, expand, the mapping methods and insert_cell). *)
Theorem C32_table_refines_grid : forall op t, treachable t -> proper op ->
    exists gops, calls t op gops /\ table_iter (fst (tstep op t)) = grun (table_iter t) gops /\
      (forall gop, gops = [gop] -> (forall bb ct s na, op <> TFill bb ct s na) ->
         snd (tstep op t) = snd (gstep gop (table_iter t))).
Proof.
  intros op t HR Hp. destruct (refine_step op t HR Hp) as (gops & Hc & Hg & Ho).
  exists gops. split; [exact Hc|]. split; [exact Hg|]. intros gop -> Hf. unfold same_outcome in Ho.
  destruct op; try exact Ho. exfalso. eapply Hf. reflexivity.
Qed.

(** The cells of a reachable table form a reachable grid, so C14-C24 hold for it; lookups, length
    and bounding box are the ones of this grid. *)
Theorem C32_table_is_reachable_grid : forall t, treachable t -> reachable (table_iter t).
Proof. exact treachable_grid. Qed.
Theorem C32_queries : forall t v,
    table_getitem t v = grid_getitem (table_iter t) v /\
    table_contains t v = grid_contains (table_iter t) v /\
    table_len t = List.length (table_iter t) /\
    table_bounding_box t = grid_bounding_box (table_iter t).
Proof. intros t v. split; [reflexivity|]. split; [reflexivity|]. split; reflexivity. Qed.

Example C32_ex : proper (TInsert Rows 2 CNone None None 1 1) /\
  exists gops, calls et (TInsert Rows 2 CNone None None 1 1) gops /\
  table_iter (fst (tstep (TInsert Rows 2 CNone None None 1 1) et)) = grun (table_iter et) gops /\ gops <> [].
Proof.
  split; [cbn; lia|].
  destruct (C32_table_refines_grid (TInsert Rows 2 CNone None None 1 1) et) as (gops & H1 & H2 & _);
    [apply et_value|cbn; lia|].
  exists gops. split; [exact H1|]. split; [exact H2|]. intros ->. vm_compute in H2. discriminate.
Qed.

Print Assumptions C22_table_failure_atomic.
Print Assumptions C22_insert_cell_failure.
Print Assumptions C25_table_pop_setdefault_partial.
Print Assumptions C25_table_popitem_fails.
Print Assumptions C25_table_popitem_refuted.
Print Assumptions C26_duplicate_refuted.
Print Assumptions C26_multiplicity_refuted.
Print Assumptions C26_membership_partial.
Print Assumptions C26_every_position_has_a_view.
Print Assumptions C26_exact_after_rebuild.
Print Assumptions C26_exact_after_first_read.
Print Assumptions C27_order_refuted.
Print Assumptions C27_order_after_rebuild_partial.
Print Assumptions C27_order_row_wise_partial.
Print Assumptions C28_count_after_rebuild.
Print Assumptions C28_count_at_least.
Print Assumptions C28_reading_is_harmless.
Print Assumptions C29_insert_cell.
Print Assumptions C29_unit_insertion_never_fails.
Print Assumptions C30_fill_missing.
Print Assumptions C30_fill_twice.
Print Assumptions C31_attributes_kept.
Print Assumptions C31_attributes_kept_history.
Print Assumptions C31_attributes_set.
Print Assumptions C32_table_refines_grid.
Print Assumptions C32_table_is_reachable_grid.
Print Assumptions C32_queries.
