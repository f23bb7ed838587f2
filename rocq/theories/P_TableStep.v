(** * Effect of the table operations on the cells and on the views *)
From Coq Require Import Relations.
From Verif Require Import Base M_Geometry M_Xml M_Cell M_Grid M_Table.
From Verif Require Import S_Geometry S_Cell S_Grid S_Table P_Geometry P_Cell P_Grid P_GridFacts P_Table.

Definition gstate : Type := grid * (option (list cell) * option (list cell)).

(** Elementary changes of the ghost state *)
Inductive gt : gstate -> gstate -> Prop :=
| gt_read ax g o : gt (g, o) (g, ghost_set ax (seen (ghost_of ax o) g) o)
| gt_set v c c' g g' o :
    grid_setitem v c g = (g', Ok tt) -> grid_getitem g' v = Ok c' -> Permutation g' (c' :: g) ->
    gt (g, o) (g', (Some (seen (fst o) g' ++ [c']), Some (seen (snd o) g' ++ [c'])))
| gt_rebuild gop g o :
    gt (g, o) (fst (gstep gop g), (Some (fst (gstep gop g)), Some (fst (gstep gop g)))).

Definition gts : gstate -> gstate -> Prop := clos_refl_trans _ gt.

Lemma table_eta t : MkTable (t_grid t) (t_rows t) (t_cols t) (t_styles t) (t_nature t) = t.
Proof. destruct t; reflexivity. Qed.

Lemma getitem_In g v d : grid_getitem g v = Ok d -> In d g.
Proof.
  intros H. destruct (getitem_cases g v) as [[E _]|(c & _ & [(d' & E & Hd & _)|(E & _)])]; congruence.
Qed.

Lemma table_setitem_st v c t g o :
  st t g o -> grid_inv g ->
  (exists e, grid_setitem v c g = (g, Err e) /\ table_setitem v c t = (t, Err e)) \/
  (exists g' c' t', grid_setitem v c g = (g', Ok tt) /\ grid_getitem g' v = Ok c' /\
     Permutation g' (c' :: g) /\ grid_inv g' /\ table_setitem v c t = (t', Ok tt) /\
     st t' g' (Some (seen (fst o) g' ++ [c']), Some (seen (snd o) g' ++ [c']))).
Proof.
  intros HS HI. destruct (grid_setitem v c g) as [g' [[]|e]] eqn:E.
  - right. destruct (setitem_success v c g g' HI E) as (co & c' & _ & _ & _ & _ & _ & HP & Hget).
    assert (HI' : grid_inv g') by (pose proof (grid_setitem_inv v c g HI) as H; rewrite E in H; exact H).
    destruct (on_grid_st (grid_setitem v c) t g o HS) as (t1 & E1 & HS1).
    rewrite E in E1, HS1. cbn [fst snd] in E1, HS1.
    assert (V : valid (c_box c')) by (apply (inv_valid g'); [exact HI'|apply (getitem_In _ v), Hget]).
    destruct (refresh_cell_st c' t1 g' o HS1 (proj1 HI') V) as (t2 & E2 & HS2).
    exists g', c', t2. repeat (split; [assumption||reflexivity|]). split; [|exact HS2].
    unfold table_setitem, sbind, sget, slift. rewrite E1.
    replace (t_grid t1) with g' by (symmetry; apply HS1). rewrite Hget. exact E2.
  - left. pose proof (atomic_set v c g g' e E) as ->. exists e. split; [reflexivity|].
    unfold table_setitem, sbind, on_grid. replace (t_grid t) with g by (symmetry; apply HS).
    rewrite E. replace g with (t_grid t) by apply HS. rewrite table_eta. reflexivity.
Qed.

Lemma rebuild_st {A} (m : SM grid A) t g o :
  st t g o -> (forall g', grid_inv g -> fst (m g) = g' -> grid_inv g') ->
  (forall g' e, m g = (g', Err e) -> g' = g) -> grid_inv g ->
  (exists e, m g = (g, Err e) /\ (on_grid m ;;; refresh_all) t = (t, Err e)) \/
  (exists g' a t', m g = (g', Ok a) /\ grid_inv g' /\
     (on_grid m ;;; refresh_all) t = (t', Ok tt) /\ st t' g' (Some g', Some g')).
Proof.
  intros HS Hinv Hat HI. destruct (m g) as [g' [a|e]] eqn:E.
  - right. destruct (on_grid_st m t g o HS) as (t1 & E1 & HS1). rewrite E in E1, HS1. cbn [fst snd] in *.
    assert (HI' : grid_inv g') by (apply Hinv; auto).
    destruct (refresh_all_st t1 g' o HS1 (proj1 HI')) as (t2 & E2 & HS2).
    exists g', a, t2. split; [reflexivity|]. split; [exact HI'|]. split; [|exact HS2].
    unfold sbind. rewrite E1. exact E2.
  - left. pose proof (Hat g' e eq_refl) as ->. exists e. split; [reflexivity|].
    unfold sbind, on_grid. replace (t_grid t) with g by (symmetry; apply HS).
    rewrite E. replace g with (t_grid t) by apply HS. rewrite table_eta. reflexivity.
Qed.

Lemma table_delitem_st v t g o :
  st t g o -> grid_inv g ->
  (exists e, grid_delitem v g = (g, Err e) /\ table_delitem v t = (t, Err e)) \/
  (exists g' t', grid_delitem v g = (g', Ok tt) /\ grid_inv g' /\
     table_delitem v t = (t', Ok tt) /\ st t' g' (Some g', Some g')).
Proof.
  intros HS HI. destruct (rebuild_st (grid_delitem v) t g o HS) as [(e & E1 & E2)|(g' & [] & t' & E1 & H & E2 & H')].
  - intros g' H <-. apply grid_delitem_inv, H.
  - intros g' e. apply atomic_del.
  - exact HI.
  - left. eauto.
  - right. eauto 10.
Qed.

Lemma table_merge_st s e a t g o :
  st t g o -> grid_inv g ->
  (exists x, grid_merge s e a g = (g, Err x) /\ table_merge s e a t = (t, Err x)) \/
  (exists g' r t', grid_merge s e a g = (g', Ok r) /\ grid_inv g' /\
     table_merge s e a t = (t', Ok tt) /\ st t' g' (Some g', Some g')).
Proof.
  intros HS HI. apply (rebuild_st (grid_merge s e a) t g o HS); [|intros g' x; apply atomic_merge|exact HI].
  intros g' H <-. apply grid_merge_inv, H.
Qed.

Lemma table_expand_st v w h a t g o :
  st t g o -> grid_inv g ->
  (exists x, grid_expand v w h a g = (g, Err x) /\ table_expand v w h a t = (t, Err x)) \/
  (exists g' r t', grid_expand v w h a g = (g', Ok r) /\ grid_inv g' /\
     table_expand v w h a t = (t', Ok tt) /\ st t' g' (Some g', Some g')).
Proof.
  intros HS HI. apply (rebuild_st (grid_expand v w h a) t g o HS); [|intros g' x; apply atomic_expand|exact HI].
  intros g' H <-. apply grid_expand_inv, H.
Qed.

(** ** Reading and changing attributes *)

Lemma vl_rep_upd ax h vs n f :
  (forall v, v_pos (f v) = v_pos v /\ v_owned (f v) = v_owned v /\ v_caught (f v) = v_caught v) ->
  vl_rep ax h vs -> vl_rep ax h (upd_nth vs n f).
Proof.
  intros Hf (HP & HC & HV).
  assert (Hn : forall i v, nth_error (upd_nth vs n f) i = Some v ->
             exists w, nth_error vs i = Some w /\ v_pos v = v_pos w /\ v_owned v = v_owned w /\ v_caught v = v_caught w).
  { intros i v H. rewrite nth_error_upd_nth in H. destruct (Nat.eqb i n).
    - destruct (nth_error vs i) as [w|] eqn:E; [|discriminate]. cbn in H. injection H as <-.
      exists w. destruct (Hf w) as (A & B & C). auto.
    - exists v. auto. }
  split; [|split].
  - intros i v H. destruct (Hn i v H) as (w & Hw & -> & _). apply HP, Hw.
  - intros c Hc. rewrite upd_nth_length. apply HC, Hc.
  - intros v Hv. apply In_nth_error in Hv as [i Hi]. destruct (Hn i v Hi) as (w & Hw & Ep & -> & ->).
    destruct (HV w (nth_error_In _ _ Hw)) as [E1 E2]. rewrite E1, E2.
    split; apply filter_ext; intros c; [apply can_own_pos | apply can_catch_pos]; auto.
Qed.

Lemma view_modify_st ax p f t g o :
  (forall v, v_pos (f v) = v_pos v /\ v_owned (f v) = v_owned v /\ v_caught (f v) = v_caught v) ->
  st t g o -> all_valid g ->
  st (fst (view_modify ax p f t)) g (ghost_set ax (seen (ghost_of ax o) g) o) /\
  (1 <= p -> snd (view_modify ax p f t) = Ok tt) /\
  (forall e, snd (view_modify ax p f t) = Err e -> e = EIndexError).
Proof.
  intros Hf HS HV. destruct (view_get_st ax p t g o HS HV) as (t1 & vs & HS1 & E1 & R & HL & E).
  unfold view_modify, sbind. rewrite E.
  assert (Hidx : (py_nth vs (p - 1) = Err EIndexError /\ ~ 1 <= p) \/ exists v, py_nth vs (p - 1) = Ok v).
  { destruct (Z_le_gt_dec 1 p) as [L|L].
    - destruct (py_nth_pos vs p ltac:(lia)) as (a & Ha & _). eauto.
    - unfold py_nth. destruct (py_index vs (p - 1)) as [n|]; [|left; split; [reflexivity|lia]].
      destruct (nth_error vs n); [eauto | left; split; [reflexivity|lia]]. }
  destruct Hidx as [[Ei Hp]|[v Ev]].
  { rewrite Ei. cbn [fst snd]. split; [exact HS1|]. split; [lia|]. intros e [= <-]. reflexivity. }
  rewrite Ev.
  assert (Eg : views_get ax t1 = (t1, Ok vs)) by (unfold views_get, sbind, sget; rewrite E1; reflexivity).
  rewrite Eg. unfold slift.
  assert (Hu : exists n, py_upd vs (p - 1) f = Ok (upd_nth vs n f)).
  { unfold py_nth in Ev. unfold py_upd. destruct (py_index vs (p - 1)); [eauto|discriminate]. }
  destruct Hu as [n ->].
  destruct (views_put_st ax _ _ t1 g _ HS1 (vl_rep_upd ax _ vs n f Hf R)) as [E2 HS2].
  rewrite E2. cbn [fst snd]. rewrite ghost_set_set in HS2. split; [exact HS2|]. split; [auto|discriminate].
Qed.

(** ** Filling *)

Lemma setitem_same v c g g' c' :
  grid_inv g -> grid_setitem v c g = (g', Ok tt) -> grid_getitem g' v = Ok c' ->
  denotes_coord v (bmin (c_box c)) -> c' = c.
Proof.
  intros HI E Hget Hd.
  destruct (setitem_success v c g g' HI E) as (co & c'' & Hco & (S1 & S2 & S3) & Hm & Hw & Hh & _ & Hget').
  rewrite Hget in Hget'. injection Hget' as <-. pose proof (coord_denotes_fun _ _ _ Hco Hd) as ->.
  destruct c' as [k1 k2 k3 [m1 [b1 b2]]], c as [l1 l2 l3 [m2 [d1 d2]]]. cbn in *. subst.
  unfold box_width, box_height in *. cbn in *. f_equal. f_equal. f_equal; lia.
Qed.

Lemma fill_one_st ct s na x y t g o :
  st t g o -> grid_inv g -> 1 <= x -> 1 <= y ->
  (grid_contains_c g (Coord x y) = true /\ fill_one ct s na (x, y) t = (t, Ok tt)) \/
  (free g (Coord x y) /\
   exists g' t', let c := MkCell ct (styles_of s) na (MkBox (Coord x y) (Coord x y)) in
     grid_setitem (PTuple [PInt x; PInt y]) c g = (g', Ok tt) /\
     grid_getitem g' (PTuple [PInt x; PInt y]) = Ok c /\
     Permutation g' (c :: g) /\ grid_inv g' /\ fill_one ct s na (x, y) t = (t', Ok tt) /\
     st t' g' (Some (seen (fst o) g' ++ [c]), Some (seen (snd o) g' ++ [c]))).
Proof.
  intros HS HI Hx Hy. unfold fill_one, sbind, sget, slift, table_contains.
  replace (t_grid t) with g by (symmetry; apply HS).
  unfold grid_contains. cbn [coord_from_value rbind fst snd].
  destruct (grid_contains_c g (Coord x y)) eqn:E; [left; split; reflexivity|right].
  assert (HF : free g (Coord x y)).
  { intros d Hd Hc. assert (grid_contains_c g (Coord x y) = true) by (apply grid_contains_c_spec; eauto). congruence. }
  split; [exact HF|].
  assert (En : cell_new ct s na x y 1 1 = Ok (MkCell ct (styles_of s) na (MkBox (Coord x y) (Coord x y)))).
  { unfold cell_new. cbn [box_new]. unfold box_validate.
    replace (x + 1 - 1) with x by lia. replace (y + 1 - 1) with y by lia.
    replace (_ && _) with true by lia. reflexivity. }
  rewrite En. set (c := MkCell ct (styles_of s) na (MkBox (Coord x y) (Coord x y))).
  assert (Vc : valid (c_box c)) by (split; cbn; lia).
  destruct (setitem_outcome (PTuple [PInt x; PInt y]) c g (Coord x y) Vc (dc_tuple x y)) as (_ & _ & Hok).
  destruct Hok as [g' Eg'].
  - cbn; lia.
  - intros d Hd Hcl. assert (Vd : valid (c_box d)) by (apply (inv_valid g); assumption).
    apply (HF d Hd). cbn in Hcl. unfold box_width, box_height in Hcl. cbn in Hcl.
    replace (x + (x - x + 1) - 1) with x in Hcl by lia.
    replace (y + (y - y + 1) - 1) with y in Hcl by lia.
    destruct Hcl as [H|[H|[H|H]]]; try exact H.
    + unfold covers in H. cbn in H. unfold covers, valid in *. cbn. lia.
    + unfold covers in H. cbn in H. unfold covers, valid in *. cbn. lia.
  - destruct (table_setitem_st (PTuple [PInt x; PInt y]) c t g o HS HI)
      as [(e & Ee & _)|(g'' & c' & t' & Ee & Hget & HP & HI' & Et & HS')]; [congruence|].
    rewrite Eg' in Ee. injection Ee as <-.
    assert (c' = c) by (apply (setitem_same _ c g g' c' HI Eg' Hget); constructor).
    subst c'. exists g', t'. cbv zeta. fold c.
    repeat (split; [assumption|]). exact HS'.
Qed.

(** ** Places *)

Lemma vl_rep_caught ax h vs p v :
  vl_rep ax h vs -> nth_error vs (Z.to_nat (p - 1)) = Some v -> 1 <= p ->
  v_pos v = p /\ v_owned v = filter (can_own ax v) h /\ v_caught v = filter (can_catch ax v) h.
Proof.
  intros (HP & _ & HV) Hv Hp. split; [rewrite (HP _ _ Hv); lia|]. apply HV. eapply nth_error_In, Hv.
Qed.

Lemma find_first {A} (f : A -> bool) l a :
  find f l = Some a -> exists l1 l2, l = l1 ++ a :: l2 /\ f a = true /\ Forall (fun b => f b = false) l1.
Proof.
  induction l as [|b l IH]; cbn; [discriminate|]. destruct (f b) eqn:E.
  - intros [= <-]. exists [], l. auto.
  - intros H. destruct (IH H) as (l1 & l2 & -> & Ha & Hl). exists (b :: l1), l2. auto.
Qed.

Lemma zrange_split a b l1 x l2 :
  zrange a b = l1 ++ x :: l2 -> forall y, a <= y < x -> In y l1.
Proof.
  intros E y Hy.
  assert (Hx : nth_error (zrange a b) (List.length l1) = Some x).
  { rewrite E, nth_error_app2, Nat.sub_diag by lia. reflexivity. }
  rewrite nth_error_zrange in Hx. destruct (_ <? _) eqn:Lt; [|discriminate]. injection Hx as Hx.
  assert (Hy' : nth_error (zrange a b) (Z.to_nat (y - a)) = Some y).
  { rewrite nth_error_zrange. replace (_ <? _) with true by lia. f_equal. lia. }
  rewrite E, nth_error_app1 in Hy' by lia. eapply nth_error_In, Hy'.
Qed.

(** The place of a view is the least free one. *)
Lemma next_free_spec ax v h :
  v_caught v = filter (can_catch ax v) h -> (forall c, In c h -> valid (c_box c)) ->
  exists i, next_free ax v = Ok i /\ 1 <= i /\
    (forall c, In c h -> ~ covers (c_box c) (at_pos ax (v_pos v) i)) /\
    (forall j, 1 <= j < i -> exists c, In c h /\ covers (c_box c) (at_pos ax (v_pos v) j)).
Proof.
  intros Ec HV.
  assert (Hcov : forall c i, In c h -> covers (c_box c) (at_pos ax (v_pos v) i) -> In c (v_caught v)).
  { intros c i Hc Hcov. rewrite Ec. apply filter_In. split; [exact Hc|]. apply can_catch_spec; [apply HV, Hc|].
    destruct ax; unfold covers in Hcov; cbn in *; lia. }
  assert (HVc : forall c, In c (v_caught v) -> valid (c_box c) /\ In c h).
  { intros c Hc. rewrite Ec in Hc. apply filter_In in Hc as [Hc _]. auto. }
  unfold next_free. destruct (v_caught v) as [|c0 cs] eqn:Ecs; cbn [map].
  - exists 1. split; [reflexivity|]. split; [lia|]. split; [intros c Hc H; exact (Hcov c 1 Hc H)|lia].
  - set (f := fun i => forallb (fun b' => negb (box_has b' (at_pos ax (v_pos v) i))) (c_box c0 :: map c_box cs)).
    assert (Hf : forall i, f i = true <-> forall c, In c h -> ~ covers (c_box c) (at_pos ax (v_pos v) i)).
    { intros i. unfold f. change (c_box c0 :: map c_box cs) with (map c_box (c0 :: cs)).
      rewrite forallb_forall. split.
      - intros H c Hc Hcv. specialize (H (c_box c) (in_map _ _ _ (Hcov c i Hc Hcv))).
        apply box_has_covers in Hcv. rewrite Hcv in H. discriminate.
      - intros H b Hb. apply in_map_iff in Hb as (c & <- & Hc). destruct (HVc c Hc) as [_ Hh].
        apply negb_true_iff, box_has_not, H, Hh. }
    assert (Hf0 : forall i, f i = false -> exists c, In c h /\ covers (c_box c) (at_pos ax (v_pos v) i)).
    { intros i. unfold f. change (c_box c0 :: map c_box cs) with (map c_box (c0 :: cs)).
      intros Hfi. rewrite <- not_true_iff_false, forallb_forall in Hfi.
      destruct (existsb (fun c => box_has (c_box c) (at_pos ax (v_pos v) i)) (c0 :: cs)) eqn:Ex.
      - apply existsb_exists in Ex as (c & Hc & Hh). exists c. split; [apply HVc, Hc|apply box_has_covers, Hh].
      - exfalso. apply Hfi. intros b Hb. apply in_map_iff in Hb as (c & <- & Hc).
        apply negb_true_iff. apply not_true_iff_false. intros Hh.
        assert (existsb (fun c => box_has (c_box c) (at_pos ax (v_pos v) i)) (c0 :: cs) = true)
          by (apply existsb_exists; eauto). congruence. }
    destruct (box_union_eq (c_box c0) (map c_box cs)) as (bb & -> & Vb & Hbb).
    { apply Forall_forall. intros b Hb. change (c_box c0 :: map c_box cs) with (map c_box (c0 :: cs)) in Hb.
      apply in_map_iff in Hb as (c & <- & Hc). apply HVc, Hc. }
    cbn [rbind]. fold f.
    assert (Hle : forall c, In c (c0 :: cs) -> subarea (c_box c) bb).
    { intros c Hc. pose proof (proj1 (Hbb bb Vb) (subarea_refl bb)) as HF. rewrite Forall_forall in HF.
      apply HF. change (c_box c0 :: map c_box cs) with (map c_box (c0 :: cs)). apply in_map, Hc. }
    destruct (find f (zrange 1 (cross_hi ax bb + 1))) as [i|] eqn:Ef.
    + apply find_first in Ef as (l1 & l2 & E & Hi & Hl). exists i. split; [reflexivity|].
      assert (Hri : In i (zrange 1 (cross_hi ax bb + 1))) by (rewrite E; apply in_elt).
      apply in_zrange in Hri. split; [lia|]. split; [apply Hf, Hi|].
      intros j Hj. apply Hf0. rewrite Forall_forall in Hl. apply Hl. eapply zrange_split; eauto.
    + exists (cross_hi ax bb + 1). split; [reflexivity|].
      assert (1 <= cross_hi ax bb) by (destruct Vb, ax; cbn; lia).
      split; [lia|]. split.
      * intros c Hc Hcv. pose proof (Hcov c _ Hc Hcv) as Hin. pose proof (Hle c Hin _ Hcv) as Hb.
        destruct ax; unfold covers in Hb; cbn in Hb; lia.
      * intros j Hj. apply Hf0. eapply (find_none f); [exact Ef|]. apply in_zrange. lia.
Qed.

(** [table.rows[p]] at an odd position *)
Lemma py_nth_pos_le {A} (l : list A) p v :
  py_nth l (p - 1) = Ok v -> exists q, nth_error l (Z.to_nat (q - 1)) = Some v /\ 1 <= q <= Z.of_nat (List.length l) /\
                                     (1 <= p -> q = p).
Proof.
  unfold py_nth, py_index. intros H.
  destruct ((0 <=? p - 1) && (p - 1 <? Z.of_nat (List.length l))) eqn:E1.
  - exists p. destruct (nth_error l (Z.to_nat (p - 1))) eqn:E; [|discriminate].
    injection H as ->. split; [reflexivity|]. lia.
  - destruct ((p - 1 <? 0) && (- Z.of_nat (List.length l) <=? p - 1)) eqn:E2; [|discriminate].
    exists (Z.of_nat (List.length l) + p).
    destruct (nth_error l (Z.to_nat (Z.of_nat (List.length l) + (p - 1)))) eqn:E; [|discriminate].
    injection H as ->.
    replace (Z.of_nat (List.length l) + p - 1) with (Z.of_nat (List.length l) + (p - 1)) by lia.
    split; [exact E|]. lia.
Qed.

Definition pinned (ax : axis) (q i w h : Z) : box :=
  let co := at_pos ax q i in MkBox co (Coord (cx co + w - 1) (cy co + h - 1)).

Lemma cell_new_cases ct s na x y w h :
  1 <= x -> 1 <= y ->
  (1 <= w /\ 1 <= h /\
   cell_new ct s na x y w h =
   Ok (MkCell ct (styles_of s) na (MkBox (Coord x y) (Coord (x + w - 1) (y + h - 1))))) \/
  (~ (1 <= w /\ 1 <= h) /\ cell_new ct s na x y w h = Err EValueError).
Proof.
  intros Hx Hy. unfold cell_new. cbn [box_new]. unfold box_validate.
  destruct (_ && _) eqn:E; cbn [rbind]; [left|right]; (split; [lia|]); [split; [lia|reflexivity]|reflexivity].
Qed.

Lemma insert_cell_st ax p ct s na w h t g o :
  st t g o -> grid_inv g ->
  (forall c, In c (seen (ghost_of ax o) g) <-> In c g) ->
  let o1 := ghost_set ax (seen (ghost_of ax o) g) o in
  exists t1, st t1 g o1 /\
  ((snd (view_get ax p t) = Err EIndexError /\ ~ 1 <= p /\
    insert_cell ax p ct s na w h t = (t1, Err EIndexError)) \/
   exists q i v, view_get ax p t = (t1, Ok v) /\ v_pos v = q /\ 1 <= q /\ 1 <= i /\ (1 <= p -> q = p) /\
     free g (at_pos ax q i) /\ (forall j, 1 <= j < i -> ~ free g (at_pos ax q j)) /\
     let c := MkCell ct (styles_of s) (inherit na (v_nature v)) (pinned ax q i w h) in
     ((~ (1 <= w /\ 1 <= h) /\ insert_cell ax p ct s na w h t = (t1, Err EValueError)) \/
      (1 <= w /\ 1 <= h /\
       insert_cell ax p ct s na w h t = table_setitem (PCoord (at_pos ax q i)) c t1))).
Proof.
  intros HS HI Hmem o1.
  destruct (view_get_st ax p t g o HS (proj1 HI)) as (t1 & vs & HS1 & E1 & R & HL & E).
  exists t1. split; [exact HS1|]. unfold insert_cell, sbind, slift. rewrite E.
  destruct (py_nth vs (p - 1)) as [v|e] eqn:Ev.
  - right. apply py_nth_pos_le in Ev as (q & Hq & Hqr & Hpq).
    destruct (vl_rep_caught ax _ vs q v R Hq ltac:(lia)) as (Ep & _ & Ec).
    destruct (next_free_spec ax v _ Ec) as (i & Ei & Hi & Hfree & Hleast).
    { intros c Hc. apply (inv_valid g); [exact HI|]. apply Hmem, Hc. }
    exists q, i, v. rewrite Ei, Ep in *. split; [reflexivity|]. split; [reflexivity|].
    split; [lia|]. split; [exact Hi|]. split; [exact Hpq|].
    split. { intros d Hd. apply Hfree, Hmem, Hd. }
    split. { intros j Hj Hf. destruct (Hleast j Hj) as (c & Hc & Hcov). apply (Hf c); [apply Hmem, Hc|exact Hcov]. }
    cbv zeta.
    destruct (cell_new_cases ct s (inherit na (v_nature v)) (cx (at_pos ax q i)) (cy (at_pos ax q i)) w h) as [(Hw & Hh & En)|(Hn & En)].
    + destruct ax; cbn; lia.
    + destruct ax; cbn; lia.
    + right. split; [exact Hw|]. split; [exact Hh|]. rewrite En. unfold c_min. cbn [c_box bmin].
      unfold pinned. rewrite coord_eta. reflexivity.
    + left. split; [exact Hn|]. rewrite En. reflexivity.
  - left. cbn [snd].
    destruct (Z_le_gt_dec 1 p) as [L|L].
    + destruct (py_nth_pos vs p ltac:(lia)) as (a & Ha & _). congruence.
    + assert (e = EIndexError).
      { unfold py_nth in Ev. destruct (py_index vs (p - 1)) as [n|]; [destruct (nth_error vs n)|]; congruence. }
      subst e. split; [reflexivity|]. split; [lia|reflexivity].
Qed.
