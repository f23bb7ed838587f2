(** * Filling, inserting, attributes, refinement *)
From Coq Require Import Relations.
From Verif Require Import Base M_Geometry M_Xml M_Cell M_Grid M_Table.
From Verif Require Import S_Geometry S_Cell S_Grid S_Table P_Geometry P_Cell P_Grid P_GridFacts.
From Verif Require Import P_Table P_TableStep P_TableFacts.

(** ** fill_missing *)

Definition freeb (g : grid) (k : coord) : bool := negb (grid_contains_c g k).
Lemma freeb_free g k : freeb g k = true <-> free g k.
Proof.
  unfold freeb, free. rewrite negb_true_iff, <- not_true_iff_false, grid_contains_c_spec. split.
  - intros H d Hd Hc. apply H. eauto.
  - intros H (d & Hd & Hc). exact (H d Hd Hc).
Qed.

Lemma free_perm g g' k : Permutation g g' -> free g k -> free g' k.
Proof. intros HP H d Hd. apply H. rewrite HP. exact Hd. Qed.

Lemma fill_list ct s na ps t o :
  tinv t o -> NoDup ps -> (forall p, In p ps -> 1 <= fst p /\ 1 <= snd p) ->
  exists t' o' ks,
    siter (fill_one ct s na) ps t = (t', Ok tt) /\ tinv t' o' /\ gts (t_grid t, o) (t_grid t', o') /\
    Permutation (t_grid t') (map (unit_cell ct s na) ks ++ t_grid t) /\ NoDup ks /\
    (forall k, In k ks <-> In (cx k, cy k) ps /\ free (t_grid t) k) /\
    t_grid t' = grun (t_grid t) (map (fun k => GSet (PTuple [PInt (cx k); PInt (cy k)]) (unit_cell ct s na k)) ks).
Proof.
  revert t o. induction ps as [|[x y] ps IH]; intros t o HT ND Hpos.
  - exists t, o, []. cbn. split; [reflexivity|]. split; [exact HT|]. split; [apply gts_refl|].
    split; [reflexivity|]. split; [constructor|]. split; [tauto|reflexivity].
  - inversion ND as [|? ? Hn ND']; subst.
    destruct (Hpos (x, y) (or_introl eq_refl)) as [Hx Hy]. cbn in Hx, Hy.
    cbn [siter]. unfold sbind. destruct HT as [HS HM].
    destruct (fill_one_st ct s na x y t _ o HS (proj1 HM) Hx Hy) as [[Hc E]|(HF & g1 & t1 & Eg & Hget & HP1 & HI1 & E & HS1)];
      rewrite E.
    + destruct (IH t o (conj HS HM) ND') as (t' & o' & ks & E' & HT' & G & HP & NDk & Hk & Hg).
      { intros p Hp. apply Hpos. right. exact Hp. }
      exists t', o', ks. split; [exact E'|]. split; [exact HT'|]. split; [exact G|]. split; [exact HP|].
      split; [exact NDk|]. split; [|exact Hg]. intros k. rewrite Hk. cbn [In]. split.
      * intros [H1 H2]. auto.
      * intros [[H1|H1] H2]; [|auto]. exfalso. injection H1 as -> ->.
        apply freeb_free in H2. unfold freeb in H2. rewrite coord_eta in Hc. rewrite Hc in H2. discriminate.
    + set (c := unit_cell ct s na (Coord x y)) in *.
      pose proof (proj1 HS1) as Eg1.
      assert (HT1 : tinv t1 (Some (seen (fst o) g1 ++ [c]), Some (seen (snd o) g1 ++ [c]))).
      { split; [rewrite Eg1; exact HS1|]. rewrite Eg1. eapply gt_mem_inv; [|exact HM].
        eapply gt_set; eassumption. }
      destruct (IH t1 _ HT1 ND') as (t' & o' & ks & E' & HT' & G & HP & NDk & Hk & Hg).
      { intros p Hp. apply Hpos. right. exact Hp. }
      rewrite Eg1 in *.
      assert (Hfree1 : forall k, free g1 k <-> k <> Coord x y /\ free (t_grid t) k).
      { intros k. split.
        - intros H. split.
          + intros ->. apply (H c); [rewrite HP1; left; reflexivity|]. unfold covers; cbn; lia.
          + intros d Hd. apply H. rewrite HP1. right. exact Hd.
        - intros [H1 H2] d Hd. rewrite HP1 in Hd. destruct Hd as [<-|Hd]; [|apply H2, Hd].
          intros Hc. apply H1. unfold covers in Hc. cbn in Hc. apply coord_ext; cbn; lia. }
      exists t', o', (Coord x y :: ks). split; [exact E'|]. split; [exact HT'|].
      split. { eapply rt_trans; [|exact G]. apply gts_one. eapply gt_set; eassumption. }
      split.
      { rewrite HP, HP1. cbn [map app]. symmetry. apply Permutation_middle. }
      split.
      { constructor; [|exact NDk]. rewrite Hk, Hfree1. tauto. }
      split; [|rewrite Hg; cbn [map]; unfold grun; cbn [fold_left gstep cx cy]; change (g1) with (fst (g1, Ok tt)) at 1; rewrite <- Eg; reflexivity].
      intros k. cbn [In]. rewrite Hk, Hfree1. split.
      * intros [<-|(H1 & H2 & H3)]; cbn; auto.
      * intros [[H1|H1] H2].
        -- left. apply coord_ext; cbn; congruence.
        -- destruct (Z.eq_dec (cx k) x) as [E1|E1], (Z.eq_dec (cy k) y) as [E2|E2].
           ++ left. apply coord_ext; cbn; auto.
           ++ right. split; [exact H1|]. split; [intros ->; cbn in *; congruence|exact H2].
           ++ right. split; [exact H1|]. split; [intros ->; cbn in *; congruence|exact H2].
           ++ right. split; [exact H1|]. split; [intros ->; cbn in *; congruence|exact H2].
Qed.

Lemma fill_positions_in bb x y : In (x, y) (fill_positions bb) <-> covers bb (Coord x y).
Proof.
  unfold fill_positions. rewrite in_flat_map. unfold covers. cbn. split.
  - intros (y' & Hy & Hin). apply in_map_iff in Hin as (x' & E & Hx). injection E as -> ->.
    apply in_zrange in Hx. apply in_zrange in Hy. lia.
  - intros H. exists y. split; [apply in_zrange; lia|]. apply in_map_iff. exists x. split; [reflexivity|apply in_zrange; lia].
Qed.

Lemma NoDup_flat_rows (xs : list Z) (ys : list Z) :
  NoDup xs -> NoDup ys -> NoDup (flat_map (fun y => map (fun x => (x, y)) xs) ys).
Proof.
  intros Hx Hy. induction Hy as [|y ys Hn _ IH]; cbn; [constructor|].
  apply NoDup_app_intro; [|exact IH|].
  - clear -Hx. induction Hx as [|x xs Hn _ IH]; cbn; constructor; auto.
    intros H. apply in_map_iff in H as (x' & E & Hx'). injection E as ->. contradiction.
  - intros [a b] Ha Hb. apply in_map_iff in Ha as (x' & E & _). injection E as <- <-.
    apply in_flat_map in Hb as (y' & Hy' & Hb). apply in_map_iff in Hb as (x'' & E & _). injection E as _ ->. contradiction.
Qed.

Lemma NoDup_fill_positions bb : NoDup (fill_positions bb).
Proof. apply NoDup_flat_rows; apply NoDup_zrange. Qed.

Lemma fill_missing_spec bb ct s na t :
  treachable t -> valid bb ->
  exists t' ks, table_fill_missing bb ct s na t = (t', Ok tt) /\
    Permutation (table_iter t') (map (unit_cell ct s na) ks ++ table_iter t) /\ NoDup ks /\
    (forall k, In k ks <-> covers bb k /\ free (table_iter t) k).
Proof.
  intros HR V. destruct (treachable_tinv t HR) as (o & HT).
  destruct (fill_list ct s na (fill_positions bb) t o HT (NoDup_fill_positions bb)) as (t' & o' & ks & E & _ & _ & HP & ND & Hk & _).
  { intros [x y] H. apply fill_positions_in in H. unfold covers, valid in *. cbn in *. lia. }
  exists t', ks. split; [exact E|]. split; [exact HP|]. split; [exact ND|].
  intros k. rewrite Hk, fill_positions_in, coord_eta. reflexivity.
Qed.

Lemma fill_none ct s na ps t :
  (forall p, In p ps -> ~ free (t_grid t) (Coord (fst p) (snd p))) ->
  siter (fill_one ct s na) ps t = (t, Ok tt).
Proof.
  induction ps as [|[x y] ps IH]; intros H; cbn [siter]; [reflexivity|].
  assert (E : fill_one ct s na (x, y) t = (t, Ok tt)).
  { unfold fill_one, sbind, sget, slift, table_contains, grid_contains. cbn [coord_from_value rbind fst snd].
    destruct (grid_contains_c (t_grid t) (Coord x y)) eqn:E; [reflexivity|].
    exfalso. apply (H (x, y) (or_introl eq_refl)). apply freeb_free. unfold freeb. cbn. rewrite E. reflexivity. }
  unfold sbind. rewrite E. apply IH. intros p Hp. apply H. right. exact Hp.
Qed.

Lemma fill_missing_full bb ct s na t :
  (forall k, covers bb k -> ~ free (table_iter t) k) -> table_fill_missing bb ct s na t = (t, Ok tt).
Proof.
  intros H. apply fill_none. intros [x y] Hp. apply fill_positions_in in Hp. cbn. apply H, Hp.
Qed.

Lemma fill_missing_twice bb ct s na ct' s' na' t t' :
  treachable t -> valid bb -> table_fill_missing bb ct s na t = (t', Ok tt) ->
  table_fill_missing bb ct' s' na' t' = (t', Ok tt).
Proof.
  intros HR V E. apply fill_missing_full. intros k Hk Hf.
  destruct (fill_missing_spec bb ct s na t HR V) as (t'' & ks & E' & HP & _ & Hks).
  rewrite E in E'. injection E' as <-. unfold table_iter, grid_iter in *.
  assert (Hnf : ~ free (t_grid t) k).
  { intros H. apply (Hf (unit_cell ct s na k)).
    - rewrite HP. apply in_app_iff. left. apply in_map, Hks. auto.
    - unfold covers; cbn; lia. }
  apply Hnf. intros d Hd. apply Hf. rewrite HP. apply in_app_iff. right. exact Hd.
Qed.

(** ** insert_cell *)

Lemma insert_cell_spec ax p ct s na w h t v :
  treachable t -> 1 <= p -> reads ax p t v ->
  exists i, 1 <= i /\
    free (table_iter t) (at_pos ax p i) /\
    (forall j, 1 <= j < i -> ~ free (table_iter t) (at_pos ax p j)) /\
    let c := MkCell ct (styles_of s) (match na with None => v_nature v | Some _ => na end) (seat ax p i w h) in
    (~ (1 <= w /\ 1 <= h) /\ insert_cell ax p ct s na w h t = (fst (view_get ax p t), Err EValueError)) \/
    (1 <= w /\ 1 <= h /\
     (((exists d, In d (table_iter t) /\ clash (c_box d) (seat ax p i w h)) /\
       insert_cell ax p ct s na w h t = (fst (view_get ax p t), Err EKeyError)) \/
      ((forall d, In d (table_iter t) -> ~ clash (c_box d) (seat ax p i w h)) /\
       exists t', insert_cell ax p ct s na w h t = (t', Ok tt) /\
                  Permutation (table_iter t') (c :: table_iter t)))).
Proof.
  intros HR Hp Hv. destruct (treachable_tinv t HR) as (o & HS & HM).
  destruct (insert_cell_st ax p ct s na w h t _ o HS (proj1 HM) (seen_mem ax (t_grid t, o) HM)) as (t1 & HS1 & H).
  destruct H as [(_ & Hn & _)|(q & i & v' & Evg & Eq & Hq & Hi & Hqp & Hf & Hl & H)]; [lia|].
  specialize (Hqp Hp). subst q. rewrite Hqp in *.
  unfold reads in Hv. rewrite Evg in Hv. cbn in Hv. injection Hv as ->.
  exists i. split; [exact Hi|]. split; [exact Hf|]. split; [exact Hl|]. cbv zeta.
  assert (Es : pinned ax p i w h = seat ax p i w h) by (destruct ax; reflexivity).
  rewrite Evg. cbn [fst]. rewrite <- Es.
  destruct H as [(Hn & E)|(Hw & Hh & E)]; [left; auto|right]. split; [exact Hw|]. split; [exact Hh|].
  set (c := MkCell ct (styles_of s) (inherit na (v_nature v)) (pinned ax p i w h)) in *.
  assert (Vc : valid (c_box c)) by (unfold c; cbn; destruct ax; split; cbn; lia).
  assert (Ht : MkBox (at_pos ax p i)
                 (Coord (cx (at_pos ax p i) + box_width (c_box c) - 1) (cy (at_pos ax p i) + box_height (c_box c) - 1))
               = pinned ax p i w h).
  { unfold c, pinned, box_width, box_height. cbn. f_equal. f_equal; lia. }
  destruct (setitem_outcome (PCoord (at_pos ax p i)) c (t_grid t) (at_pos ax p i) Vc (dc_coord _)) as (_ & HK & HO).
  cbv zeta in HK, HO. rewrite Ht in HK, HO.
  assert (H1 : 1 <= cx (at_pos ax p i) /\ 1 <= cy (at_pos ax p i)) by (destruct ax; cbn; lia).
  assert (HM1 : mem_inv (t_grid t, ghost_set ax (seen (ghost_of ax o) (t_grid t)) o))
    by (eapply gt_mem_inv; [apply gt_read|exact HM]).
  destruct (table_setitem_st (PCoord (at_pos ax p i)) c t1 _ _ HS1 (proj1 HM1))
    as [(e & Ee & Et)|(g' & c' & t' & Ee & Hget & HP & HI' & Et & HS')].
  - left. assert (Hdec : (exists d, In d (t_grid t) /\ clash (c_box d) (pinned ax p i w h)) \/
                         (forall d, In d (t_grid t) -> ~ clash (c_box d) (pinned ax p i w h))).
    { destruct (existsb (fun d => box_intersect (c_box d) (pinned ax p i w h)) (t_grid t)) eqn:Ex.
      - left. apply existsb_clash, Ex.
      - right. intros d Hd Hc. assert (existsb (fun d => box_intersect (c_box d) (pinned ax p i w h)) (t_grid t) = true)
          by (apply existsb_clash; eauto). congruence. }
    destruct Hdec as [Hd|Hd].
    + split; [exact Hd|]. rewrite (HK H1 Hd) in Ee. injection Ee as <-. rewrite E. exact Et.
    + destruct (HO H1 Hd) as [g' Eg']. congruence.
  - right.
    assert (Ec : c' = c).
    { apply (setitem_same (PCoord (at_pos ax p i)) c (t_grid t) g' c' (proj1 HM) Ee Hget).
      unfold c, pinned. cbn. constructor. }
    subst c'. split.
    + intros d Hd Hc. rewrite HK in Ee; [discriminate|exact H1|]. eauto.
    + exists t'. rewrite E. split; [exact Et|]. unfold table_iter, grid_iter. rewrite (proj1 HS').
      rewrite HP. reflexivity.
Qed.

Lemma insert_cell_unit ax p ct s na t :
  treachable t -> 1 <= p -> exists t', insert_cell ax p ct s na 1 1 t = (t', Ok tt).
Proof.
  intros HR Hp. destruct (reads_exists ax p t HR Hp) as [v Hv].
  destruct (insert_cell_spec ax p ct s na 1 1 t v HR Hp Hv) as (i & Hi & Hf & _ & H).
  cbv zeta in H. destruct H as [(Hn & _)|(_ & _ & [((d & Hd & Hc) & _)|(_ & t' & E & _)])]; [lia| |eauto].
  exfalso. destruct (treachable_tinv t HR) as (o & _ & HM).
  assert (Vd : valid (c_box d)) by (apply (inv_valid (t_grid t)); [apply HM|exact Hd]).
  apply (Hf d Hd). unfold clash, covers, valid in *. destruct ax; cbn in *; lia.
Qed.

(** ** Row-wise histories *)

Definition packed (g : grid) : Prop :=
  forall c x, In c g -> 1 <= x < cx (bmin (c_box c)) -> ~ free g (Coord x (cy (bmin (c_box c)))).
Definition ordered (h : list cell) : Prop :=
  ForallOrdPairs (fun a b => cy (bmin (c_box a)) = cy (bmin (c_box b)) -> cx (bmin (c_box a)) < cx (bmin (c_box b))) h.

Lemma in_order_ordered g : in_order g -> ordered g.
Proof.
  induction 1 as [|a l _ IH HF]; constructor; [|exact IH].
  rewrite Forall_forall in *. intros b Hb. specialize (HF b Hb). unfold before in HF. lia.
Qed.

Lemma packed_grow g g' c :
  packed g -> Permutation g' (c :: g) ->
  (forall x, 1 <= x < cx (bmin (c_box c)) -> ~ free g (Coord x (cy (bmin (c_box c))))) -> packed g'.
Proof.
  intros HP Hg Hc d x Hd Hx Hf.
  assert (Hf' : free g (Coord x (cy (bmin (c_box d))))).
  { intros e He. apply Hf. rewrite Hg. right. exact He. }
  rewrite Hg in Hd. destruct Hd as [<-|Hd].
  - exact (Hc x Hx Hf').
  - exact (HP d x Hd Hx Hf').
Qed.

Lemma ordered_grow g h c :
  packed g -> (forall d, In d h <-> In d g) -> ordered h -> (forall d, In d g -> valid (c_box d)) ->
  1 <= cx (bmin (c_box c)) -> free g (bmin (c_box c)) -> ordered (h ++ [c]).
Proof.
  intros HP Hm HO HV H1 Hf. apply FOP_app. split; [exact HO|]. split; [constructor; constructor|].
  intros a b Ha [<-|[]] Ey. apply Hm in Ha. pose proof (HV a Ha) as V.
  destruct (Z_lt_ge_dec (cx (bmin (c_box a))) (cx (bmin (c_box c)))) as [L|L]; [exact L|exfalso].
  destruct (Z.eq_dec (cx (bmin (c_box a))) (cx (bmin (c_box c)))) as [E|E].
  - apply (Hf a Ha). unfold covers, valid in *. lia.
  - apply (HP a (cx (bmin (c_box c))) Ha); [lia|]. rewrite Ey, coord_eta. exact Hf.
Qed.

(** The state kept by row-wise histories *)
Definition rw (t : table) (o : option (list cell) * option (list cell)) : Prop :=
  tinv t o /\ packed (t_grid t) /\ exists h, fst o = Some h /\ ordered h.

Lemma rw_set v c g g' c' t t' o :
  rw t o -> t_grid t = g -> grid_setitem v c g = (g', Ok tt) -> grid_getitem g' v = Ok c' -> Permutation g' (c' :: g) ->
  st t' g' (Some (seen (fst o) g' ++ [c']), Some (seen (snd o) g' ++ [c'])) ->
  free g (bmin (c_box c')) ->
  (forall x, 1 <= x < cx (bmin (c_box c')) -> ~ free g (Coord x (cy (bmin (c_box c'))))) ->
  rw t' (Some (seen (fst o) g' ++ [c']), Some (seen (snd o) g' ++ [c'])).
Proof.
  intros ([HS HM] & HPk & h & Eh & HO) Eg E Hget HP HS' Hf Hl.
  pose proof (proj1 HS') as Eg'. rewrite Eg in *.
  assert (HM' : mem_inv (g', (Some (seen (fst o) g' ++ [c']), Some (seen (snd o) g' ++ [c']))))
    by (eapply gt_mem_inv; [eapply gt_set; eassumption|exact HM]).
  split; [split; rewrite Eg'; assumption|]. rewrite Eg'. split.
  - eapply packed_grow; eassumption.
  - exists (h ++ [c']). cbn [fst]. rewrite Eh. split; [reflexivity|].
    eapply ordered_grow; try eassumption.
    + intros d. apply (proj2 HM Rows h Eh).
    + intros d. apply inv_valid, HM.
    + assert (V : valid (c_box c')).
      { apply (inv_valid g'); [apply HM'|]. rewrite HP. left. reflexivity. }
      unfold valid in V. lia.
Qed.

Lemma rw_fill_row ct s na y n a t o :
  rw t o -> 1 <= y -> 1 <= a -> (forall x, 1 <= x < a -> ~ free (t_grid t) (Coord x y)) ->
  exists t' o', siter (fill_one ct s na) (map (fun x => (x, y)) (zrange a (a + Z.of_nat n))) t = (t', Ok tt) /\ rw t' o'.
Proof.
  revert a t o. induction n as [|n IH]; intros a t o HR Hy Ha Hl.
  - replace (a + Z.of_nat 0) with a by lia. unfold zrange. rewrite Z.sub_diag. cbn. exists t, o. split; [reflexivity|exact HR].
  - assert (Ez : zrange a (a + Z.of_nat (S n)) = a :: zrange (a + 1) (a + 1 + Z.of_nat n)).
    { unfold zrange. replace (Z.to_nat (a + Z.of_nat (S n) - a)) with (S n) by lia.
      replace (Z.to_nat (a + 1 + Z.of_nat n - (a + 1))) with n by lia.
      cbn [seq map]. f_equal; [lia|]. rewrite <- seq_shift, map_map. apply map_ext. intros i. lia. }
    rewrite Ez. cbn [map siter]. unfold sbind.
    pose proof HR as ([HS HM] & HPk & Hh).
    destruct (fill_one_st ct s na a y t _ o HS (proj1 HM) Ha Hy) as [[Hc E]|(HF & g1 & t1 & Eg & Hget & HP1 & HI1 & E & HS1)]; rewrite E.
    + apply (IH (a + 1) t o HR Hy ltac:(lia)). intros x Hx.
      destruct (Z.eq_dec x a) as [->|D]; [|apply Hl; lia].
      intros H. apply freeb_free in H. unfold freeb in H. rewrite Hc in H. discriminate.
    + set (c := MkCell ct (styles_of s) na (MkBox (Coord a y) (Coord a y))) in *.
      assert (HR1 : rw t1 (Some (seen (fst o) g1 ++ [c]), Some (seen (snd o) g1 ++ [c]))).
      { eapply rw_set; eauto. }
      apply (IH (a + 1) t1 _ HR1 Hy ltac:(lia)). intros x Hx Hf. rewrite (proj1 HS1) in Hf.
      destruct (Z.eq_dec x a) as [->|D].
      * apply (Hf c); [rewrite HP1; left; reflexivity|]. unfold covers; cbn; lia.
      * apply (Hl x ltac:(lia)). intros d Hd. apply Hf. rewrite HP1. right. exact Hd.
Qed.

Lemma siter_app {S A} (f : A -> SM S unit) l m s :
  siter f (l ++ m) s = (siter f l ;;; siter f m) s.
Proof.
  revert s. induction l as [|a l IH]; intros s; cbn [app siter]; [reflexivity|].
  unfold sbind. destruct (f a s) as [s' [[]|e]]; [|reflexivity]. rewrite IH. reflexivity.
Qed.

Lemma rw_fill bb ct s na t o :
  rw t o -> valid bb -> cx (bmin bb) = 1 ->
  exists t' o', table_fill_missing bb ct s na t = (t', Ok tt) /\ rw t' o'.
Proof.
  intros HR [Vx Vy] E1. unfold table_fill_missing, fill_positions. rewrite E1.
  set (xs := zrange 1 (cx (bmax bb) + 1)).
  assert (Exs : xs = zrange 1 (1 + Z.of_nat (Z.to_nat (cx (bmax bb))))) by (unfold xs; f_equal; lia).
  assert (Hys : forall y, In y (zrange (cy (bmin bb)) (cy (bmax bb) + 1)) -> 1 <= y) by (intros y Hy; apply in_zrange in Hy; lia).
  revert Hys. generalize (zrange (cy (bmin bb)) (cy (bmax bb) + 1)). intros ys.
  revert t o HR. induction ys as [|y ys IH]; intros t o HR Hys; cbn [flat_map]; [exists t, o; split; [reflexivity|exact HR]|].
  rewrite siter_app. unfold sbind. rewrite Exs.
  destruct (rw_fill_row ct s na y (Z.to_nat (cx (bmax bb))) 1 t o HR) as (t1 & o1 & E & HR1).
  - apply Hys. left. reflexivity.
  - lia.
  - intros x Hx. lia.
  - rewrite E. rewrite <- Exs. apply (IH t1 o1 HR1). intros y' Hy'. apply Hys. right. exact Hy'.
Qed.

Lemma rw_read ax t t' o :
  rw t o -> st t' (t_grid t) (ghost_set ax (seen (ghost_of ax o) (t_grid t)) o) ->
  rw t' (ghost_set ax (seen (ghost_of ax o) (t_grid t)) o).
Proof.
  intros ([HS HM] & HPk & h & Eh & HO) HS'. pose proof (proj1 HS') as Eg. split; [|split].
  - split; rewrite Eg; [exact HS'|]. eapply gt_mem_inv; [apply gt_read|exact HM].
  - rewrite Eg. exact HPk.
  - exists h. split; [|exact HO]. destruct ax, o as [o1 o2]; cbn in *; subst; reflexivity.
Qed.

Lemma rw_step op t o :
  rw t o -> row_wise op -> (forall bb ct s na, op = TFill bb ct s na -> valid bb) ->
  exists o', rw (fst (tstep op t)) o'.
Proof.
  intros HR Hop Hbb. pose proof HR as ([HS HM] & HPk & h & Eh & HO).
  destruct op as [| | |v w hh app|bb ct s na|ax p ct s na w hh|ax|ax p|ax p na|ax p s|ax p s| | | |];
    cbn [row_wise] in Hop; try contradiction; cbn [tstep].
  - destruct (table_expand_st v w hh app t _ o HS (proj1 HM)) as [(e & _ & E)|(g' & r & t' & Eg & HI' & E & HS')]; rewrite E; [eauto|].
    cbn [fst]. pose proof (proj1 HS') as Eg'.
    exists (Some g', Some g'). split; [|split].
    + split; rewrite Eg'; [exact HS'|]. split; [exact HI'|]. intros [] h'; cbn; intros [= <-]; reflexivity.
    + rewrite Eg'. destruct (expand_success v w hh app _ g' r (proj1 HM) Eg)
        as (c & ins & rest & area & Hc & Hw & Hh & Ea & Er & _ & Hsel & Hrest & _ & HP).
      assert (Hmono : forall k, free g' k -> free (t_grid t) k).
      { intros k Hf d Hd Hcov.
        assert (D : inside area d \/ ~ inside area d).
        { destruct (insideb area d) eqn:Ei.
          - left. apply insideb_inside; [apply (inv_valid (t_grid t)); [apply HM|exact Hd]|exact Ei].
          - right. intros Hi. apply insideb_inside in Hi; [congruence|].
            apply (inv_valid (t_grid t)); [apply HM|exact Hd]. }
        destruct D as [D|D].
        - apply (Hf r); [rewrite HP; left; reflexivity|]. rewrite Er. apply D, Hcov.
        - apply (Hf d); [|exact Hcov]. rewrite HP. right. apply (selects_In _ _ _ d Hrest). auto. }
      intros d x Hd Hx Hf. apply Hmono in Hf. rewrite HP in Hd. destruct Hd as [<-|Hd].
      * rewrite Er, Ea in Hx, Hf. cbn [bmin] in Hx, Hf. apply (HPk c x); auto.
        apply (proj1 (selects_In _ _ _ c Hsel)). left. reflexivity.
      * apply (HPk d x); auto. apply (proj1 (selects_In _ _ _ d Hrest)). exact Hd.
    + exists g'. split; [reflexivity|]. apply in_order_ordered, HI'.
  - destruct (rw_fill bb ct s na t o HR (Hbb _ _ _ _ eq_refl) Hop) as (t' & o' & E & HR'). rewrite E. eauto.
  - destruct ax; [|contradiction].
    destruct (insert_cell_st Rows p ct s na w hh t _ o HS (proj1 HM) (seen_mem Rows (t_grid t, o) HM)) as (t1 & HS1 & H).
    pose proof (rw_read Rows t t1 o HR HS1) as HR1.
    destruct H as [(_ & _ & E)|(q & i & v & _ & _ & Hq & Hi & _ & Hf & Hl & [(_ & E)|(Hw & Hh & E)])]; rewrite E; cbn [fst]; eauto.
    set (c := MkCell ct (styles_of s) (inherit na (v_nature v)) (pinned Rows q i w hh)).
    destruct (table_setitem_st (PCoord (at_pos Rows q i)) c t1 _ _ HS1 (proj1 HM))
      as [(e & _ & Et)|(g' & c' & t' & Ee & Hget & HP & HI' & Et & HS')]; rewrite Et; cbn [fst]; [eauto|].
    assert (Ec : c' = c).
    { apply (setitem_same (PCoord (at_pos Rows q i)) c (t_grid t) g' c' (proj1 HM) Ee Hget). constructor. }
    subst c'. eexists. eapply (rw_set _ c (t_grid t) g' c t1 t'); eauto.
    + exact (proj1 HS1).
  - rewrite unit_of_state. destruct (views_get_st ax t _ o HS (proj1 (proj1 HM))) as (t' & vs & E & HS' & _). rewrite E.
    eexists. apply (rw_read ax t t' o HR HS').
  - rewrite unit_of_state. destruct (view_get_st ax p t _ o HS (proj1 (proj1 HM))) as (t' & vs & HS' & _ & _ & _ & E). rewrite E.
    eexists. apply (rw_read ax t t' o HR HS').
  - destruct (view_modify_st ax p (with_nature na) t (t_grid t) o) as [HS' _]; auto; [apply HM|].
    eexists. apply (rw_read ax t _ o HR HS').
  - destruct (view_modify_st ax p (with_styles (styles_of s)) t (t_grid t) o) as [HS' _]; auto; [apply HM|].
    eexists. apply (rw_read ax t _ o HR HS').
  - destruct (view_modify_st ax p (fun v => with_styles (dupdate (v_styles v) s) v) t (t_grid t) o) as [HS' _]; auto; [apply HM|].
    eexists. apply (rw_read ax t _ o HR HS').
Qed.

Lemma rw_run ops t o :
  rw t o -> Forall row_wise ops -> (forall bb ct s na, In (TFill bb ct s na) ops -> valid bb) ->
  exists o', rw (trun t ops) o'.
Proof.
  revert t o. induction ops as [|op ops IH]; intros t o HR HF Hbb; cbn; [eauto|].
  inversion HF as [|? ? H1 H2]; subst.
  destruct (rw_step op t o HR H1) as [o1 HR1].
  { intros bb ct s na ->. eapply Hbb. left. reflexivity. }
  apply (IH _ o1 HR1 H2). intros bb ct s na Hin. eapply Hbb. right. exact Hin.
Qed.

Lemma rw_start s na t :
  table_new [] s na = Ok t -> exists o, rw (fst (tstep (TReadViews Rows) t)) o.
Proof.
  intros E. destruct (table_new_st [] s na t E) as [HS HM]. cbn in E. injection E as <-.
  eexists (Some [], None). cbn. split; [|split].
  - split; cbn.
    + split; [reflexivity|]. intros []; cbn; [|exact I]. split; [apply pos_ok_nil|]. split; intros ? [].
    + split; [apply grid_inv_nil|]. intros [] h; cbn; intros [= <-]; tauto.
  - intros c x [].
  - exists []. split; [reflexivity|constructor].
Qed.

Lemma ordered_filter f h : ordered h -> ordered (filter f h).
Proof. apply filter_FOP. Qed.

Lemma ordered_same_row h p : ordered h -> (forall c, In c h -> starts_at Rows p c) -> left_to_right Rows h.
Proof.
  intros H. induction H as [|a l HF _ IH]; intros Hs; constructor.
  - apply IH. intros c Hc. apply Hs. right. exact Hc.
  - rewrite Forall_forall in *. intros b Hb. cbn. apply HF; [exact Hb|].
    pose proof (Hs a (or_introl eq_refl)) as Ha. pose proof (Hs b (or_intror Hb)) as Hb'. cbn in *. congruence.
Qed.

Lemma rw_views t o p v :
  rw t o -> 1 <= p -> reads Rows p t v -> left_to_right Rows (v_owned v).
Proof.
  intros (HT & _ & h & Eh & HO) Hp Hv. destruct (reads_facts Rows p t o HT Hp) as (v' & Hv' & Ep & Eo & _).
  pose proof (reads_fun _ _ _ _ _ Hv Hv') as <-. cbn [ghost_of] in Eo. rewrite Eh in Eo. cbn [seen] in Eo. rewrite Eo.
  apply (ordered_same_row _ p).
  - apply ordered_filter, HO.
  - intros c Hc. apply filter_In in Hc as [_ Hc]. apply can_own_spec in Hc. rewrite Ep in Hc. exact Hc.
Qed.

(** ** Failures *)

Lemma table_setdefault_eq v c t :
  table_setdefault v c t =
  match table_getitem t v with
  | Ok d => (t, Ok d)
  | Err EKeyError => (table_setitem v c ;;; sret c) t
  | Err e => (t, Err e)
  end.
Proof. reflexivity. Qed.

Lemma atomic_tstep op t t' e :
  treachable t ->
  (match op with TSet _ _ | TDel _ | TMerge _ _ _ | TExpand _ _ _ _ | TPop _ | TSetdefault _ _ | TPopitem => True
                 | _ => False end) ->
  tstep op t = (t', Err e) -> t' = t.
Proof.
  intros HR Hop E. destruct (treachable_tinv t HR) as (o & HS & HM). pose proof (proj1 HM) as HI. cbn in HI.
  destruct op; cbn in Hop; try contradiction; cbn [tstep] in E.
  - destruct (table_setitem_st v c t _ o HS HI) as [(x & _ & E')|(g' & c' & t1 & _ & _ & _ & _ & E' & _)]; congruence.
  - destruct (table_delitem_st v t _ o HS HI) as [(x & _ & E')|(g' & t1 & _ & _ & E' & _)]; congruence.
  - destruct (table_merge_st start end_ app t _ o HS HI) as [(x & _ & E')|(g' & r & t1 & _ & _ & E' & _)]; congruence.
  - destruct (table_expand_st v width height app t _ o HS HI) as [(x & _ & E')|(g' & r & t1 & _ & _ & E' & _)]; congruence.
  - apply unit_of_err in E. unfold table_pop, sbind, sget, slift, sret in E.
    destruct (table_getitem t v); [|congruence].
    destruct (table_delitem_st v t _ o HS HI) as [(x & _ & E')|(g' & t1 & _ & _ & E' & _)]; rewrite E' in E; congruence.
  - apply unit_of_err in E. rewrite table_setdefault_eq in E.
    destruct (table_getitem t v) as [d|[]]; try congruence. unfold sbind in E.
    destruct (table_setitem_st v c t _ o HS HI) as [(x & _ & E')|(g' & c' & t1 & _ & _ & _ & _ & E' & _)];
      rewrite E' in E; unfold sret in E; congruence.
  - apply unit_of_err in E. rewrite table_popitem_eq in E. congruence.
Qed.

(** ** A table is a grid *)

(** Same cells and same exception *)
Lemma table_set_grid v c t :
  treachable t -> t_grid (fst (table_setitem v c t)) = fst (grid_setitem v c (t_grid t)) /\
                  snd (table_setitem v c t) = snd (grid_setitem v c (t_grid t)).
Proof.
  intros HR. destruct (treachable_tinv t HR) as (o & HS & HM).
  destruct (table_setitem_st v c t _ o HS (proj1 HM)) as [(x & Eg & E)|(g' & c' & t1 & Eg & _ & _ & _ & E & HS')];
    rewrite E, Eg; cbn; split; try reflexivity. apply HS'.
Qed.

Lemma table_del_grid v t :
  treachable t -> t_grid (fst (table_delitem v t)) = fst (grid_delitem v (t_grid t)) /\
                  snd (table_delitem v t) = snd (grid_delitem v (t_grid t)).
Proof.
  intros HR. destruct (treachable_tinv t HR) as (o & HS & HM).
  destruct (table_delitem_st v t _ o HS (proj1 HM)) as [(x & Eg & E)|(g' & t1 & Eg & _ & E & HS')];
    rewrite E, Eg; cbn; split; try reflexivity. apply HS'.
Qed.

Definition drop {A} (r : result A) : result unit := match r with Ok _ => Ok tt | Err e => Err e end.

Lemma table_merge_grid s e a t :
  treachable t -> t_grid (fst (table_merge s e a t)) = fst (grid_merge s e a (t_grid t)) /\
                  snd (table_merge s e a t) = drop (snd (grid_merge s e a (t_grid t))).
Proof.
  intros HR. destruct (treachable_tinv t HR) as (o & HS & HM).
  destruct (table_merge_st s e a t _ o HS (proj1 HM)) as [(x & Eg & E)|(g' & r & t1 & Eg & _ & E & HS')];
    rewrite E, Eg; cbn; split; try reflexivity. apply HS'.
Qed.

Lemma table_expand_grid v w h a t :
  treachable t -> t_grid (fst (table_expand v w h a t)) = fst (grid_expand v w h a (t_grid t)) /\
                  snd (table_expand v w h a t) = drop (snd (grid_expand v w h a (t_grid t))).
Proof.
  intros HR. destruct (treachable_tinv t HR) as (o & HS & HM).
  destruct (table_expand_st v w h a t _ o HS (proj1 HM)) as [(x & Eg & E)|(g' & r & t1 & Eg & _ & E & HS')];
    rewrite E, Eg; cbn; split; try reflexivity. apply HS'.
Qed.

Lemma gts_grid s s' : gts s s' -> exists ops, fst s' = grun (fst s) ops.
Proof.
  intros H. induction H as [s s' H | s | s1 s2 s3 _ [l1 IH1] _ [l2 IH2]].
  - destruct H as [ax g o | v c c' g g' o E Hget HP | gop g o].
    + exists []. reflexivity.
    + exists [GSet v c]. cbn [grun fold_left gstep fst]. rewrite E. reflexivity.
    + exists [gop]. reflexivity.
  - exists []. reflexivity.
  - exists (l1 ++ l2). unfold grun in *. rewrite fold_left_app, <- IH1. exact IH2.
Qed.

Lemma tstep_grid op t : treachable t -> exists ops, t_grid (fst (tstep op t)) = grun (t_grid t) ops.
Proof.
  intros HR. destruct (treachable_tinv t HR) as (o & HT). destruct (tinv_step op t o HT) as (o' & _ & G).
  apply gts_grid in G. exact G.
Qed.

Lemma treachable_grid t : treachable t -> reachable (t_grid t).
Proof.
  induction 1 as [cells s na t E | t op HR IH].
  - unfold table_new in E. destruct (grid_new cells) as [g|] eqn:Eg; [|discriminate]. injection E as <-.
    econstructor. exact Eg.
  - destruct (tstep_grid op t HR) as [ops ->]. apply grun_reachable, IH.
Qed.

(** ** Attributes of the views *)

Definition vattr (vs : list view) (i : nat) : styles * nature :=
  match nth_error vs i with Some v => (v_styles v, v_nature v) | None => ([], None) end.
Definition attr (ax : axis) (t : table) (i : nat) : styles * nature :=
  match t_views ax t with Some vs => vattr vs i | None => ([], None) end.

Lemma vattr_fit n vs i : vattr (fit_to_size n false vs) i = vattr vs i.
Proof.
  unfold vattr. destruct (nth_error (fit_to_size n false vs) i) as [v|] eqn:E.
  - apply nth_error_fit in E as [E|[E ->]]; cbn [trunc] in E.
    + rewrite E. reflexivity.
    + assert (H : nth_error vs i = None) by (apply nth_error_None; lia). rewrite H. reflexivity.
  - assert (H : nth_error vs i = None).
    { apply nth_error_None. apply nth_error_None in E. pose proof (fit_length_false n vs). lia. }
    rewrite H. reflexivity.
Qed.

Lemma vattr_map f vs i :
  (forall v, v_styles (f v) = v_styles v /\ v_nature (f v) = v_nature v) -> vattr (map f vs) i = vattr vs i.
Proof.
  intros H. unfold vattr. rewrite nth_error_map. destruct (nth_error vs i) as [v|]; [|reflexivity].
  cbn. destruct (H v) as [-> ->]. reflexivity.
Qed.

Lemma vattr_adopt ax c vs vs' i :
  pos_ok vs -> valid (c_box c) -> vl_adopt ax c vs = Ok vs' -> vattr vs' i = vattr vs i.
Proof.
  intros HP V E. rewrite vl_adopt_eq in E by assumption. injection E as <-.
  rewrite vattr_map by (intros; split; reflexivity). apply vattr_fit.
Qed.

Lemma vattr_adopt_all ax cells h vs vs' i :
  vl_rep ax h vs -> all_valid cells -> vl_adopt_all ax cells vs = Ok vs' -> vattr vs' i = vattr vs i.
Proof.
  revert h vs. induction cells as [|c cells IH]; intros h vs HR HV E; cbn in E.
  - congruence.
  - inversion HV as [|? ? V HV']; subst.
    destruct (vl_rep_adopt ax h c vs HR V) as (vs1 & E1 & R1). rewrite E1 in E. cbn in E.
    rewrite (IH _ vs1 R1 HV' E). eapply vattr_adopt; eauto. apply HR.
Qed.

Lemma vattr_refresh ax t vs vs' i n :
  pos_ok vs -> all_valid (t_grid t) -> vl_refresh ax (t_grid t) vs = Ok vs' -> last_pos ax t n ->
  Z.of_nat i < n -> vattr vs' i = vattr vs i.
Proof.
  intros HP HV E HL Hi. unfold vl_refresh in E.
  destruct (bounding_box_spec (t_grid t) HV) as [[Eg Eb]|(Hne & bb & Eb & Vb & Hb)]; rewrite Eb in E; cbn in E.
  - assert (last_pos ax t 0) by (left; auto). assert (n = 0) by (eapply last_pos_fun; eauto). lia.
  - assert (n = ax_hi ax bb) by (eapply last_pos_fun; eauto using last_hi). subst n.
    rewrite (vattr_adopt_all ax _ [] _ vs' i (vl_rep_reset ax _ vs HP) HV E).
    rewrite vattr_map by (intros; split; reflexivity).
    unfold vattr, fit_to_size.
    destruct (Nat.lt_ge_cases i (List.length vs)) as [L|L].
    + rewrite nth_error_app1 by (rewrite firstn_length; lia).
      assert (Hf : nth_error (firstn (Z.to_nat (ax_hi ax bb)) vs) i = nth_error vs i).
      { rewrite <- (firstn_skipn (Z.to_nat (ax_hi ax bb)) vs) at 2.
        rewrite nth_error_app1; [reflexivity|]. rewrite firstn_length. lia. }
      rewrite Hf. reflexivity.
    + rewrite firstn_all2 by lia.
      rewrite nth_error_app2 by exact L. rewrite nth_error_map, nth_error_zrange.
      assert (Hn : nth_error vs i = None) by (apply nth_error_None; lia). rewrite Hn.
      destruct (_ <? _); reflexivity.
Qed.

Lemma vattr_refresh_nil ax g vs' i : all_valid g -> vl_refresh ax g [] = Ok vs' -> vattr vs' i = ([], None).
Proof.
  intros HV E. unfold vl_refresh in E.
  destruct (bounding_box_spec g HV) as [[Eg Eb]|(Hne & bb & Eb & Vb & Hb)]; rewrite Eb in E; cbn in E.
  - injection E as <-. destruct i; reflexivity.
  - rewrite (vattr_adopt_all ax _ [] _ vs' i (vl_rep_reset ax _ [] pos_ok_nil) HV E).
    rewrite vattr_map by (intros; split; reflexivity).
    unfold vattr. destruct (nth_error _ i) as [v|] eqn:En; [|reflexivity].
    apply nth_error_fit in En as [En|[_ ->]]; [|reflexivity].
    cbn in En. rewrite firstn_nil in En. destruct i; discriminate.
Qed.

Definition same_attr (t t' : table) : Prop := forall ax i, attr ax t' i = attr ax t i.

Lemma same_attr_refl t : same_attr t t.
Proof. intros ax i. reflexivity. Qed.
Lemma same_attr_trans a b c : same_attr a b -> same_attr b c -> same_attr a c.
Proof. intros H1 H2 ax i. rewrite H2. apply H1. Qed.

Lemma same_attr_put ax vs vs' t :
  t_views ax t = Some vs -> (forall i, vattr vs' i = vattr vs i) -> same_attr t (t_set_views ax vs' t).
Proof.
  intros E H ax' i. unfold attr. rewrite t_views_set. destruct ax, ax'; cbn in *; rewrite ?E; auto.
Qed.

Lemma views_get_attr ax t g o : st t g o -> all_valid g -> same_attr t (fst (views_get ax t)).
Proof.
  intros HS HV. unfold views_get, sbind, sget. destruct (t_views ax t) as [vs|] eqn:E.
  - apply same_attr_refl.
  - rewrite (proj1 HS). destruct (vl_rep_refresh ax g [] pos_ok_nil HV) as (vs & Evs & R).
    unfold slift. rewrite Evs. cbn. intros ax' i. unfold attr. rewrite t_views_set.
    destruct ax, ax'; cbn in *; rewrite ?E; auto; eapply vattr_refresh_nil; eauto.
Qed.

Lemma view_get_attr ax p t g o : st t g o -> all_valid g -> same_attr t (fst (view_get ax p t)).
Proof.
  intros HS HV. unfold view_get, sbind.
  pose proof (views_get_attr ax t g o HS HV) as H.
  destruct (views_get_st ax t g o HS HV) as (t1 & vs & E & HS1 & E1 & R). rewrite E in *. cbn [fst] in H.
  cbn. eapply same_attr_trans; [exact H|]. eapply same_attr_put; [exact E1|]. intros i. apply vattr_fit.
Qed.

Lemma refresh_cell_attr c t g o : st t g o -> all_valid g -> valid (c_box c) -> same_attr t (fst (refresh_cell c t)).
Proof.
  intros HS HV V. unfold refresh_cell, sbind, slift.
  pose proof (views_get_attr Rows t g o HS HV) as H1.
  destruct (views_get_st Rows t g o HS HV) as (t1 & rs & E1 & HS1 & V1 & R1). rewrite E1 in *. cbn [fst] in H1.
  destruct (vl_rep_adopt Rows _ c rs R1 V) as (rs' & E2 & R2). rewrite E2.
  destruct (views_put_st Rows _ _ t1 g _ HS1 R2) as [E3 HS3]. rewrite E3.
  pose proof (views_get_attr Cols _ g _ HS3 HV) as H4.
  destruct (views_get_st Cols _ g _ HS3 HV) as (t4 & cs & E4 & HS4 & V4 & R4). rewrite E4 in *. cbn [fst] in H4.
  destruct (vl_rep_adopt Cols _ c cs R4 V) as (cs' & E5 & R5). rewrite E5. cbn [fst views_put sbind sget sput].
  eapply same_attr_trans; [exact H1|]. eapply same_attr_trans; [eapply (same_attr_put Rows rs rs')|].
  - exact V1.
  - intros i. eapply vattr_adopt; eauto. apply R1.
  - eapply same_attr_trans; [exact H4|]. eapply (same_attr_put Cols cs cs'); [exact V4|].
    intros i. eapply vattr_adopt; eauto. apply R4.
Qed.

Lemma set_attr v c t o : tinv t o -> same_attr t (fst (table_setitem v c t)).
Proof.
  intros [HS HM]. pose proof (proj1 HM) as HI. cbn in HI.
  destruct (grid_setitem v c (t_grid t)) as [g' [[]|e]] eqn:E.
  - assert (HI' : grid_inv g') by (pose proof (grid_setitem_inv v c _ HI) as H; rewrite E in H; exact H).
    destruct (setitem_success v c _ g' HI E) as (co & c' & _ & _ & _ & _ & _ & HP & Hget).
    unfold table_setitem, sbind, on_grid, sget, slift. rewrite E. cbn [t_grid]. rewrite Hget.
    set (t1 := MkTable g' (t_rows t) (t_cols t) (t_styles t) (t_nature t)).
    assert (HS1 : st t1 g' o).
    { split; [reflexivity|]. intros ax. pose proof (proj2 HS ax) as H. destruct ax; exact H. }
    assert (same_attr t t1) by (intros [] i; reflexivity).
    eapply same_attr_trans; [eassumption|]. eapply refresh_cell_attr; [exact HS1|apply HI'|].
    apply (inv_valid g'); [exact HI'|]. apply (getitem_In _ v), Hget.
  - pose proof (atomic_set v c _ g' e E) as ->. unfold table_setitem, sbind, on_grid. rewrite E. cbn [fst].
    intros [] i; reflexivity.
Qed.

Lemma siter_attr {A} (f : A -> SM table unit) l t o :
  (forall a t o, tinv t o -> same_attr t (fst (f a t)) /\ exists o', tinv (fst (f a t)) o') ->
  tinv t o -> same_attr t (fst (siter f l t)).
Proof.
  intros Hf. revert t o. induction l as [|a l IH]; intros t o HT; cbn [siter]; [apply same_attr_refl|].
  unfold sbind. destruct (Hf a t o HT) as [H1 [o1 HT1]]. destruct (f a t) as [t1 [[]|e]]; cbn [fst] in *.
  - eapply same_attr_trans; [exact H1|]. eapply IH, HT1.
  - exact H1.
Qed.

Lemma tinv_set v c t o : tinv t o -> exists o', tinv (fst (table_setitem v c t)) o'.
Proof. intros HT. destruct (tinv_step (TSet v c) t o HT) as (o' & H & _). eauto. Qed.

Lemma rebuild_attr t o g' t' n ax i :
  tinv t o -> grid_inv g' ->
  refresh_all (MkTable g' (t_rows t) (t_cols t) (t_styles t) (t_nature t)) = (t', Ok tt) ->
  last_pos ax t' n -> Z.of_nat i < n -> attr ax t' i = attr ax t i.
Proof.
  intros [HS HM] HI'. set (t1 := MkTable g' (t_rows t) (t_cols t) (t_styles t) (t_nature t)).
  assert (HS1 : st t1 g' o).
  { split; [reflexivity|]. intros ax'. pose proof (proj2 HS ax') as H. destruct ax'; exact H. }
  assert (H0 : same_attr t t1) by (intros [] j; reflexivity).
  assert (HV : all_valid g') by apply HI'.
  unfold refresh_all, sbind, slift, sget.
  pose proof (views_get_attr Rows t1 g' o HS1 HV) as A1.
  destruct (views_get_st Rows t1 g' o HS1 HV) as (t2 & rs & E2 & HS2 & V2 & R2). rewrite E2 in *. cbn [fst] in A1.
  pose proof (proj1 HS2) as G2. rewrite G2.
  destruct (vl_rep_refresh Rows g' rs (proj1 R2) HV) as (rs' & E3 & R3). rewrite E3.
  destruct (views_put_st Rows _ _ t2 g' _ HS2 R3) as [E4 HS4]. rewrite E4.
  pose proof (views_get_attr Cols _ g' _ HS4 HV) as A4.
  destruct (views_get_st Cols _ g' _ HS4 HV) as (t5 & cs & E5 & HS5 & V5 & R5). rewrite E5 in *. cbn [fst] in A4.
  pose proof (proj1 HS5) as G5.
  destruct (vl_rep_refresh Cols g' cs (proj1 R5) HV) as (cs' & E6 & R6). rewrite E6.
  cbn [views_put sbind sget sput]. intros [= <-] HL Hi.
  assert (HLt : forall u, t_grid u = g' -> last_pos ax u n).
  { intros u Hu. unfold last_pos in *. rewrite Hu. cbn [t_grid t_set_views] in HL. rewrite G5 in HL. exact HL. }
  destruct ax.
  - assert (B : attr Rows t2 i = attr Rows t i) by (rewrite A1; apply H0).
    rewrite <- B. change (attr Rows t5 i = attr Rows t2 i). rewrite (A4 Rows i). unfold attr. cbn [t_views t_set_views].
    change (t_rows t2) with (t_views Rows t2). rewrite V2.
    apply (vattr_refresh Rows t2 rs rs' i n (proj1 R2)); rewrite ?G2; auto.
  - assert (B : attr Cols t5 i = attr Cols t i).
    { rewrite (A4 Cols i). change (attr Cols t2 i = attr Cols t i). rewrite A1. apply H0. }
    rewrite <- B. unfold attr at 1. cbn [t_views t_set_views].
    unfold attr. rewrite V5.
    apply (vattr_refresh Cols t5 cs cs' i n (proj1 R5)); rewrite ?G5; auto.
Qed.

Lemma modify_attr ax p f t o :
  (forall v, v_pos (f v) = v_pos v /\ v_owned (f v) = v_owned v /\ v_caught (f v) = v_caught v) ->
  tinv t o -> forall ax' i, (ax' <> ax \/ (1 <= p /\ p <> Z.of_nat i + 1)) ->
  attr ax' (fst (view_modify ax p f t)) i = attr ax' t i.
Proof.
  intros Hf [HS HM] ax' i Hd.
  assert (HV : all_valid (t_grid t)) by apply HM.
  pose proof (view_get_attr ax p t _ o HS HV ax' i) as A.
  destruct (view_get_st ax p t _ o HS HV) as (t1 & vs & HS1 & E1 & R & HL & E). rewrite E in A. cbn [fst] in A.
  unfold view_modify, sbind. rewrite E. destruct (py_nth vs (p - 1)) as [v|e] eqn:Ev; [|exact A].
  assert (Eg : views_get ax t1 = (t1, Ok vs)) by (unfold views_get, sbind, sget; rewrite E1; reflexivity).
  rewrite Eg. unfold slift.
  destruct (py_upd vs (p - 1) f) as [vs'|e] eqn:Eu; [|exact A].
  cbn [fst views_put sbind sget sput]. rewrite <- A. unfold attr. rewrite t_views_set.
  assert (Hvs : (ax' = ax -> vattr vs' i = vattr vs i)).
  { intros ->. destruct Hd as [Hd|[Hp Hd]]; [congruence|].
    rewrite py_upd_pos in Eu by lia. injection Eu as <-.
    unfold vattr. rewrite nth_error_upd_nth.
    replace (Nat.eqb i (Z.to_nat (p - 1))) with false by (symmetry; apply Nat.eqb_neq; lia). reflexivity. }
  destruct ax, ax'; cbn in *; rewrite ?E1; auto.
Qed.

Lemma rebuild_on_grid_attr {A} (m : SM grid A) t t' o ax n i :
  tinv t o -> (forall g, grid_inv g -> grid_inv (fst (m g))) ->
  (forall g g' e, m g = (g', Err e) -> g' = g) ->
  fst ((on_grid m ;;; refresh_all) t) = t' -> last_pos ax t' n -> Z.of_nat i < n -> attr ax t' i = attr ax t i.
Proof.
  intros HT Hm Hat E HL Hi.
  destruct (rebuild_st m t _ o (proj1 HT)) as [(e & _ & E')|(g' & a & t2 & Eg & HI' & E' & HS')].
  - intros g' H <-. apply Hm, H.
  - intros g' e. apply Hat.
  - apply HT.
  - rewrite E' in E. cbn in E. subst. reflexivity.
  - rewrite E' in E. cbn in E. subst t2.
    assert (Er : refresh_all (MkTable g' (t_rows t) (t_cols t) (t_styles t) (t_nature t)) = (t', Ok tt)).
    { unfold sbind, on_grid in E'. rewrite Eg in E'. exact E'. }
    eapply rebuild_attr; eauto.
Qed.

Lemma attr_step op t o ax i n :
  tinv t o -> last_pos ax (fst (tstep op t)) n -> (rebuilds op = true -> Z.of_nat i < n) ->
  ~ sets_attributes ax (Z.of_nat i + 1) op ->
  attr ax (fst (tstep op t)) i = attr ax t i.
Proof.
  intros HT HL Hi Hs. pose proof HT as [HS HM].
  assert (HV : all_valid (t_grid t)) by apply HM.
  destruct op as [v c|v|a b app|v w hh app|bb ct s na|ax' p ct s na w hh|ax'|ax' p|ax' p na|ax' p s|ax' p s|v|v c|pairs|];
    cbn [tstep rebuilds sets_attributes] in *.
  - exact (set_attr v c t o HT ax i).
  - eapply (rebuild_on_grid_attr (grid_delitem v)); eauto; [intros; apply grid_delitem_inv; auto|intros ? ? ?; apply atomic_del].
  - eapply (rebuild_on_grid_attr (grid_merge a b app)); eauto; [intros; apply grid_merge_inv; auto|intros ? ? ?; apply atomic_merge].
  - eapply (rebuild_on_grid_attr (grid_expand v w hh app)); eauto; [intros; apply grid_expand_inv; auto|intros ? ? ?; apply atomic_expand].
  - refine (siter_attr (fill_one ct s na) _ t o _ HT ax i). clear. intros xy t o HT. split.
    + unfold fill_one, sbind, sget, slift. destruct (table_contains t _) as [[]|e]; try apply same_attr_refl.
      destruct (cell_new ct s na (fst xy) (snd xy) 1 1); [|apply same_attr_refl]. eapply set_attr, HT.
    + destruct (sim_fill_one ct s na xy t _ o (proj1 HT) (proj2 HT)) as (g' & o' & G & HS').
      exists o'. pose proof (proj1 HS') as Eg. split; rewrite Eg; [exact HS'|]. eapply gts_mem_inv; [exact G|apply HT].
  - unfold insert_cell, sbind, slift.
    pose proof (view_get_attr ax' p t _ o HS HV) as A.
    destruct (view_get_st ax' p t _ o HS HV) as (t1 & vs & HS1 & _ & _ & _ & E). rewrite E in *. cbn [fst] in A.
    assert (HT1 : tinv t1 (ghost_set ax' (seen (ghost_of ax' o) (t_grid t)) o)).
    { pose proof (proj1 HS1) as Eg. split; rewrite Eg; [exact HS1|]. eapply gt_mem_inv; [apply gt_read|exact HM]. }
    destruct (py_nth vs (p - 1)) as [v|e]; [|apply A]. destruct (next_free ax' v) as [j|e]; [|apply A].
    destruct (cell_new ct s _ _ _ w hh) as [c|e]; [|apply A].
    exact (same_attr_trans _ _ _ A (set_attr _ c t1 _ HT1) ax i).
  - rewrite unit_of_state in *. exact (views_get_attr ax' t _ o HS HV ax i).
  - rewrite unit_of_state in *. exact (view_get_attr ax' p t _ o HS HV ax i).
  - apply (modify_attr ax' p (with_nature na) t o); auto.
    assert (D : {ax = ax'} + {ax <> ax'}) by decide equality. destruct D as [<-|D]; [|auto].
    right. split; [destruct (Z_le_gt_dec 1 p); [lia|exfalso; apply Hs; split; [reflexivity|lia]]|].
    intros ->. apply Hs. auto.
  - apply (modify_attr ax' p (with_styles (styles_of s)) t o); auto.
    assert (D : {ax = ax'} + {ax <> ax'}) by decide equality. destruct D as [<-|D]; [|auto].
    right. split; [destruct (Z_le_gt_dec 1 p); [lia|exfalso; apply Hs; split; [reflexivity|lia]]|].
    intros ->. apply Hs. auto.
  - apply (modify_attr ax' p (fun v => with_styles (dupdate (v_styles v) s) v) t o); auto.
    assert (D : {ax = ax'} + {ax <> ax'}) by decide equality. destruct D as [<-|D]; [|auto].
    right. split; [destruct (Z_le_gt_dec 1 p); [lia|exfalso; apply Hs; split; [reflexivity|lia]]|].
    intros ->. apply Hs. auto.
  - rewrite unit_of_state in *. destruct (table_pop_fst v t) as [Ep|Ep]; rewrite Ep in *; [reflexivity|].
    eapply (rebuild_on_grid_attr (grid_delitem v)); eauto; [intros; apply grid_delitem_inv; auto|intros ? ? ?; apply atomic_del].
  - rewrite unit_of_state in *. rewrite table_setdefault_eq in *.
    destruct (table_getitem t v) as [d|[]]; cbn [fst]; try reflexivity.
    pose proof (set_attr v c t o HT ax i) as A. unfold sbind. destruct (table_setitem v c t) as [t' [[]|e]]; exact A.
  - refine (siter_attr _ _ t o _ HT ax i). clear. intros kv t o HT. split; [eapply set_attr, HT|eapply tinv_set, HT].
  - rewrite unit_of_state, table_popitem_eq. reflexivity.
Qed.

Lemma reads_attr ax p t o v :
  tinv t o -> 1 <= p -> reads ax p t v -> (v_styles v, v_nature v) = attr ax t (Z.to_nat (p - 1)).
Proof.
  intros [HS HM] Hp Hv. assert (HV : all_valid (t_grid t)) by apply HM.
  rewrite <- (view_get_attr ax p t _ o HS HV).
  destruct (view_get_st ax p t _ o HS HV) as (t1 & vs & HS1 & E1 & R & HL & E). unfold reads in Hv. rewrite E in *.
  cbn [fst snd] in *. unfold attr, vattr. rewrite E1.
  destruct (py_nth_pos vs p ltac:(lia)) as (a & Ha & Hn). rewrite Hn. congruence.
Qed.

Lemma attributes_kept op t ax p v v' n :
  treachable t -> 1 <= p -> reads ax p t v -> ~ sets_attributes ax p op ->
  reads ax p (fst (tstep op t)) v' ->
  last_pos ax (fst (tstep op t)) n -> (rebuilds op = true -> p <= n) ->
  v_styles v' = v_styles v /\ v_nature v' = v_nature v.
Proof.
  intros HR Hp Hv Hs Hv' HL Hn. destruct (treachable_tinv t HR) as (o & HT).
  destruct (tinv_step op t o HT) as (o' & HT' & _).
  pose proof (reads_attr ax p t o v HT Hp Hv) as A.
  pose proof (reads_attr ax p _ o' v' HT' Hp Hv') as A'.
  rewrite (attr_step op t o ax (Z.to_nat (p - 1)) n HT HL) in A'.
  - rewrite <- A in A'. injection A' as -> ->. auto.
  - intros Hb. specialize (Hn Hb). lia.
  - replace (Z.of_nat (Z.to_nat (p - 1)) + 1) with p by lia. exact Hs.
Qed.

Lemma attribute_set ax p na s t t' v' v :
  treachable t -> 1 <= p -> reads ax p t v ->
  (tstep (TSetNature ax p na) t = (t', Ok tt) -> reads ax p t' v' -> v_nature v' = na /\ v_styles v' = v_styles v) /\
  (tstep (TSetStyles ax p s) t = (t', Ok tt) -> reads ax p t' v' -> v_styles v' = styles_of s /\ v_nature v' = v_nature v) /\
  (forall st, dict_ok st -> tstep (TUpdateStyles ax p st) t = (t', Ok tt) -> reads ax p t' v' ->
     v_nature v' = v_nature v /\
     forall k, dget (v_styles v') k = match dget st k with Some x => Some x | None => dget (v_styles v) k end).
Proof.
  intros HR Hp Hv. destruct (treachable_tinv t HR) as (o & HT). pose proof HT as [HS HM].
  assert (HV : all_valid (t_grid t)) by apply HM.
  destruct (view_get_st ax p t _ o HS HV) as (t1 & vs & HS1 & E1 & R & HL & E).
  unfold reads in Hv. rewrite E in Hv. cbn [snd] in Hv.
  destruct (py_nth_pos vs p ltac:(lia)) as (a & Ha & Hn). rewrite Ha in Hv. injection Hv as ->.
  assert (Eg : views_get ax t1 = (t1, Ok vs)) by (unfold views_get, sbind, sget; rewrite E1; reflexivity).
  assert (Hgen : forall f, view_modify ax p f t = (t', Ok tt) -> reads ax p t' v' -> v' = f v).
  { intros f Hm Hr. unfold view_modify, sbind in Hm. rewrite E, Ha, Eg in Hm. unfold slift in Hm.
    rewrite py_upd_pos in Hm by lia. cbn in Hm. injection Hm as <-.
    unfold reads, view_get, sbind, views_get, sget in Hr. unfold sbind in Hr.
    rewrite t_views_set in Hr. unfold slift in Hr.
    assert (Hu : snd (py_nth (fit_to_size p false (upd_nth vs (Z.to_nat (p - 1)) f)) (p - 1),  tt) = tt) by reflexivity.
    assert (Hr' : py_nth (fit_to_size p false (upd_nth vs (Z.to_nat (p - 1)) f)) (p - 1) = Ok v').
    { destruct ax; exact Hr. }
    rewrite fit_small in Hr' by (rewrite upd_nth_length; lia).
    destruct (py_nth_pos (upd_nth vs (Z.to_nat (p - 1)) f) p) as (b & Hb & Hnb); [rewrite upd_nth_length; lia|].
    rewrite Hb in Hr'. injection Hr' as ->. rewrite nth_error_upd_nth, Nat.eqb_refl, Hn in Hnb. cbn in Hnb. congruence. }
  split; [|split].
  - intros Hm Hr; rewrite (Hgen _ Hm Hr); split; reflexivity.
  - intros Hm Hr; rewrite (Hgen _ Hm Hr); split; reflexivity.
  - intros st Hst Hm Hr; rewrite (Hgen _ Hm Hr); split; [reflexivity|]. intros k. cbn.
    rewrite dget_dupdate by exact Hst. destruct (dget st k); reflexivity.
Qed.
