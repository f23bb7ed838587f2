(** * Proofs of the grid properties *)
From Verif Require Import Base M_Geometry M_Xml M_Cell M_Grid.
From Verif Require Import S_Geometry S_Cell S_Grid P_Geometry P_Cell P_Grid.

Lemma coord_denotes_fun v a b : denotes_coord v a -> denotes_coord v b -> a = b.
Proof. intros H1 H2. apply coord_from_value_spec in H1. apply coord_from_value_spec in H2. congruence. Qed.

Lemma insideb_inside area c : valid (c_box c) -> (insideb area c = true <-> inside area c).
Proof. intros V. unfold insideb, inside. apply box_has_box_subarea, V. Qed.

Lemma inv_valid g c : grid_inv g -> In c g -> valid (c_box c).
Proof. intros (HV & _) H. unfold all_valid in HV. rewrite Forall_forall in HV. auto. Qed.

(** ** C16 *)

Lemma getitem_cases g v :
  (grid_getitem g v = Err ETypeError /\ grid_contains g v = Err ETypeError /\ forall c, ~ denotes_coord v c) \/
  (exists c, denotes_coord v c /\
     ((exists d, grid_getitem g v = Ok d /\ In d g /\ covers (c_box d) c /\ grid_contains g v = Ok true) \/
      (grid_getitem g v = Err EKeyError /\ grid_contains g v = Ok false /\
       forall d, In d g -> ~ covers (c_box d) c))).
Proof.
  unfold grid_getitem, grid_contains. destruct (coord_from_value v) as [c|e] eqn:E.
  - right. exists c. split; [apply coord_from_value_spec, E|]. cbn [rbind].
    destruct (grid_getitem_c_cases g c) as [(d & Hd & Hi & Hc)|(He & Hn)].
    + left. exists d. rewrite (proj2 (grid_contains_c_spec g c)); eauto.
    + right. split; [exact He|]. split; [|exact Hn].
      destruct (grid_contains_c g c) eqn:Ec; [|reflexivity].
      apply grid_contains_c_spec in Ec as (d & Hd & Hc). exfalso. eapply Hn; eassumption.
  - left. assert (forall c, ~ denotes_coord v c).
    { intros c Hc. apply coord_from_value_spec in Hc. congruence. }
    rewrite coord_from_value_err in E by assumption. inversion E; subst. auto.
Qed.

(** ** C17 *)

Lemma setitem_success v new g g' :
  grid_inv g -> grid_setitem v new g = (g', Ok tt) ->
  exists co c', denotes_coord v co /\ same_data c' new /\ bmin (c_box c') = co /\
    box_width (c_box c') = box_width (c_box new) /\ box_height (c_box c') = box_height (c_box new) /\
    Permutation g' (c' :: g) /\ grid_getitem g' v = Ok c'.
Proof.
  intros HI H.
  destruct (grid_setitem_cases v new g) as [[_ E]|(co & Hv & [[_ E]|(V & [[_ E]|[Hn E]])])];
    rewrite E in H; try discriminate.
  destruct (grid_insert_sorted_inv (moved new co) g HI V Hn) as (g1 & E1 & HI1 & HP).
  rewrite E1 in H. inversion H; subst g1.
  exists co, (moved new co). split; [exact Hv|]. split; [repeat split|]. split; [reflexivity|].
  split; [unfold moved, box_width; cbn; lia|]. split; [unfold moved, box_height; cbn; lia|].
  split; [exact HP|].
  unfold grid_getitem. rewrite (proj2 (coord_from_value_spec v co) Hv). cbn [rbind].
  change co with (c_min (moved new co)) at 1. apply grid_getitem_corner; [exact HI1|].
  apply (Permutation_in _ (Permutation_sym HP)). left; reflexivity.
Qed.

Lemma setitem_outcome v new g co :
  valid (c_box new) -> denotes_coord v co ->
  let target := MkBox co (Coord (cx co + box_width (c_box new) - 1) (cy co + box_height (c_box new) - 1)) in
  (~ (1 <= cx co /\ 1 <= cy co) -> grid_setitem v new g = (g, Err EValueError)) /\
  (1 <= cx co /\ 1 <= cy co -> (exists d, In d g /\ clash (c_box d) target) ->
   grid_setitem v new g = (g, Err EKeyError)) /\
  (1 <= cx co /\ 1 <= cy co -> (forall d, In d g -> ~ clash (c_box d) target) ->
   exists g', grid_setitem v new g = (g', Ok tt)).
Proof.
  intros V Hv target.
  assert (W : 1 <= box_width (c_box new) /\ 1 <= box_height (c_box new)).
  { clear -V. destruct new as [? ? ? b]; cbn in *. revert V. geo. }
  change target with (c_box (moved new co)).
  destruct (grid_setitem_cases v new g) as [[E0 _]|(co' & Hv' & D)].
  { apply coord_from_value_spec in Hv. congruence. }
  assert (co' = co) by (eapply coord_denotes_fun; eassumption). subst co'.
  destruct D as [[Hn E]|(Vm & [[Hex E]|[Hn E]])].
  - split; [auto|]. split; intros; exfalso; apply Hn; tauto.
  - split; [|split].
    + intros Hc. exfalso. apply Hc. unfold valid, moved in Vm. cbn in Vm. lia.
    + auto.
    + intros _ Hn. exfalso. destruct Hex as (d & Hd & Hc). eapply Hn; eassumption.
  - split; [|split].
    + intros Hc. exfalso. apply Hc. unfold valid, moved in Vm. cbn in Vm. lia.
    + intros _ (d & Hd & Hc). exfalso. eapply Hn; eassumption.
    + intros _ _. destruct (grid_insert_sorted_total (moved new co) g Vm) as (i & Ei & _).
      rewrite E, Ei. eauto.
Qed.

(** ** C18 *)

Lemma delitem_success v g g' :
  grid_delitem v g = (g', Ok tt) ->
  exists d, grid_getitem g v = Ok d /\ exists l m, g = l ++ d :: m /\ g' = l ++ m.
Proof.
  intros H.
  destruct (grid_delitem_cases v g) as [[_ E]|(co & _ & [(_ & _ & E)|(d & l & m & Hg & _ & Hd & _ & E)])];
    rewrite E in H; inversion H; subst.
  exists d. split; [exact Hd|]. eauto.
Qed.

Lemma delitem_outcome v g :
  (grid_contains g v = Ok true <-> exists g', grid_delitem v g = (g', Ok tt)) /\
  (grid_contains g v = Ok false <-> grid_delitem v g = (g, Err EKeyError)) /\
  (grid_contains g v = Err ETypeError <-> grid_delitem v g = (g, Err ETypeError)).
Proof.
  unfold grid_contains.
  destruct (grid_delitem_cases v g) as [[Ev E]|(co & Hv & [(Hn & _ & E)|(d & l & m & Hg & Hc & Hd & _ & E)])];
    rewrite E.
  - rewrite Ev. cbn. split; [|split]; (split; intros H; try discriminate; auto).
    destruct H; discriminate.
  - rewrite (proj2 (coord_from_value_spec v co) Hv). cbn [rbind].
    assert (Ec : grid_contains_c g co = false).
    { destruct (grid_contains_c g co) eqn:Ec; [|reflexivity].
      apply grid_contains_c_spec in Ec as (d & Hd & Hc). exfalso. eapply Hn; eassumption. }
    rewrite Ec. split; [|split]; (split; intros H; try discriminate; auto). destruct H; discriminate.
  - rewrite (proj2 (coord_from_value_spec v co) Hv). cbn [rbind].
    assert (Ec : grid_contains_c g co = true).
    { apply grid_contains_c_spec. exists d. split; [subst g; apply in_elt | exact Hc]. }
    rewrite Ec. split; [|split]; (split; intros H; try discriminate; eauto).
Qed.

Lemma delete_reinsert v g g' d :
  grid_inv g -> grid_getitem g v = Ok d -> grid_delitem v g = (g', Ok tt) ->
  grid_setitem (PCoord (c_min d)) d g' = (g, Ok tt).
Proof.
  intros HI Hd H. destruct (delitem_success v g g' H) as (d' & Hd' & l & m & -> & ->).
  assert (d' = d) by congruence. subst d'.
  assert (V : valid (c_box d)) by (eapply inv_valid; [exact HI | apply in_elt]).
  rewrite all_valid_move by exact V.
  assert (Hn : forall e, In e (l ++ m) -> ~ clash (c_box e) (c_box d)).
  { intros e He Hc. destruct HI as (HV & HS & HC).
    assert (He' : In e (l ++ d :: m)) by (apply in_app_iff in He; apply in_app_iff; cbn; tauto).
    assert (e = d).
    { eapply no_clash_In; eauto using in_elt. unfold all_valid in HV. rewrite Forall_forall in HV. auto. }
    subst e. apply in_order_NoDup in HS. apply NoDup_remove_2 in HS. contradiction. }
  replace (existsb (fun e => box_intersect (c_box e) (c_box d)) (l ++ m)) with false.
  2:{ symmetry. destruct (existsb _ (l ++ m)) eqn:E; [|reflexivity].
      apply existsb_clash in E as (e & He & Hc). exfalso. eapply Hn; eassumption. }
  destruct (grid_insert_sorted_inv d (l ++ m)) as (g1 & E1 & HI1 & HP1).
  - eapply grid_inv_remove; exact HI.
  - exact V.
  - exact Hn.
  - rewrite E1. f_equal. apply in_order_unique_perm.
    + apply HI1.
    + apply HI.
    + rewrite HP1. apply Permutation_middle.
Qed.

(** ** C20 *)

Lemma bounding_box_least g bb :
  all_valid g -> grid_bounding_box g = Ok (Some bb) ->
  valid bb /\ (forall c, In c g -> subarea (c_box c) bb) /\
  (forall v, valid v -> (forall c, In c g -> subarea (c_box c) v) -> subarea bb v).
Proof.
  intros HV E. destruct (bounding_box_spec g HV) as [[_ E']|(_ & bb' & E' & V & H)]; rewrite E' in E.
  - discriminate.
  - inversion E; subst. split; [exact V|]. split.
    + apply H; [exact V | apply subarea_refl].
    + intros v Vv. apply H, Vv.
Qed.

Lemma box_union_two a b :
  valid a -> valid b ->
  exists u, box_union a [b] = Ok u /\ valid u /\
    (forall v, valid v -> (subarea u v <-> subarea a v /\ subarea b v)).
Proof.
  intros Va Vb. destruct (box_union_eq a [b]) as (u & E & V & H); [constructor; [exact Va|constructor; [exact Vb|constructor]]|].
  exists u. split; [exact E|]. split; [exact V|]. intros v Vv. rewrite (H v Vv).
  rewrite !Forall_cons_iff. split; [tauto|]. intros [? ?]. split; [assumption|]. split; [assumption|constructor].
Qed.

Lemma bounding_box_insert v new g g' bb :
  grid_inv g -> grid_setitem v new g = (g', Ok tt) -> grid_bounding_box g = Ok (Some bb) ->
  exists c' bb', grid_getitem g' v = Ok c' /\ box_union bb [c_box c'] = Ok bb' /\
                 grid_bounding_box g' = Ok (Some bb').
Proof.
  intros HI H Ebb. destruct (setitem_success v new g g' HI H) as (co & c' & _ & _ & _ & _ & _ & HP & Hg).
  assert (HI' : grid_inv g') by (pose proof (grid_setitem_inv v new g HI) as X; rewrite H in X; exact X).
  destruct (bounding_box_least g bb (proj1 HI) Ebb) as (Vb & B1 & B2).
  assert (Vc : valid (c_box c')).
  { eapply inv_valid; [exact HI'|]. apply (Permutation_in _ (Permutation_sym HP)). left; reflexivity. }
  destruct (box_union_two bb (c_box c') Vb Vc) as (u & Eu & Vu & Hu).
  exists c', u. split; [exact Hg|]. split; [exact Eu|].
  destruct (bounding_box_spec g' (proj1 HI')) as [[E0 _]|(_ & bb' & E' & V' & H')].
  { subst g'. apply Permutation_nil in HP. discriminate. }
  rewrite E'. do 2 f_equal. apply subarea_antisym; auto.
  - apply H'; [exact Vu|]. intros c Hc. apply (Permutation_in _ HP) in Hc.
    pose proof (proj1 (Hu u Vu) (subarea_refl u)) as [U1 U2].
    destruct Hc as [<-|Hc]; [exact U2|]. eapply subarea_trans; [apply B1, Hc | exact U1].
  - apply Hu; [exact V'|].
    pose proof (proj1 (H' bb' V') (subarea_refl bb')) as X.
    split.
    + apply B2; [exact V'|]. intros c Hc. apply X. apply (Permutation_in _ (Permutation_sym HP)). right; exact Hc.
    + apply X. apply (Permutation_in _ (Permutation_sym HP)). left; reflexivity.
Qed.

Lemma bounding_box_delete v g g' bb bb' :
  grid_inv g -> grid_delitem v g = (g', Ok tt) ->
  grid_bounding_box g = Ok (Some bb) -> grid_bounding_box g' = Ok (Some bb') -> subarea bb' bb.
Proof.
  intros HI H E E'. destruct (delitem_success v g g' H) as (d & _ & l & m & -> & ->).
  assert (HI' : grid_inv (l ++ m)) by (eapply grid_inv_remove; exact HI).
  destruct (bounding_box_least _ _ (proj1 HI) E) as (V & B1 & _).
  destruct (bounding_box_least _ _ (proj1 HI') E') as (V' & _ & B2').
  apply B2'; [exact V|]. intros c Hc. apply B1. apply in_app_iff in Hc. apply in_app_iff. cbn. tauto.
Qed.

(** ** C21 *)

Lemma merge_cells_err app c cells e :
  merge_cells app c cells = Err e -> exists x y, app x y = Err e.
Proof.
  revert c. induction cells as [|d cells IH]; intros c; cbn; [discriminate|].
  destruct (merge_content app (c_content c) (c_content d)) as [ct|e'] eqn:E; cbn [rbind].
  - apply IH.
  - intros H; inversion H; subst. unfold merge_content in E.
    destruct (c_content c); try discriminate; destruct (c_content d); try discriminate; eauto.
Qed.

Lemma merge_success v1 v2 app g g' r :
  grid_inv g -> grid_merge v1 v2 app g = (g', Ok r) ->
  exists a b first others rest,
    denotes_coord v1 a /\ denotes_coord v2 b /\ valid (MkBox a b) /\
    selects (inside (MkBox a b)) g (first :: others) /\
    selects (fun c => ~ inside (MkBox a b) c) g rest /\
    c_box r = MkBox a b /\ c_nature r = c_nature first /\
    in_order g' /\ Permutation g' (r :: rest) /\
    (forall c, In c rest -> ~ clash (c_box c) (MkBox a b)) /\
    merge_cells (chosen app) (MkCell (c_content first) (c_styles first) (c_nature first) (MkBox a b)) others = Ok r.
Proof.
  intros HI H.
  destruct (grid_merge_cases v1 v2 app g)
    as [(e & E & _)|(a & b & f & l & r' & H1 & H2 & V & Hin & Hf & Hm & Hb & Hna & E)].
  { rewrite E in H. discriminate. }
  cbn zeta in E. rewrite E in H. inversion H; subst r'.
  set (area := MkBox a b) in *.
  exists a, b, f, l, (filter (fun c => negb (insideb area c)) g). fold area.
  destruct (grid_insert_sorted_inv r (filter (fun c => negb (insideb area c)) g)) as (g1 & E1 & HI1 & HP1).
  { apply grid_inv_filter, HI. }
  { rewrite Hb. exact V. }
  { intros d Hd. rewrite Hb. eapply grid_merge_unchanged_no_clash; eassumption. }
  rewrite E1 in *. cbn [fst] in *. subst g'.
  repeat (split; [solve [auto]|]).
  split. { rewrite <- Hf. apply filter_selects. intros c Hc. apply insideb_inside. apply (inv_valid g); auto. }
  split. { apply filter_selects. intros c Hc. rewrite <- insideb_inside by (apply (inv_valid g); auto).
           destruct (insideb area c); cbn; split; congruence. }
  repeat (split; [solve [auto]|]).
  split. { apply HI1. }
  split. { exact HP1. }
  split. { apply grid_merge_unchanged_no_clash, Hin. }
  exact Hm.
Qed.

Lemma merge_content_styles v1 v2 app g g' r ins a b :
  grid_inv g -> grid_merge v1 v2 app g = (g', Ok r) ->
  denotes_coord v1 a -> denotes_coord v2 b -> selects (inside (MkBox a b)) g ins ->
  (never_none (chosen app) -> merged_content (chosen app) (map c_content ins) (c_content r)) /\
  (Forall (fun c => dict_ok (c_styles c)) ins ->
   forall k, last_wins k (map c_styles ins) (dget (c_styles r) k)) /\
  (app = None -> Forall (fun c => forall z, c_content c <> CNum z) ins ->
   cell_str r = str_concat (map cell_str ins)).
Proof.
  intros HI H Ha Hb Hs.
  destruct (merge_success v1 v2 app g g' r HI H)
    as (a' & b' & f & l & rest & Ha' & Hb' & V & Hins & Hrest & Hbox & Hna & HO & HP & Hcl & Hm).
  assert (a' = a) by (eapply coord_denotes_fun; eassumption).
  assert (b' = b) by (eapply coord_denotes_fun; eassumption). subst a' b'.
  assert (ins = f :: l) by (eapply selects_fun; eassumption). subst ins.
  split; [|split].
  - intros Hn. apply merge_cells_content in Hm; [|exact Hn]. exact Hm.
  - intros Hd k. inversion Hd; subst.
    rewrite (merge_cells_styles _ _ _ _ k H3 Hm). cbn [c_styles].
    pose proof (last_wins_last_some k (map c_styles (f :: l))) as L. rewrite map_map in L. cbn [map last_some] in L.
    replace (or_opt (dget (c_styles f) k) None) with (dget (c_styles f) k) in L
      by (destruct (dget (c_styles f) k); reflexivity).
    exact L.
  - intros -> HF. inversion HF; subst. cbn [chosen] in Hm. unfold cell_str at 1.
    rewrite (merge_cells_text _ _ _ Hm); auto.
Qed.

Lemma merge_outcome v1 v2 app g a b :
  grid_inv g -> denotes_coord v1 a -> denotes_coord v2 b ->
  let bad := ~ valid (MkBox a b) \/
             (exists c, In c g /\ ~ inside (MkBox a b) c /\ clash (c_box c) (MkBox a b)) \/
             (forall c, In c g -> ~ inside (MkBox a b) c) in
  (bad -> grid_merge v1 v2 app g = (g, Err EValueError)) /\
  (~ bad -> (exists g' r, grid_merge v1 v2 app g = (g', Ok r)) \/
            (exists e x y, grid_merge v1 v2 app g = (g, Err e) /\ chosen app x y = Err e)).
Proof.
  intros HI Ha Hb bad. set (area := MkBox a b) in *.
  assert (IB : forall c, In c g -> (insideb area c = true <-> inside area c))
    by (intros c Hc; apply insideb_inside; apply (inv_valid g); auto).
  assert (IF : forall c, In c g -> (insideb area c = false <-> ~ inside area c)).
  { intros c Hc. rewrite <- (IB c Hc). destruct (insideb area c); split; congruence. }
  destruct (grid_merge_cases v1 v2 app g)
    as [(e & E & D)|(a' & b' & f & l & r' & H1 & H2 & V & Hin & Hf & Hm & Hbx & Hna & E)].
  - destruct D as [(-> & D)|(a' & b' & Ha' & Hb' & D)].
    { apply coord_from_value_spec in Ha. apply coord_from_value_spec in Hb. destruct D; congruence. }
    assert (a' = a) by (eapply coord_denotes_fun; eassumption).
    assert (b' = b) by (eapply coord_denotes_fun; eassumption). subst a' b'. fold area in D.
    destruct D as [(-> & D)|(V & Hin & f & l & Hf & Hm)].
    + split; [intros _; exact E|]. intros Hbad. exfalso. apply Hbad. unfold bad.
      destruct D as [D|[(c & Hc & Hi & Hcl)|D]]; [auto| |].
      * right; left. exists c. rewrite <- IF by exact Hc. auto.
      * right; right. intros c Hc. apply IF; auto.
    + split.
      * intros [Hbd|[(c & Hc & Hi & Hcl)|Hbd]]; exfalso.
        -- contradiction.
        -- destruct (Hin c Hc) as [X|X]; [|contradiction]. apply IB in X; auto.
        -- assert (Hfi : In f (filter (insideb area) g)) by (rewrite Hf; left; reflexivity).
           apply filter_In in Hfi as [Hfg Hfi]. apply (Hbd f Hfg). apply IB; auto.
      * intros _. right. destruct (merge_cells_err _ _ _ _ Hm) as (x & y & Hxy). eauto 6.
  - assert (a' = a) by (eapply coord_denotes_fun; eassumption).
    assert (b' = b) by (eapply coord_denotes_fun; eassumption). subst a' b'. fold area in Hin, Hf, V, E.
    split.
    + intros [Hbd|[(c & Hc & Hi & Hcl)|Hbd]]; exfalso.
      -- contradiction.
      -- destruct (Hin c Hc) as [X|X]; [|contradiction]. apply IB in X; auto.
      -- assert (Hfi : In f (filter (insideb area) g)) by (rewrite Hf; left; reflexivity).
         apply filter_In in Hfi as [Hfg Hfi]. apply (Hbd f Hfg). apply IB; auto.
    + intros _. left. rewrite E. eauto.
Qed.

(** ** C22 *)

Lemma atomic_set v c g g' e : grid_setitem v c g = (g', Err e) -> g' = g.
Proof.
  intros H.
  destruct (grid_setitem_cases v c g) as [[_ E]|(co & Hv & [[_ E]|(V & [[_ E]|[Hn E]])])];
    rewrite E in H; try (inversion H; reflexivity).
  destruct (grid_insert_sorted_total (moved c co) g V) as (i & Ei & _). rewrite Ei in H. discriminate.
Qed.

Lemma atomic_del v g g' e : grid_delitem v g = (g', Err e) -> g' = g.
Proof.
  intros H.
  destruct (grid_delitem_cases v g) as [[_ E]|(co & _ & [(_ & _ & E)|(d & l & m & Hg & _ & Hd & _ & E)])];
    rewrite E in H; inversion H; reflexivity.
Qed.

Lemma atomic_merge v1 v2 app g g' e : grid_merge v1 v2 app g = (g', Err e) -> g' = g.
Proof.
  intros H. destruct (grid_merge_cases v1 v2 app g)
    as [(e' & E & _)|(a' & b' & f & l & r' & _ & _ & _ & _ & _ & _ & _ & _ & E)].
  - rewrite E in H. inversion H; reflexivity.
  - cbn zeta in E. rewrite E in H. discriminate.
Qed.

Lemma atomic_expand v w h app g g' e : grid_expand v w h app g = (g', Err e) -> g' = g.
Proof.
  intros H. destruct (grid_expand_cases v w h app g) as [(e' & _ & E)|(c & _ & E)]; rewrite E in H.
  - inversion H; reflexivity.
  - eapply atomic_merge; exact H.
Qed.

Lemma unit_of_err {S A} (m : SM S A) s s' e : unit_of m s = (s', Err e) -> m s = (s', Err e).
Proof.
  unfold unit_of, sbind, sret. destruct (m s) as [s1 [a|e1]]; intros H; [discriminate|]. inversion H; reflexivity.
Qed.

Lemma atomic_gstep o g g' e : is_update o = false -> gstep o g = (g', Err e) -> g' = g.
Proof.
  intros Hu H. destruct o; cbn [gstep is_update] in *; try (apply unit_of_err in H).
  - eapply atomic_set; exact H.
  - eapply atomic_del; exact H.
  - eapply atomic_merge; exact H.
  - eapply atomic_expand; exact H.
  - unfold grid_pop, sbind, slift, sget, sret in H.
    destruct (grid_getitem g v); [|inversion H; reflexivity].
    destruct (grid_delitem v g) as [g1 [x|e1]] eqn:E; [discriminate|].
    inversion H; subst. eapply atomic_del; exact E.
  - unfold grid_setdefault in H. destruct (grid_getitem g v) as [d|e1]; [inversion H; reflexivity|].
    destruct e1; try (inversion H; reflexivity).
    unfold sbind, sret in H. destruct (grid_setitem v c g) as [g1 [x|e1]] eqn:E; [discriminate|].
    inversion H; subst. eapply atomic_set; exact E.
  - rewrite grid_popitem_eq in H. inversion H; reflexivity.
  - rewrite grid_clear_eq in H. inversion H; reflexivity.
  - discriminate.
  - rewrite grid_update_grid_eq in H. inversion H; reflexivity.
Qed.

(** ** C23 *)

Lemma expand_success v w h app g g' r :
  grid_inv g -> grid_expand v w h app g = (g', Ok r) ->
  exists c ins rest area, grid_getitem g v = Ok c /\ 0 <= w /\ 0 <= h /\
    area = MkBox (bmin (c_box c)) (Coord (cx (bmax (c_box c)) + w) (cy (bmax (c_box c)) + h)) /\
    c_box r = area /\ c_nature r = c_nature c /\
    selects (inside area) g (c :: ins) /\
    selects (fun d => ~ inside area d) g rest /\
    in_order g' /\ Permutation g' (r :: rest).
Proof.
  intros HI H. destruct (grid_expand_cases v w h app g) as [(e & _ & E)|(c & Hc & E)]; rewrite E in H.
  { discriminate. }
  destruct (merge_success _ _ _ _ _ _ HI H)
    as (a & b & f & l & rest & Ha & Hb & V & Hins & Hrest & Hbox & Hna & HO & HP & Hcl & Hm).
  inversion Ha; subst a. inversion Hb; subst b.
  assert (Hcg : In c g).
  { destruct (getitem_cases g v) as [(E1 & _)|(co & _ & [(d & Ed & Hd & _)|(E1 & _)])]; congruence. }
  assert (Vc : valid (c_box c)) by (apply (inv_valid g); auto).
  set (area := MkBox (c_min c) (Coord (cx (c_max c) + w) (cy (c_max c) + h))) in *.
  assert (Hic : inside area c).
  { (* otherwise the cell would be kept and clash with the area, which has the same corner *)
    destruct (insideb area c) eqn:Ei; [apply insideb_inside; assumption|]. exfalso.
    assert (Hni : ~ inside area c) by (rewrite <- insideb_inside by exact Vc; congruence).
    apply (Hcl c).
    - apply (selects_In _ _ _ c Hrest). auto.
    - apply same_min_clash; [exact Vc|reflexivity]. }
  assert (Hwh : 0 <= w /\ 0 <= h).
  { pose proof (Hic _ (proj2 (valid_min_max _ Vc))) as X. unfold covers, area, c_max in X. cbn in X. lia. }
  assert (Hfc : f = c).
  { (* [f] is the first cell of the grid in the area, [c] has the top-left corner of the area *)
    assert (Hf : In f (f :: l)) by (left; reflexivity).
    apply (selects_In _ _ _ f Hins) in Hf as [Hfg Hfi].
    assert (Hc' : In c (f :: l)) by (apply (selects_In _ _ _ c Hins); auto).
    destruct Hc' as [->|Hc']; [reflexivity|]. exfalso.
    assert (HS : StronglySorted before (f :: l)).
    { assert (Hfl : f :: l = filter (insideb area) g).
      { eapply selects_fun; [exact Hins|]. apply filter_selects. intros d Hd. apply insideb_inside.
        apply (inv_valid g); auto. }
      rewrite Hfl. apply filter_SSorted. apply HI. }
    inversion HS as [|? ? _ HF]; subst. rewrite Forall_forall in HF. specialize (HF c Hc').
    pose proof (Hfi _ (proj1 (valid_min_max _ (inv_valid _ _ HI Hfg)))) as X.
    unfold covers, area, before, c_min in *. cbn in X. lia. }
  subst f. exists c, l, rest, area.
  repeat (split; [solve [auto | apply Hwh]|]). exact HP.
Qed.

Lemma expand_zero v app g c :
  grid_inv g -> grid_getitem g v = Ok c -> grid_expand v 0 0 app g = (g, Ok c).
Proof.
  intros HI Hc. destruct (grid_expand_cases v 0 0 app g) as [(e & E0 & _)|(c' & Hc' & E)]; [congruence|].
  assert (c' = c) by congruence. subst c'. rewrite E.
  replace (Coord (cx (c_max c) + 0) (cy (c_max c) + 0)) with (c_max c) by (apply coord_ext; cbn; lia).
  assert (Hcg : In c g).
  { destruct (getitem_cases g v) as [(E1 & _)|(co & _ & [(d & Ed & Hd & _)|(E1 & _)])]; congruence. }
  assert (Vc : valid (c_box c)) by (apply (inv_valid g); auto).
  assert (Eb : MkBox (c_min c) (c_max c) = c_box c) by (destruct c as [? ? ? [? ?]]; reflexivity).
  destruct (merge_outcome (PCoord (c_min c)) (PCoord (c_max c)) app g (c_min c) (c_max c) HI
              ltac:(constructor) ltac:(constructor)) as [_ M].
  rewrite Eb in M.
  assert (Hsing : forall d, In d g -> inside (c_box c) d -> d = c).
  { intros d Hd Hi. destruct HI as (HV & HS & HC). symmetry. eapply no_clash_In; eauto.
    apply clash_sym, subarea_clash; [|exact Hi]. unfold all_valid in HV. rewrite Forall_forall in HV; auto. }
  destruct M as [(g' & r & Er)|(e & x & y & Er & _)].
  { intros [X|[(d & Hd & Hni & Hcl)|X]].
    - contradiction.
    - apply Hni. assert (d = c). { destruct HI as (HV & HS & HC). eapply no_clash_In; eauto.
        unfold all_valid in HV. rewrite Forall_forall in HV; auto. } subst d. apply subarea_refl.
    - apply (X c Hcg). apply subarea_refl. }
  - destruct (merge_success _ _ _ _ _ _ HI Er)
      as (a & b & f & l & rest & Ha & Hb & V & Hins & Hrest & Hbox & Hna & HO & HP & Hcl & Hm).
    inversion Ha; subst a. inversion Hb; subst b. rewrite Eb in *.
    assert (Hfl : f :: l = [c]).
    { assert (HN : NoDup (f :: l)).
      { assert (Hfl : f :: l = filter (insideb (c_box c)) g).
        { eapply selects_fun; [exact Hins|]. apply filter_selects. intros d Hd. apply insideb_inside.
          apply (inv_valid g); auto. }
        rewrite Hfl. apply NoDup_filter. apply in_order_NoDup, HI. }
      assert (HA : forall d, In d (f :: l) -> d = c).
      { intros d Hd. apply (selects_In _ _ _ d Hins) in Hd as [Hd Hi]. auto. }
      rewrite (HA f (or_introl eq_refl)) in *. f_equal. destruct l as [|x l]; [reflexivity|].
      exfalso. inversion HN as [|? ? HN1 _]; subst. apply HN1. rewrite (HA x) by (cbn; auto). left; reflexivity. }
    inversion Hfl; subst f l. cbn in Hm. inversion Hm.
    assert (Erc : MkCell (c_content c) (c_styles c) (c_nature c) (c_box c) = c) by (destruct c; reflexivity).
    rewrite Erc in *. subst r. rewrite Er. f_equal.
    apply in_order_unique; [exact HO | apply HI |].
    intros d. split; intros Hd.
    + apply (Permutation_in _ HP) in Hd. destruct Hd as [<-|Hd]; [exact Hcg|].
      apply (selects_In _ _ _ d Hrest) in Hd. tauto.
    + apply (Permutation_in _ (Permutation_sym HP)).
      destruct (insideb (c_box c) d) eqn:Ei.
      * left. symmetry. apply Hsing; [exact Hd|]. apply insideb_inside; [apply (inv_valid g); auto|exact Ei].
      * right. apply (selects_In _ _ _ d Hrest). split; [exact Hd|].
        rewrite <- insideb_inside by (apply (inv_valid g); auto). congruence.
  - exfalso. (* the appender is not called: there is only one cell *)
    destruct (grid_merge_cases (PCoord (c_min c)) (PCoord (c_max c)) app g)
      as [(e' & E' & D)|(a' & b' & f & l & r' & _ & _ & _ & _ & _ & _ & _ & _ & E')].
    2:{ cbn zeta in E'. rewrite E' in Er. discriminate. }
    destruct D as [(_ & D)|(a & b & Ha & Hb & D)]; [destruct D; discriminate|].
    inversion Ha; subst a. inversion Hb; subst b. rewrite Eb in D.
    destruct D as [(_ & D)|(V & Hin & f & l & Hf & Hm)].
    + destruct D as [X|[(d & Hd & Hni & Hcl)|X]].
      * contradiction.
      * assert (d = c). { destruct HI as (HV & HS & HC). eapply no_clash_In; eauto.
          unfold all_valid in HV. rewrite Forall_forall in HV; auto. } subst d.
        assert (insideb (c_box c) c = true) by (apply insideb_inside; [exact Vc|apply subarea_refl]). congruence.
      * assert (insideb (c_box c) c = true) by (apply insideb_inside; [exact Vc|apply subarea_refl]).
        rewrite (X c Hcg) in H. discriminate.
    + assert (HN : NoDup (f :: l)) by (rewrite <- Hf; apply NoDup_filter, in_order_NoDup, HI).
      assert (HA : forall d, In d (f :: l) -> d = c).
      { intros d Hd. rewrite <- Hf in Hd. apply filter_In in Hd as [Hd Hi]. apply Hsing; [exact Hd|].
        apply insideb_inside; [apply (inv_valid g); auto|exact Hi]. }
      destruct l as [|z l]; [discriminate Hm|].
      inversion HN as [|? ? HN1 _]; subst. apply HN1. rewrite (HA z), (HA f) by (cbn; auto). left; reflexivity.
Qed.

Lemma expand_negative v w h app g c :
  grid_inv g -> grid_getitem g v = Ok c -> w < 0 \/ h < 0 ->
  grid_expand v w h app g = (g, Err EValueError).
Proof.
  intros HI Hc Hneg. destruct (grid_expand_cases v w h app g) as [(e & E0 & _)|(c' & Hc' & E)]; [congruence|].
  assert (c' = c) by congruence. subst c'. rewrite E.
  assert (Hcg : In c g).
  { destruct (getitem_cases g v) as [(E1 & _)|(co & _ & [(d & Ed & Hd & _)|(E1 & _)])]; congruence. }
  assert (Vc : valid (c_box c)) by (apply (inv_valid g); auto).
  set (area := MkBox (c_min c) (Coord (cx (c_max c) + w) (cy (c_max c) + h))).
  eapply merge_outcome; [exact HI|constructor|constructor|]. fold area.
  right; left. exists c. split; [exact Hcg|]. split.
  - intros Hi. pose proof (Hi _ (proj2 (valid_min_max _ Vc))) as X. unfold covers, area, c_max in X. cbn in X. lia.
  - apply same_min_clash; [exact Vc|reflexivity].
Qed.

(** ** C24 *)

Lemma selects_app {A} (P : A -> Prop) l1 m1 l2 m2 :
  selects P l1 m1 -> selects P l2 m2 -> selects P (l1 ++ l2) (m1 ++ m2).
Proof. induction 1; cbn; intros; [assumption|apply sel_in; auto|apply sel_out; auto]. Qed.

Lemma selects_all {A} (P : A -> Prop) l : (forall a, In a l -> P a) -> selects P l l.
Proof. induction l; intros H; constructor; cbn in *; auto. Qed.

Lemma selects_none {A} (P : A -> Prop) l : (forall a, In a l -> ~ P a) -> selects P l [].
Proof. induction l; intros H; constructor; cbn in *; auto. Qed.

Lemma iter_rows_facts g :
  in_order g ->
  List.concat (grid_iter_rows g) = g /\
  Forall (fun grp => grp <> []) (grid_iter_rows g) /\
  (forall grp, In grp (grid_iter_rows g) ->
     exists y, selects (fun c => cy (bmin (c_box c)) = y) g grp) /\
  StronglySorted (fun a b => forall c d, In c a -> In d b -> cy (bmin (c_box c)) < cy (bmin (c_box d)))
    (grid_iter_rows g).
Proof.
  intros HO. unfold grid_iter_rows.
  assert (HL : StronglySorted (fun a b => cy (c_min a) <= cy (c_min b)) g).
  { eapply SSorted_impl; [|exact HO]. unfold before, c_min. intros; lia. }
  pose proof (group_by_y_concat g) as Hc. pose proof (group_by_y_nonempty g) as Hne.
  pose proof (group_by_y_same_row g) as Hsr. pose proof (group_by_y_increasing g HL) as Hinc.
  assert (Hrow : forall grp c, In grp (group_by_y g) -> In c grp -> cy (bmin (c_box c)) = group_row grp).
  { intros grp c Hg Hcg. rewrite Forall_forall in Hsr. destruct (Hsr grp Hg) as [y Hy].
    rewrite Forall_forall in Hy. destruct grp as [|d grp]; [contradiction|]. cbn.
    rewrite (Hy d (or_introl eq_refl)). apply Hy, Hcg. }
  split; [exact Hc|]. split; [exact Hne|]. split.
  - intros grp Hg. exists (group_row grp).
    rewrite <- Hc at 1. apply in_split in Hg as (l1 & l2 & Hl). rewrite Hl in Hinc, Hrow |- *.
    apply SSorted_app in Hinc as (S1 & S2 & S3). inversion S2 as [|? ? S2' F2]; subst.
    rewrite Forall_forall in F2. rewrite concat_app. cbn [List.concat].
    change grp with ([] ++ grp) at 3. apply selects_app.
    + apply selects_none. intros c Hcc. apply in_concat in Hcc as (gr & Hgr & Hcg).
      rewrite (Hrow gr c) by (auto using in_or_app).
      specialize (S3 gr grp Hgr (or_introl eq_refl)). lia.
    + match goal with |- selects ?P ?l _ => cut (selects P l (grp ++ [])) end;
        [rewrite app_nil_r; auto|]. apply selects_app.
      * apply selects_all. intros c Hcg. apply Hrow; [apply in_elt|exact Hcg].
      * apply selects_none. intros c Hcc. apply in_concat in Hcc as (gr & Hgr & Hcg).
        rewrite (Hrow gr c); [|apply in_app_iff; cbn; auto|exact Hcg].
        specialize (F2 gr Hgr). lia.
  - clear - Hinc Hrow.
    induction Hinc as [|gr gs Hs IH Hf]; constructor.
    + apply IH. intros; apply Hrow; cbn; auto.
    + rewrite Forall_forall in *. intros gr' Hgr' c d Hcc Hd.
      rewrite (Hrow gr c), (Hrow gr' d) by (cbn; auto). apply Hf, Hgr'.
Qed.
