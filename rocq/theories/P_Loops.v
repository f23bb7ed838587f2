(** * Proofs about the loops over rows and columns *)
From Verif Require Import Base M_Geometry M_Xml M_Cell M_Grid M_Table M_Views M_Loops.
From Verif Require Import S_Geometry S_Cell S_Grid S_Table S_Views S_Loops P_Geometry P_Cell P_Grid P_GridFacts.
From Verif Require Import P_Table P_TableStep P_TableFacts P_TableMore P_Views.
Open Scope Z_scope.

(** ** Number of views after an insertion *)

Lemma refresh_cell_len ax c t g o vs :
  st t g o -> all_valid g -> valid (c_box c) -> t_views ax t = Some vs ->
  exists vs', t_views ax (fst (refresh_cell c t)) = Some vs' /\
    Z.of_nat (List.length vs') = Z.max (Z.of_nat (List.length vs)) (ax_hi ax (c_box c)).
Proof.
  intros HS HV V Hvs. unfold refresh_cell, sbind, slift.
  destruct (views_get_st Rows t g o HS HV) as (t1 & rs & E1 & HS1 & V1 & R1).
  assert (H1 : t_views ax t1 = Some vs).
  { replace t1 with (fst (views_get Rows t)) by (rewrite E1; reflexivity). unfold views_get, sbind, sget.
    destruct ax; cbn [t_views] in *.
    - rewrite Hvs. exact Hvs.
    - destruct (t_rows t); [exact Hvs|]. unfold slift. destruct (vl_refresh Rows (t_grid t) []); exact Hvs. }
  rewrite E1.
  destruct (vl_rep_adopt Rows _ c rs R1 V) as (rs' & E2 & R2). rewrite E2.
  destruct (views_put_st Rows _ _ t1 g _ HS1 R2) as [E3 HS3]. rewrite E3.
  destruct (views_get_st Cols _ g _ HS3 HV) as (t4 & cs & E4 & HS4 & V4 & R4).
  assert (H4 : t_views ax t4 = match ax with Rows => Some rs' | Cols => Some vs end).
  { replace t4 with (fst (views_get Cols (t_set_views Rows rs' t1))) by (rewrite E4; reflexivity).
    unfold views_get, sbind, sget. destruct ax; cbn [t_views t_set_views t_cols t_rows] in *.
    - destruct (t_cols t1); [reflexivity|]. unfold slift.
      destruct (vl_refresh Cols _ []); reflexivity.
    - rewrite H1. reflexivity. }
  rewrite E4.
  destruct (vl_rep_adopt Cols _ c cs R4 V) as (cs' & E5 & R5). rewrite E5. cbn [fst views_put sbind sget sput].
  destruct ax.
  - exists rs'. split; [exact H4|]. assert (rs = vs) as -> by congruence.
    rewrite vl_adopt_eq in E2 by first [exact V | apply R1]. injection E2 as <-. rewrite map_length, fit_length_false. apply Z.max_comm.
  - exists cs'. split; [reflexivity|]. assert (cs = vs) as -> by congruence.
    rewrite vl_adopt_eq in E5 by first [exact V | apply R4]. injection E5 as <-. rewrite map_length, fit_length_false. apply Z.max_comm.
Qed.

Lemma setitem_len ax v c t t' oh vs :
  tinv t oh -> t_views ax t = Some vs -> denotes_coord v (bmin (c_box c)) -> table_setitem v c t = (t', Ok tt) ->
  exists vs', t_views ax t' = Some vs' /\
    Z.of_nat (List.length vs') = Z.max (Z.of_nat (List.length vs)) (ax_hi ax (c_box c)).
Proof.
  intros [HS HM] Hvs Hd E. unfold table_setitem in E.
  destruct (grid_setitem v c (t_grid t)) as [g' [[]|e]] eqn:Eg.
  2: { unfold sbind, on_grid in E. rewrite Eg in E. discriminate. }
  assert (HI' : grid_inv g') by (pose proof (grid_setitem_inv v c (t_grid t) (proj1 HM)) as H; rewrite Eg in H; exact H).
  destruct (on_grid_st (grid_setitem v c) t _ oh HS) as (t1 & E1 & HS1). rewrite Eg in E1, HS1. cbn [fst snd] in E1, HS1.
  unfold sbind, sget, slift in E. rewrite E1 in E.
  destruct (setitem_success v c (t_grid t) g' (proj1 HM) Eg) as (co & c' & _ & _ & _ & _ & _ & HP & Hget).
  replace (t_grid t1) with g' in E by (symmetry; apply HS1). rewrite Hget in E.
  assert (Ec : c' = c) by (eapply (setitem_same v c (t_grid t) g'); eauto; apply HM). subst c'.
  assert (V : valid (c_box c)) by (apply (inv_valid g'); [exact HI'|apply (getitem_In _ v), Hget]).
  replace t' with (fst (refresh_cell c t1)) by (rewrite E; reflexivity).
  eapply refresh_cell_len; [exact HS1|apply HI'|exact V|].
  unfold on_grid in E1. rewrite Eg in E1. injection E1 as <-. destruct ax; exact Hvs.
Qed.

Lemma seat_hi ax p i w h : ax_hi ax (seat ax p i w h) = p + along ax w h - 1.
Proof. destruct ax; reflexivity. Qed.

Lemma insert_len ax p ct s na w h t t' vs :
  treachable t -> t_views ax t = Some vs -> 1 <= p <= Z.of_nat (List.length vs) ->
  insert_cell ax p ct s na w h t = (t', Ok tt) ->
  exists vs', t_views ax t' = Some vs' /\
    Z.of_nat (List.length vs') = Z.max (Z.of_nat (List.length vs)) (p + along ax w h - 1).
Proof.
  intros HT Hvs Hp E. destruct (treachable_tinv t HT) as (oh & Ht).
  destruct (nth_error vs (Z.to_nat (p - 1))) as [v|] eqn:Ev.
  2: { apply nth_error_None in Ev. lia. }
  destruct (view_get_listed ax t oh vs _ v Ht Hvs Ev) as (Eg & Hpos & _).
  assert (v_pos v = p) as Ep by lia. rewrite Ep in Eg.
  unfold insert_cell, sbind, slift in E. rewrite Eg in E. rewrite Ep in E.
  destruct (next_free ax v) as [i|] eqn:Ei; [|discriminate].
  destruct (treachable_tinv t HT) as (o & HS & HM).
  destruct (insert_cell_st ax p ct s na w h t _ o HS (proj1 HM) (seen_mem ax (t_grid t, o) HM)) as (t1 & HS1 & H).
  destruct H as [(_ & Hn & _)|(q & i' & v' & Evg & Eq & Hq & Hi & Hqp & Hf & Hl & H)]; [lia|].
  rewrite Eg in Evg. injection Evg as <- <-. rewrite (Hqp ltac:(lia)) in *.
  assert (E' : insert_cell ax p ct s na w h t = (t', Ok tt)).
  { unfold insert_cell, sbind, slift. rewrite Eg, Ep, Ei. exact E. }
  cbv zeta in H. destruct H as [(_ & En)|(Hw & Hh & En)]; [congruence|]. rewrite En in E'.
  destruct (setitem_len ax _ _ t t' oh vs Ht Hvs ltac:(unfold pinned; cbn; constructor) E') as (vs' & A & B).
  exists vs'. split; [exact A|]. rewrite B. cbn [c_box]. f_equal.
  replace (pinned ax p i' w h) with (seat ax p i' w h) by (destruct ax; reflexivity). apply seat_hi.
Qed.

Lemma modify_len ax p f t vs :
  treachable t -> t_views ax t = Some vs -> 1 <= p <= Z.of_nat (List.length vs) ->
  exists vs', view_modify ax p f t = (t_set_views ax vs' t, Ok tt) /\ List.length vs' = List.length vs.
Proof.
  intros HT Hvs Hp. destruct (treachable_tinv t HT) as (oh & Ht).
  destruct (nth_error vs (Z.to_nat (p - 1))) as [v|] eqn:Ev.
  2: { apply nth_error_None in Ev. lia. }
  destruct (view_get_listed ax t oh vs _ v Ht Hvs Ev) as (_ & Hpos & Hm).
  assert (v_pos v = p) as Ep by lia. rewrite Ep in Hm. eexists. split; [apply Hm|apply upd_nth_length].
Qed.

Lemma call_len ax p c t t' vs :
  treachable t -> t_views ax t = Some vs -> 1 <= p <= Z.of_nat (List.length vs) -> adds_none ax c ->
  tstep (at_position ax p c) t = (t', Ok tt) ->
  exists vs', t_views ax t' = Some vs' /\ List.length vs' = List.length vs.
Proof.
  intros HT Hvs Hp Ha E. destruct c; cbn [at_position tstep adds_none] in *.
  - destruct (insert_len ax p _ _ _ _ _ t t' vs HT Hvs Hp E) as (vs' & A & B). exists vs'. split; [exact A|]. lia.
  - unfold view_set_nature in E. destruct (modify_len ax p (with_nature na) t vs HT Hvs Hp) as (vs' & A & B).
    rewrite A in E. injection E as <-. exists vs'. rewrite t_views_set. destruct ax; auto.
  - unfold view_set_styles in E. destruct (modify_len ax p (with_styles (styles_of st)) t vs HT Hvs Hp) as (vs' & A & B).
    rewrite A in E. injection E as <-. exists vs'. rewrite t_views_set. destruct ax; auto.
  - unfold view_update_styles in E.
    destruct (modify_len ax p (fun v => with_styles (dupdate (v_styles v) st) v) t vs HT Hvs Hp) as (vs' & A & B).
    rewrite A in E. injection E as <-. exists vs'. rewrite t_views_set. destruct ax; auto.
Qed.

(** ** One turn *)

Lemma nth_refs ax o t index r :
  oreachable o -> shows o t ->
  nth_error (match o_refs ax o with Some refs => refs | None => [] end) index = Some r ->
  exists v vs, listed ax r o /\ holds ax r o v /\ v_pos v = Z.of_nat index + 1 /\
    t_views ax t = Some vs /\ (index < List.length vs)%nat.
Proof.
  intros HR HS Hn. destruct (shows_rel o t HR HS) as [HT Hr]. destruct (treachable_tinv t HT) as (oh & Ht).
  destruct (o_refs ax o) as [refs|] eqn:E; [|destruct index; discriminate].
  assert (Hl : listed ax r o) by (exists refs; split; [exact E|apply (nth_error_In _ _ Hn)]).
  pose proof (proj2 (proj2 (proj2 Hr)) ax) as H. rewrite E in H. destruct (t_views ax t) as [vs|] eqn:Ev; [|contradiction].
  destruct H as [F ND]. cbn [fst snd] in F.
  assert (Hx : exists v, nth_error vs index = Some v /\ nth_error (o_heap ax o) r = Some v).
  { clear - F Hn. revert index Hn. induction F as [|r' v l m E F IH]; intros [|i] Hi; cbn in *; try discriminate.
    - injection Hi as ->. eauto.
    - apply IH, Hi. }
  destruct Hx as (v & E1 & E2). exists v, vs. split; [exact Hl|]. split; [exact E2|].
  split; [apply (tinv_pos_ok ax t oh vs Ht Ev index v E1)|]. split; [reflexivity|]. apply nth_error_Some. congruence.
Qed.

Lemma refs_len ax o t : shows o t ->
  List.length (match o_refs ax o with Some refs => refs | None => [] end) =
  List.length (match t_views ax t with Some vs => vs | None => [] end).
Proof.
  intros (_ & _ & _ & H). specialize (H ax). destruct (o_refs ax o), (t_views ax t); try contradiction; [|reflexivity].
  eapply F2_len, H.
Qed.

Lemma on_object_end ax r v c o t : oreachable o -> shows o t -> listed ax r o -> holds ax r o v ->
  same_end (ostep (on_object ax r c) o) (tstep (at_position ax (v_pos v) c) t).
Proof.
  intros HR HS Hl Hv. destruct (shows_rel o t HR HS) as [HT Hr]. destruct (treachable_tinv t HT) as (oh & Ht).
  assert (Hm : forall f, same_end (o_modify ax r f o) (view_modify ax (v_pos v) f t)).
  { intros f. destruct (modify_listed ax r v f o t oh Hr Ht Hl Hv) as (A & B & C). split; [congruence|apply rel_shows, A]. }
  destruct c; cbn [on_object at_position ostep tstep]; try apply Hm.
  pose proof (otstep_rel (TInsert ax (v_pos v) ct st na width height) o t Hr) as [A B]. cbn [otstep tstep] in A, B.
  unfold sbind in A, B. rewrite (o_view_listed ax r v o t oh Hr Ht Hl Hv) in A, B.
  split; [exact B|apply rel_shows, A].
Qed.

Lemma zrange_cons a b : a < b -> zrange a b = a :: zrange (a + 1) b.
Proof.
  intros H. unfold zrange. replace (Z.to_nat (b - a)) with (S (Z.to_nat (b - (a + 1)))) by lia.
  cbn [seq map]. f_equal; [lia|]. rewrite <- seq_shift, map_map. apply map_ext. intros i. lia.
Qed.
Lemma zrange_nil a b : b <= a -> zrange a b = [].
Proof. intros H. unfold zrange. replace (Z.to_nat (b - a)) with O by lia. reflexivity. Qed.

(** ** The loop *)

Lemma turns_thin ax c n vs : adds_none ax c -> forall k fuel index o t,
  oreachable o -> shows o t -> t_views ax t = Some vs -> List.length vs = n -> (k = n - index)%nat -> (index <= n)%nat -> (k < fuel)%nat ->
  exists x, in_turn (fun p => tstep (at_position ax p c)) (zrange (Z.of_nat index + 1) (Z.of_nat n + 1)) t x /\
    same_end (o_turns fuel ax (fun r => ostep (on_object ax r c)) index o) x.
Proof.
  intros Ha k. revert vs. induction k as [|k IH]; intros vs fuel index o t HR HS Hvs Hn Hk Hi Hf; (destruct fuel as [|fuel]; [lia|]);
    cbn [o_turns]; unfold sbind at 1, sget;
    pose proof (refs_len ax o t HS) as HL; rewrite Hvs in HL.
  - destruct (nth_error (match o_refs ax o with Some refs => refs | None => [] end) index) as [r|] eqn:Er.
    { assert (Hlt : (index < List.length (match o_refs ax o with Some refs => refs | None => [] end))%nat)
        by (apply nth_error_Some; congruence). rewrite HL, Hn in Hlt. lia. }
    exists (t, Ok tt). rewrite zrange_nil by lia. split; [constructor|]. split; [reflexivity|exact HS].
  - destruct (nth_error (match o_refs ax o with Some refs => refs | None => [] end) index) as [r|] eqn:Er.
    2: { apply nth_error_None in Er. rewrite HL, Hn in Er. lia. }
    destruct (nth_refs ax o t index r HR HS Er) as (v & vs' & Hl & Hv & Hp & Hvs' & Hlt).
    assert (vs' = vs) as -> by congruence.
    rewrite zrange_cons by lia.
    destruct (on_object_end ax r v c o t HR HS Hl Hv) as [B A]. rewrite Hp in A, B.
    unfold sbind. 
    assert (HR' : oreachable (fst (ostep (on_object ax r c) o))) by (apply oreach_step, HR).
    destruct (ostep (on_object ax r c) o) as [o' ro]. cbn [fst snd] in *.
    destruct (tstep (at_position ax (Z.of_nat index + 1) c) t) as [t' rt] eqn:Et. cbn [fst snd] in *. subst ro.
    destruct rt as [[]|e].
    + destruct (shows_rel o t HR HS) as [HT _].
      destruct (call_len ax (Z.of_nat index + 1) c t t' vs HT Hvs ltac:(lia) Ha Et) as (vs2 & Hvs2 & L2).
      destruct (IH vs2 fuel (S index) o' t' HR' A Hvs2) as (x & Hx & Hs); try lia.
      exists x. split; [|exact Hs]. eapply turn_next; [exact Et|].
      replace (Z.of_nat index + 1 + 1) with (Z.of_nat (S index) + 1) by lia. exact Hx.
    + exists (t', Err e). split; [apply turn_fail, Et|]. split; [reflexivity|exact A].
Qed.

Lemma get_shows ax o t : oreachable o -> shows o t ->
  exists o' s vs, o_get ax o = (o', Ok s) /\ oreachable o' /\ shows o' (fst (views_get ax t)) /\
    snd (views_get ax t) = Ok vs /\ t_views ax (fst (views_get ax t)) = Some vs /\ o_grid o' = o_grid o.
Proof.
  intros HR HS. destruct (shows_rel o t HR HS) as [HT Hr]. destruct (treachable_tinv t HT) as (oh & Ht & HM).
  destruct (views_get_st ax t _ oh Ht (proj1 (proj1 HM))) as (t' & vs & E & HS' & Ev & _).
  destruct (otstep_rel (TReadViews ax) o t Hr) as [A B]. cbn [otstep tstep] in A, B.
  assert (Et : unit_of (views_get ax) t = (t', Ok tt)) by (unfold unit_of, sbind; rewrite E; reflexivity).
  rewrite Et in A, B. cbn [fst snd] in A, B. unfold unit_of, sbind in A, B.
  assert (HR' : oreachable (fst (ostep (OTable (TReadViews ax)) o))) by (apply oreach_step, HR).
  cbn [ostep otstep] in HR'. unfold unit_of, sbind in HR'.
  destruct (o_get ax o) as [o' [s|e]] eqn:Eo; cbn [fst snd] in *; [|discriminate].
  exists o', s, vs. rewrite E. cbn [fst snd]. split; [reflexivity|]. split; [exact HR'|]. split; [apply rel_shows, A|].
  split; [reflexivity|]. split; [exact Ev|]. destruct A as [A _]. cbn [sret fst] in A. rewrite A. destruct HS as [-> _]. apply HS'.
Qed.

Lemma for_thin ax c n o t fuel : oreachable o -> shows o t -> adds_none ax c -> view_count ax t n ->
  (Z.to_nat n < fuel)%nat ->
  exists x, in_turn (fun p => tstep (at_position ax p c)) (zrange 1 (n + 1)) (fst (views_get ax t)) x /\
    same_end (o_for fuel ax c o) x.
Proof.
  intros HR HS Ha (vs & Evs & ->) Hf.
  destruct (get_shows ax o t HR HS) as (o' & s & vs' & E & HR' & HS' & Evs' & Ev' & _).
  assert (vs' = vs) as -> by congruence.
  unfold o_for, sbind at 1. rewrite E.
  destruct (turns_thin ax c (List.length vs) vs Ha (List.length vs) fuel O o' _ HR' HS' Ev' eq_refl) as (x & A & B); try lia.
  exists x. split; [exact A|exact B].
Qed.

(** *** Cells which take several rows *)

Lemma turns_tall ax ct s na w h : 2 <= along ax w h -> forall fuel index o t vs,
  oreachable o -> shows o t -> t_views ax t = Some vs -> (index < List.length vs)%nat ->
  snd (o_turns fuel ax (fun r => ostep (on_object ax r (RInsert ct s na w h))) index o) <> Ok tt.
Proof.
  intros Ha fuel. induction fuel as [|fuel IH]; intros index o t vs HR HS Hvs Hi; [discriminate|].
  cbn [o_turns]. unfold sbind at 1, sget. pose proof (refs_len ax o t HS) as HL; rewrite Hvs in HL.
  destruct (nth_error (match o_refs ax o with Some refs => refs | None => [] end) index) as [r|] eqn:Er.
  2: { apply nth_error_None in Er. lia. }
  destruct (nth_refs ax o t index r HR HS Er) as (v & vs' & Hl & Hv & Hp & Hvs' & Hlt). assert (vs' = vs) as -> by congruence.
  destruct (on_object_end ax r v (RInsert ct s na w h) o t HR HS Hl Hv) as [B A]. rewrite Hp in A, B.
  unfold sbind.
  assert (HR' : oreachable (fst (ostep (on_object ax r (RInsert ct s na w h)) o))) by (apply oreach_step, HR).
  destruct (ostep (on_object ax r (RInsert ct s na w h)) o) as [o' ro]. cbn [fst snd] in *.
  destruct (tstep (at_position ax (Z.of_nat index + 1) (RInsert ct s na w h)) t) as [t' rt] eqn:Et. cbn [fst snd] in *. subst ro.
  destruct rt as [[]|e]; [|discriminate].
  destruct (shows_rel o t HR HS) as [HT _]. cbn [at_position tstep] in Et.
  destruct (insert_len ax (Z.of_nat index + 1) _ _ _ _ _ t t' vs HT Hvs ltac:(lia) Et) as (vs2 & Hvs2 & L2).
  apply (IH (S index) o' t' vs2 HR' A Hvs2). lia.
Qed.

Lemma turns_for_ever ax ct s na w h : 2 <= along ax w h -> aside ax w h = 1 -> forall fuel index o t vs,
  oreachable o -> shows o t -> t_views ax t = Some vs -> (index < List.length vs)%nat ->
  (forall c, In c (t_grid t) -> ax_lo ax (c_box c) <= Z.of_nat index + 1) ->
  snd (o_turns fuel ax (fun r => ostep (on_object ax r (RInsert ct s na w h))) index o) = Err EOutOfFuel.
Proof.
  intros Ha Hs fuel. induction fuel as [|fuel IH]; intros index o t vs HR HS Hvs Hi Hlo; [reflexivity|].
  cbn [o_turns]. unfold sbind at 1, sget. pose proof (refs_len ax o t HS) as HL; rewrite Hvs in HL.
  destruct (nth_error (match o_refs ax o with Some refs => refs | None => [] end) index) as [r|] eqn:Er.
  2: { apply nth_error_None in Er. lia. }
  destruct (nth_refs ax o t index r HR HS Er) as (v & vs' & Hl & Hv & Hp & Hvs' & Hlt). assert (vs' = vs) as -> by congruence.
  destruct (on_object_end ax r v (RInsert ct s na w h) o t HR HS Hl Hv) as [B A]. rewrite Hp in A, B.
  unfold sbind.
  assert (HR' : oreachable (fst (ostep (on_object ax r (RInsert ct s na w h)) o))) by (apply oreach_step, HR).
  destruct (ostep (on_object ax r (RInsert ct s na w h)) o) as [o' ro]. cbn [fst snd] in *.
  destruct (shows_rel o t HR HS) as [HT _]. destruct (treachable_tinv t HT) as (oh & _ & HM).
  cbn [at_position tstep] in A, B.
  destruct (reads_exists ax (Z.of_nat index + 1) t HT ltac:(lia)) as [v0 Hv0].
  destruct (insert_cell_spec ax (Z.of_nat index + 1) ct s na w h t v0 HT ltac:(lia) Hv0) as (i & Hi1 & Hf & _ & H).
  cbv zeta in H. destruct H as [(Hn & _)|(_ & _ & [((d & Hd & Hc) & _)|(_ & t' & Et & HP)])].
  - destruct ax; cbn in *; lia.
  - exfalso. apply (Hf d Hd). specialize (Hlo d Hd).
    assert (Vd : valid (c_box d)) by (apply (inv_valid (t_grid t)); [apply HM|exact Hd]).
    unfold clash, covers, valid in *. destruct ax; cbn in *; lia.
  - rewrite Et in A, B. cbn [fst snd] in *. subst ro.
    destruct (insert_len ax (Z.of_nat index + 1) _ _ _ _ _ t t' vs HT Hvs ltac:(lia) Et) as (vs2 & Hvs2 & L2).
    apply (IH (S index) o' t' vs2 HR' A Hvs2); [lia|].
    intros c Hc. apply (Permutation_in _ HP) in Hc as [<-|Hc].
    + cbn [c_box]. destruct ax; cbn; lia.
    + specialize (Hlo c Hc). lia.
Qed.

(** *** One cell for each row *)

Lemma free_cons ax p j c g : ax_hi ax (c_box c) < p ->
  free (c :: g) (place ax p j) <-> free g (place ax p j).
Proof.
  intros H. split; intros F d Hd.
  - apply F. right. exact Hd.
  - destruct Hd as [<-|Hd]; [|apply F, Hd]. unfold covers. destruct ax; cbn in *; lia.
Qed.

Lemma free_perm_iff g g' k : Permutation g g' -> free g k <-> free g' k.
Proof. intros H. split; apply free_perm; [exact H|symmetry; exact H]. Qed.

Lemma units_in_turn ax ct s na n : forall k p t, Z.of_nat k = n + 1 - p -> 1 <= p -> treachable t ->
  exists t' cs, in_turn (fun p => tstep (TInsert ax p ct s na 1 1)) (zrange p (n + 1)) t (t', Ok tt) /\
    Permutation (t_grid t') (cs ++ t_grid t) /\
    Forall2 (fun q c => exists i v, first_free ax q i (t_grid t) /\ reads ax q t v /\
               c = MkCell ct (styles_of s) (inherit na (v_nature v)) (seat ax q i 1 1)) (zrange p (n + 1)) cs.
Proof.
  intros k. induction k as [|k IH]; intros p t Hk Hp HT.
  - exists t, []. rewrite zrange_nil by lia. split; [constructor|]. split; [reflexivity|constructor].
  - rewrite zrange_cons by lia.
    destruct (reads_exists ax p t HT Hp) as [v Hv].
    destruct (insert_cell_spec ax p ct s na 1 1 t v HT Hp Hv) as (i & Hi & Hf & Hl & H).
    destruct (insert_cell_unit ax p ct s na t HT Hp) as (t1 & E1).
    cbv zeta in H. destruct H as [(Hn & _)|(_ & _ & [(_ & Hx)|(_ & t1' & E1' & HP)])]; [lia|congruence|].
    assert (t1' = t1) as -> by congruence.
    assert (HT1 : treachable t1).
    { replace t1 with (fst (tstep (TInsert ax p ct s na 1 1) t)) by (cbn [tstep]; rewrite E1; reflexivity). constructor. exact HT. }
    destruct (IH (p + 1) t1) as (t' & cs & A & B & C); try lia; [exact HT1|].
    set (c := MkCell ct (styles_of s) (inherit na (v_nature v)) (seat ax p i 1 1)).
    change (Permutation (t_grid t1) (c :: t_grid t)) in HP.
    exists t', (c :: cs). split; [eapply turn_next; [exact E1|exact A]|]. split.
    + rewrite B, HP. cbn. symmetry. apply Permutation_middle.
    + constructor.
      * exists i, v. split; [|split; [exact Hv|reflexivity]]. split; [exact Hi|]. split; [destruct ax; exact Hf|destruct ax; exact Hl].
      * assert (Hq : forall q, In q (zrange (p + 1) (n + 1)) -> p < q).
        { intros q Hq. apply in_zrange in Hq. lia. }
        revert Hq C. generalize (zrange (p + 1) (n + 1)). clear - HP HT HT1 E1 Hp. intros l Hq C.
        induction C as [|q d l cs (j & v1 & F & R & ->) C IHC]; constructor.
        -- assert (Hlt : p < q) by (apply Hq; left; reflexivity).
           destruct (reads_exists ax q t HT ltac:(lia)) as [v0 Hv0].
           assert (Hc : ax_hi ax (c_box c) < q) by (unfold c; cbn [c_box]; rewrite seat_hi; destruct ax; cbn; lia).
           exists j, v0. split; [|split; [exact Hv0|]].
           ++ destruct F as (F1 & F2 & F3). split; [exact F1|]. split.
              ** apply (free_cons ax q j c _ Hc). eapply free_perm; [exact HP|exact F2].
              ** intros j' Hj' Hfr. apply (F3 j' Hj'). eapply free_perm; [symmetry; exact HP|]. apply (free_cons ax q j' c _ Hc), Hfr.
           ++ do 2 f_equal.
              destruct (last_pos_exists ax t1) as [m Hm]; [destruct (treachable_tinv t1 HT1) as (oh & _ & HM); apply (proj1 (proj1 HM))|].
              destruct (attributes_kept (TInsert ax p ct s na 1 1) t ax q v0 v1 m HT ltac:(lia) Hv0) as [_ Hna].
              ** cbn. tauto.
              ** cbn [tstep]. rewrite E1. exact R.
              ** cbn [tstep]. rewrite E1. exact Hm.
              ** discriminate.
              ** exact Hna.
        -- apply IHC. intros q' Hq'. apply Hq. right. exact Hq'.
Qed.
