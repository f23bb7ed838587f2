(** * The number of rows of the tables made by the parsers *)
From Coq Require Import QArith.
From Verif Require Import Base M_Geometry M_Xml M_Cell M_Grid M_Table M_Str M_Units M_Cals M_CalsParser M_FormexParser M_FormexRead M_Ooxml.
From Verif Require Import S_Geometry S_Grid S_Table S_Units S_Cals S_Int S_CalsParser S_RoundTrip.
From Verif Require Import P_Geometry P_Grid P_GridFacts P_Table P_TableStep P_TableFacts P_TableRefine P_TableMore P_Cals P_CalsParser P_CalsSim P_CalsTable P_FormexSim P_Fit P_OoxmlEvents.
Open Scope list_scope.
Open Scope Z_scope.

Definition low (M : Z) (g : grid) : Prop := forall c, In c g -> cy (bmax (c_box c)) <= M.
Definition within (M : Z) (t : table) : Prop := match t_rows t with Some vs => Z.of_nat (List.length vs) <= M | None => True end.
(** No more rows than the last row of the cells or the row the parser has come to *)
Definition rowcap (k : Z) (t : table) : Prop := forall M, k <= M -> 0 <= M -> low M (t_grid t) -> within M t.

Lemma upd_nth_length {A} (f : A -> A) l : forall n, List.length (upd_nth l n f) = List.length l.
Proof. induction l as [|a l IH]; intros [|n]; cbn; auto. Qed.
Lemma py_upd_length {A} (l : list A) i f l' : py_upd l i f = Ok l' -> List.length l' = List.length l.
Proof. unfold py_upd. destruct (py_index l i); [|discriminate]. intros [= <-]. apply upd_nth_length. Qed.
Lemma adopt_at_length ax c ps : forall vs vs', adopt_at ax c ps vs = Ok vs' -> List.length vs' = List.length vs.
Proof.
  induction ps as [|p ps IH]; intros vs vs'; cbn [adopt_at]; [congruence|]. destruct (py_upd vs _ _) as [vs1|] eqn:E; cbn [rbind]; [|discriminate].
  intros H. rewrite (IH _ _ H). exact (py_upd_length _ _ _ _ E).
Qed.
Lemma adopt_within M c vs vs' : vl_adopt Rows c vs = Ok vs' -> cy (bmax (c_box c)) <= M -> Z.of_nat (List.length vs) <= M -> Z.of_nat (List.length vs') <= M.
Proof. unfold vl_adopt. intros E H1 H2. rewrite (adopt_at_length _ _ _ _ _ E), fit_length_false. cbn [ax_hi]. lia. Qed.
Lemma adopt_all_within M cs : forall vs vs', vl_adopt_all Rows cs vs = Ok vs' -> low M cs -> Z.of_nat (List.length vs) <= M -> Z.of_nat (List.length vs') <= M.
Proof.
  induction cs as [|c cs IH]; intros vs vs'; cbn [vl_adopt_all]; [congruence|]. destruct (vl_adopt Rows c vs) as [vs1|] eqn:E; cbn [rbind]; [|discriminate].
  intros H HL Hvs. apply (IH _ _ H); [intros d Hd; apply HL; right; exact Hd|]. apply (adopt_within M c vs _ E); [apply HL; left; reflexivity|exact Hvs].
Qed.
Lemma refresh_within M g vs vs' : all_valid g -> 0 <= M -> low M g -> vl_refresh Rows g vs = Ok vs' -> Z.of_nat (List.length vs') <= M.
Proof.
  intros HV HM HL. unfold vl_refresh. destruct (grid_bounding_box g) as [[bb|]|] eqn:Eb; cbn [rbind]; [|intros [= <-]; cbn; lia|discriminate].
  intros E. apply (adopt_all_within M g _ _ E HL). rewrite map_length. cbn [ax_hi]. destruct (bounding_box_least g bb HV Eb) as (Vb & Hin & Hl).
  rewrite fit_length_true by (unfold valid in Vb; lia).
  assert (Hs : subarea bb (MkBox (Coord 1 1) (Coord (cx (bmax bb)) (Z.max 1 M)))).
  { apply Hl; [unfold valid in *; cbn; lia|]. intros c Hc k Hk. specialize (HL c Hc). specialize (Hin c Hc k Hk).
    assert (V : valid (c_box c)) by (unfold all_valid in HV; rewrite Forall_forall in HV; exact (HV c Hc)). unfold covers, valid in *. cbn. lia. }
  specialize (Hs (bmax bb) ltac:(unfold covers, valid in *; lia)). unfold covers in Hs. cbn in Hs.
  destruct (Z.eq_dec M 0) as [->|]; [|lia]. exfalso. destruct g as [|c g].
  - unfold grid_bounding_box in Eb. discriminate.
  - assert (Hc : In c (c :: g)) by (left; reflexivity). specialize (HL c Hc).
    assert (V : valid (c_box c)) by (unfold all_valid in HV; rewrite Forall_forall in HV; exact (HV c Hc)). unfold valid in V. lia.
Qed.

Lemma reach_valid t : treachable t -> all_valid (t_grid t).
Proof. intros H. destruct (treachable_tinv t H) as (o & HS & HM). apply HM. Qed.

(** Reading rows *)
Lemma views_grid ax t : t_grid (fst (views_get ax t)) = t_grid t.
Proof.
  unfold views_get, sbind, sget. destruct (t_views ax t); [reflexivity|]. unfold slift. destruct (vl_refresh ax (t_grid t) []); [|reflexivity].
  destruct ax; reflexivity.
Qed.
Lemma view_grid ax p t : t_grid (fst (view_get ax p t)) = t_grid t.
Proof.
  unfold view_get, sbind. pose proof (views_grid ax t) as G. destruct (views_get ax t) as [t1 [vs|e]]; cbn [fst] in *; [|exact G].
  unfold views_put, sbind, sget, sput, slift. destruct (py_nth _ _), ax; exact G.
Qed.
Lemma modify_grid ax p f t : t_grid (fst (view_modify ax p f t)) = t_grid t.
Proof.
  unfold view_modify, sbind. pose proof (view_grid ax p t) as G. destruct (view_get ax p t) as [t1 [v|e]]; cbn [fst] in *; [|exact G].
  pose proof (views_grid ax t1) as G1. destruct (views_get ax t1) as [t2 [vs|e]]; cbn [fst] in *; [|congruence].
  unfold slift. destruct (py_upd vs (p - 1) f); [|cbn; congruence]. unfold views_put, sbind, sget, sput. destruct ax; cbn; congruence.
Qed.
Lemma views_rows M t : all_valid (t_grid t) -> 0 <= M -> low M (t_grid t) -> within M t ->
  t_grid (fst (views_get Rows t)) = t_grid t /\ within M (fst (views_get Rows t)) /\
  forall vs, snd (views_get Rows t) = Ok vs -> Z.of_nat (List.length vs) <= M.
Proof.
  intros HV HM HL HW. unfold views_get, sbind, sget. cbn [t_views]. unfold within in *. destruct (t_rows t) as [vs|] eqn:Er.
  - cbn. rewrite Er. split; [reflexivity|]. split; [exact HW|]. intros ? [= <-]. exact HW.
  - unfold slift. destruct (vl_refresh Rows (t_grid t) []) as [vs|e] eqn:E; cbn.
    + pose proof (refresh_within M _ _ _ HV HM HL E). split; [reflexivity|]. split; [assumption|]. intros ? [= <-]. assumption.
    + rewrite Er. split; [reflexivity|]. split; [exact I|discriminate].
Qed.
Lemma view_rows M p t : all_valid (t_grid t) -> 0 <= M -> p <= M -> low M (t_grid t) -> within M t ->
  t_grid (fst (view_get Rows p t)) = t_grid t /\ within M (fst (view_get Rows p t)).
Proof.
  intros HV HM Hp HL HW. destruct (views_rows M t HV HM HL HW) as (G & W & L). unfold view_get, sbind.
  destruct (views_get Rows t) as [t1 [vs|e]]; cbn [fst snd] in *; [|auto]. specialize (L vs eq_refl).
  assert (Hf : Z.of_nat (List.length (fit_to_size p false vs)) <= M) by (rewrite fit_length_false; lia).
  unfold views_put, sbind, sget, sput, slift. unfold within. destruct (py_nth _ _); cbn [fst t_set_views t_grid t_rows]; split; assumption.
Qed.
Lemma modify_rows M p f t : all_valid (t_grid t) -> 0 <= M -> p <= M -> low M (t_grid t) -> within M t ->
  t_grid (fst (view_modify Rows p f t)) = t_grid t /\ within M (fst (view_modify Rows p f t)).
Proof.
  intros HV HM Hp HL HW. destruct (view_rows M p t HV HM Hp HL HW) as [G W]. unfold view_modify, sbind.
  destruct (view_get Rows p t) as [t1 [v|e]]; cbn [fst snd] in *; [|auto].
  destruct (views_rows M t1) as (G2 & W2 & L2); [rewrite G; exact HV|exact HM|rewrite G; exact HL|exact W|].
  destruct (views_get Rows t1) as [t2 [vs|e]]; cbn [fst snd] in *; [|split; [congruence|assumption]]. specialize (L2 vs eq_refl). unfold slift.
  destruct (py_upd vs (p - 1) f) as [vs'|e] eqn:Eu; cbn; [|split; [congruence|assumption]]. split; [congruence|]. unfold within. cbn.
  rewrite (py_upd_length _ _ _ _ Eu). exact L2.
Qed.
Lemma views_cols t : t_grid (fst (views_get Cols t)) = t_grid t /\ t_rows (fst (views_get Cols t)) = t_rows t.
Proof.
  unfold views_get, sbind, sget. cbn [t_views]. destruct (t_cols t) as [vs|]; [split; reflexivity|]. unfold slift.
  destruct (vl_refresh Cols (t_grid t) []); split; reflexivity.
Qed.
Lemma view_cols p t : t_grid (fst (view_get Cols p t)) = t_grid t /\ t_rows (fst (view_get Cols p t)) = t_rows t.
Proof.
  unfold view_get, sbind. destruct (views_cols t) as [G R]. destruct (views_get Cols t) as [t1 [vs|e]]; cbn [fst] in *; [|auto]. cbn. auto.
Qed.
Lemma modify_cols p f t : t_grid (fst (view_modify Cols p f t)) = t_grid t /\ t_rows (fst (view_modify Cols p f t)) = t_rows t.
Proof.
  unfold view_modify, sbind. destruct (view_cols p t) as [G R]. destruct (view_get Cols p t) as [t1 [v|e]]; cbn [fst] in *; [|auto].
  destruct (views_cols t1) as [G1 R1]. destruct (views_get Cols t1) as [t2 [vs|e]]; cbn [fst] in *; [|split; congruence]. unfold slift.
  destruct (py_upd vs (p - 1) f); cbn; split; congruence.
Qed.

(** Adding cells *)
Lemma refresh_cell_within M c t : all_valid (t_grid t) -> 0 <= M -> low M (t_grid t) -> cy (bmax (c_box c)) <= M -> within M t -> within M (fst (refresh_cell c t)).
Proof.
  intros HV HM HL Hc HW. destruct (views_rows M t HV HM HL HW) as (G & W & L). unfold refresh_cell, sbind.
  destruct (views_get Rows t) as [t1 [vs|e]]; cbn [fst snd] in *; [|exact W]. specialize (L vs eq_refl). unfold slift.
  destruct (vl_adopt Rows c vs) as [vs'|e] eqn:E; [|exact W]. pose proof (adopt_within M c vs vs' E Hc L) as L'. cbn [views_put sbind sget sput].
  match goal with |- context [views_get Cols ?x] => destruct (views_cols x) as [G2 R2]; destruct (views_get Cols x) as [t2 [cs|e]] end; cbn [fst] in *.
  - destruct (vl_adopt Cols c cs) as [cs'|e]; cbn; unfold within; cbn; rewrite R2; exact L'.
  - unfold within. rewrite R2. exact L'.
Qed.
Lemma set_within M v c t : treachable t -> 0 <= M -> (low M (t_grid t) -> within M t) ->
  low M (t_grid (fst (table_setitem v c t))) -> low M (t_grid t) /\ within M (fst (table_setitem v c t)).
Proof.
  intros HR HM HW HL. destruct (treachable_tinv t HR) as (o & HS & HI). cbn in HI.
  destruct (table_setitem_st v c t _ o HS (proj1 HI)) as [(e & _ & E)|(g' & c' & t1 & Eg & Hget & HP & HI' & E & HS')]; rewrite E in *; cbn [fst] in *.
  - split; [exact HL|]. apply HW, HL.
  - rewrite (proj1 HS') in HL. assert (HL0 : low M (t_grid t)).
    { intros d Hd. apply HL. apply (Permutation_in _ (Permutation_sym HP)). right. exact Hd. }
    split; [exact HL0|]. unfold table_setitem, sbind, on_grid, sget, slift in E. rewrite Eg in E. cbn [t_grid] in E. rewrite Hget in E.
    replace t1 with (fst (refresh_cell c' (MkTable g' (t_rows t) (t_cols t) (t_styles t) (t_nature t)))) by (rewrite E; reflexivity).
    apply refresh_cell_within; [apply HI'|exact HM|exact HL| |].
    + apply HL. apply (Permutation_in _ (Permutation_sym HP)). left. reflexivity.
    + exact (HW HL0).
Qed.
Lemma set_reach v c t : treachable t -> treachable (fst (table_setitem v c t)).
Proof. exact (treach_step t (TSet v c)). Qed.
Lemma fill_one_within M ct s na p t : treachable t -> 0 <= M -> (low M (t_grid t) -> within M t) ->
  treachable (fst (fill_one ct s na p t)) /\
  (low M (t_grid (fst (fill_one ct s na p t))) -> low M (t_grid t) /\ within M (fst (fill_one ct s na p t))).
Proof.
  intros HR HM HW. unfold fill_one, sbind, sget, slift.
  destruct (table_contains t _) as [[|]|e]; cbn [fst]; [split; [exact HR|auto]| |split; [exact HR|auto]].
  destruct (cell_new _ _ _ _ _ _ _) as [c|e]; [|split; [exact HR|auto]]. split; [apply set_reach, HR|apply set_within; assumption].
Qed.
Lemma fill_within M bb ct s na t : treachable t -> 0 <= M -> (low M (t_grid t) -> within M t) ->
  low M (t_grid (fst (table_fill_missing bb ct s na t))) -> within M (fst (table_fill_missing bb ct s na t)).
Proof.
  intros HR HM HW HL. enough (H : low M (t_grid t) /\ within M (fst (table_fill_missing bb ct s na t))) by apply H.
  unfold table_fill_missing in *. revert t HR HW HL. generalize (fill_positions bb) as ps. induction ps as [|p ps IH]; intros t HR HW HL.
  - cbn in *. auto.
  - cbn [siter] in *. unfold sbind in *. destruct (fill_one_within M ct s na p t HR HM HW) as [HR1 HF]. destruct (fill_one ct s na p t) as [t1 [[]|e]]; cbn [fst] in *.
    + destruct (IH t1 HR1 (fun L => proj2 (HF L)) HL) as [L1 W1]. split; [apply HF, L1|exact W1].
    + apply HF, HL.
Qed.
Lemma expand_within M v w h a t : treachable t -> 0 <= M -> (low M (t_grid t) -> within M t) ->
  low M (t_grid (fst (table_expand v w h a t))) -> within M (fst (table_expand v w h a t)).
Proof.
  intros HR HM HW HL. destruct (treachable_tinv t HR) as (o & HS & HI). cbn in HI.
  destruct (table_expand_st v w h a t _ o HS (proj1 HI)) as [(x & _ & E)|(g' & r & t' & Eg & HI' & E & HS')]; rewrite E in *; cbn [fst] in *; [apply HW, HL|].
  rewrite (proj1 HS') in HL. unfold table_expand, sbind, on_grid in E. rewrite Eg in E.
  revert E. unfold refresh_all, sbind, slift, sget. set (t0 := MkTable g' _ _ _ _).
  assert (G0 : t_grid (fst (views_get Rows t0)) = g').
  { unfold views_get, sbind, sget. cbn [t_views]. destruct (t_rows t0); [reflexivity|]. unfold slift. destruct (vl_refresh Rows (t_grid t0) []); reflexivity. }
  destruct (views_get Rows t0) as [t1 [rs|e]]; cbn [fst] in G0; [|discriminate]. rewrite G0.
  destruct (vl_refresh Rows g' rs) as [rs'|e] eqn:Er; [|discriminate]. cbn [views_put sbind sget sput].
  pose proof (refresh_within M g' rs rs' (proj1 HI') HM HL Er) as L.
  unfold views_put, sbind, sget, sput.
  match goal with |- context [views_get Cols ?x] => destruct (views_cols x) as [G2 R2]; destruct (views_get Cols x) as [t2 [cs|e]] end; cbn [fst] in *; [|discriminate].
  destruct (vl_refresh Cols _ cs) as [cs'|e]; [|discriminate]. intros [= <-]. unfold within. cbn. rewrite R2. exact L.
Qed.
Lemma insert_within M p ct s na w h t : treachable t -> 0 <= M -> p <= M -> (low M (t_grid t) -> within M t) ->
  low M (t_grid (fst (insert_cell Rows p ct s na w h t))) -> within M (fst (insert_cell Rows p ct s na w h t)).
Proof.
  intros HR HM Hp HW. unfold insert_cell, sbind.
  assert (HR1 : treachable (fst (view_get Rows p t))) by (rewrite <- unit_of_state; exact (treach_step t (TReadView Rows p) HR)).
  assert (G1 : t_grid (fst (view_get Rows p t)) = t_grid t).
  { unfold view_get, sbind. assert (t_grid (fst (views_get Rows t)) = t_grid t).
    { unfold views_get, sbind, sget. cbn [t_views]. destruct (t_rows t); [reflexivity|]. unfold slift. destruct (vl_refresh Rows (t_grid t) []); reflexivity. }
    destruct (views_get Rows t) as [t1 [vs|e]]; exact H. }
  assert (W1 : low M (t_grid t) -> within M (fst (view_get Rows p t))).
  { intros L. apply view_rows; auto. apply reach_valid, HR. }
  destruct (view_get Rows p t) as [t1 [v|e]]; cbn [fst] in *; [|rewrite G1; exact W1]. unfold slift.
  destruct (next_free Rows v) as [i|e]; [|cbn; rewrite G1; exact W1]. cbv zeta.
  destruct (cell_new _ _ _ _ _ _ _) as [c|e]; [|cbn; rewrite G1; exact W1].
  intros L. apply set_within in L; [apply L|exact HR1|exact HM|]. rewrite G1. exact W1.
Qed.

Lemma rowcap_closed : closed (fun k t => treachable t /\ rowcap k t).
Proof.
  split.
  - intros k k' t Hk [HR H]. split; [exact HR|]. intros M HM. apply H. lia.
  - intros st na t E. split; [apply (cl_new _ treachable_closed st na t E)|]. intros M _ _ _. cbn in E. injection E as <-. exact I.
  - intros k t s na [HR H]. split; [apply (cl_restyle _ treachable_closed 0), HR|exact H].
  - intros k op t Hop [HR H]. split; [constructor; exact HR|]. intros M HM H0.
    assert (HW : low M (t_grid t) -> within M t) by (apply H; assumption). pose proof (reach_valid t HR) as HV.
    destruct op; try destruct ax; cbn in Hop; try contradiction; cbn [tstep].
    + apply expand_within; assumption.
    + apply insert_within; auto. lia.
    + rewrite unit_of_state. destruct (views_cols t) as [G R]. unfold within. rewrite G, R. exact HW.
    + rewrite unit_of_state, view_grid. intros L. apply view_rows; auto. lia.
    + unfold view_set_nature. rewrite modify_grid. intros L. apply modify_rows; auto. lia.
    + unfold view_set_styles. rewrite modify_grid. intros L. apply modify_rows; auto. lia.
    + unfold view_update_styles. rewrite modify_grid. intros L. specialize (Hop eq_refl). apply modify_rows; auto. lia.
    + unfold view_update_styles. rewrite modify_grid. intros L. unfold within. rewrite (proj2 (modify_cols _ _ _)). apply HW, L.
  - intros k r n q bb t Eb Hq [HR H]. split; [apply (cl_row _ treachable_closed k r n q bb t Eb Hq HR)|]. intros M HM H0.
    assert (HW : low M (t_grid t) -> within M t) by (apply H; assumption). unfold sbind.
    assert (HR1 : treachable (fst (view_get Rows q t))) by (rewrite <- unit_of_state; exact (treach_step t (TReadView Rows q) HR)).
    pose proof (view_grid Rows q t) as G.
    assert (W1 : low M (t_grid t) -> within M (fst (view_get Rows q t))) by (intros L; apply view_rows; auto; [apply reach_valid, HR|lia]).
    destruct (view_get Rows q t) as [t1 [v|e]]; cbn [fst] in *; [|rewrite G; exact W1]. apply fill_within; auto. rewrite G. exact W1.
  - intros k t [HR H]. split; [apply (cl_end _ treachable_closed k t HR)|]. intros M HM H0.
    assert (HW : low M (t_grid t) -> within M t) by (apply H; assumption). unfold sbind, sget, slift.
    destruct (table_bounding_box t) as [[bb|]|e]; cbn [fst sraise]; [|exact HW|exact HW]. apply fill_within; assumption.
Qed.

(** The number of rows *)
Lemma rowcap_count k t m : treachable t -> rowcap k t -> k <= m -> 0 <= m ->
  (forall c, In c (table_iter t) -> cy (bmax (c_box c)) <= m) -> (m = 0 \/ exists c, In c (table_iter t) /\ cy (bmax (c_box c)) = m) -> view_count Rows t m.
Proof.
  intros HR HC Hk Hm HL Hex. destruct (count_at_least Rows t HR) as (n & l & Hn & Hlast & Hle).
  assert (n = m); [|subst; exact Hn].
  assert (HLg : low m (t_grid t)). { intros c Hc. apply HL. exact Hc. }
  destruct Hn as (vs & Evs & ->).
  pose proof (views_rows m t (reach_valid t HR) Hm HLg (HC m Hk Hm HLg)) as (_ & _ & L). specialize (L vs Evs).
  assert (m <= l); [|lia]. destruct Hex as [->|(c & Hc & E)].
  - destruct Hlast as [[_ ->]|(bb & Eb & ->)]; [lia|]. destruct (bounding_box_least _ _ (reach_valid t HR) Eb) as (V & _). unfold valid in V. lia.
  - destruct Hlast as [[Eg _]|(bb & Eb & ->)]; [unfold table_iter in Hc; rewrite Eg in Hc; destruct Hc|].
    destruct (bounding_box_least _ _ (reach_valid t HR) Eb) as (_ & Hin & _). 
    assert (Hg : In c (t_grid t)) by exact Hc. specialize (Hin c Hg (bmax (c_box c))).
    assert (V : valid (c_box c)) by (pose proof (reach_valid t HR) as HV; unfold all_valid in HV; rewrite Forall_forall in HV; exact (HV c Hg)).
    unfold covers, valid in *. lia.
Qed.

(** ** The row at the end: CALS and Formex *)
Lemma cals_rowcap o e t k : ends_at o e t k -> treachable t /\ rowcap k t /\ 0 <= k.
Proof.
  intros (s & E & Et & <-). destruct (cals_run_closed _ rowcap_closed o _ s E) as (H0 & _ & H). rewrite Et in H. destruct H. auto.
Qed.
Lemma formex_rowcap o parent b bef e t k : fends_at o parent b bef e t k -> treachable t /\ rowcap k t /\ 0 <= k.
Proof.
  intros (s & E & Et & <-). destruct (formex_run_closed _ rowcap_closed o _ s E) as (H0 & _ & H). rewrite Et in H. destruct H. auto.
Qed.

(** ** Word *)
Section Word.
  Variable o : ooxml_opts.
  Definition still {A} (m : SM pstate A) : Prop := forall s, ps_row_pos (fst (m s)) = ps_row_pos s.
  Lemma still_bind {A B} (m : SM pstate A) (f : A -> SM pstate B) : still m -> (forall a, still (f a)) -> still (sbind m f).
  Proof. intros Hm Hf s. unfold sbind. specialize (Hm s). destruct (m s) as [s' [a|e]]; cbn [fst] in *; [rewrite Hf|]; exact Hm. Qed.
  Lemma still_same {A} (m : SM pstate A) : (forall s, fst (m s) = s) -> still m.
  Proof. intros H s. rewrite H. reflexivity. Qed.
  Lemma still_lift {A} (r : result A) : still (slift r). Proof. apply still_same. intros s. destruct r; reflexivity. Qed.
  Lemma still_table {A} (m : SM table A) : still (on_table m).
  Proof. intros s. unfold on_table. destruct (ps_table s) as [t|]; [|reflexivity]. destruct (m t) as [t' r]. reflexivity. Qed.
  Lemma still_get : still sget. Proof. apply still_same. reflexivity. Qed.
  Lemma still_raise {A} x : still (sraise x : SM pstate A). Proof. apply still_same. reflexivity. Qed.
  Lemma still_modify f : (forall s, ps_row_pos (f s) = ps_row_pos s) -> still (smodify f).
  Proof. intros H s. rewrite smodify_eq. apply H. Qed.
  Ltac still := repeat first [apply still_lift|apply still_table|apply still_get|apply still_raise|apply still_modify; reflexivity|apply still_bind; [|intros ?]].
  Lemma still_grid_col e : still (parse_grid_col o e). Proof. unfold parse_grid_col. still. Qed.
  Lemma still_tr e : still (parse_tr o e). Proof. unfold parse_tr. still. Qed.
  Lemma still_put e w : still (put_tc o e w). Proof. unfold put_tc. still. destruct (ps_row _); still. Qed.
  Lemma still_tc e : still (parse_tc o e).
  Proof.
    unfold parse_tc. still. destruct (tc_merge e) as [m|]; [|apply still_put]. destruct (String.eqb _ _); [still; destruct (ps_row _); still|].
    destruct (String.eqb _ _); [apply still_put|still].
  Qed.
  Lemma still_end_row : still end_row.
  Proof. unfold end_row. still. destruct (ps_row _); still. Qed.
  Lemma still_cols cols : still (cols_run o cols).
  Proof. induction cols as [|n cols IH]; intros s; [reflexivity|]. cbn [cols_run]. rewrite (still_bind _ _ (still_grid_col n) (fun _ => IH)). reflexivity. Qed.
  Lemma still_cells cells : still (cells_run o cells).
  Proof. induction cells as [|n cells IH]; intros s; [reflexivity|]. cbn [cells_run]. rewrite (still_bind _ _ (still_tc n) (fun _ => IH)). reflexivity. Qed.
  Lemma still_row n : still (row_run o n).
  Proof. unfold row_run. apply still_bind; [apply still_tr|]. intros _. apply still_bind; [apply still_cells|]. intros _. apply still_end_row. Qed.
  Lemma rows_pos trs : forall s s', rows_run o trs s = (s', Ok tt) -> ps_row_pos s' = ps_row_pos s + Z.of_nat (List.length trs).
  Proof.
    induction trs as [|n trs IH]; intros s s' E; [cbn in E; injection E as <-; cbn [List.length]; lia|]. cbn [rows_run] in E. unfold sbind in E.
    pose proof (still_row n (next_row s)) as H. destruct (row_run o n (next_row s)) as [s1 [[]|e]]; [|discriminate]. cbn [fst] in H.
    rewrite (IH _ _ E), H. cbn [next_row ps_row_pos List.length]. lia.
  Qed.

  Notation P := (fun k t => treachable t /\ rowcap k t).
  Notation tidy := (tidy P).
  Lemma tidy_at {A} (m : SM pstate A) (f : pstate -> pstate) k : tidy k (smodify f) -> tidy k m -> tidy k (fun s => m (f s)).
  Proof.
    intros Hf Hm s Hk Hs. destruct (Hf s Hk Hs) as [H1 H2]. rewrite smodify_eq in H1, H2. cbn [fst] in *.
    destruct (Hm (f s) ltac:(lia) H2) as [H3 H4]. split; [lia|exact H4].
  Qed.
  Lemma tidy_next_col k : tidy k (smodify next_col).
  Proof. apply tidy_modify. intros s. split; [|split]; reflexivity. Qed.
  Lemma tidy_cols cols k : tidy k (cols_run o cols).
  Proof.
    induction cols as [|n cols IH]; cbn [cols_run]; [apply tidy_ret|]. apply (tidy_at (parse_grid_col o n ;;; cols_run o cols) next_col k (tidy_next_col k)).
    apply tidy_bind; [apply (tidy_grid_col _ rowcap_closed)|]. intros _. exact IH.
  Qed.
  Lemma tidy_cells cells k : tidy k (cells_run o cells).
  Proof.
    induction cells as [|n cells IH]; cbn [cells_run]; [apply tidy_ret|]. apply (tidy_at (parse_tc o n ;;; cells_run o cells) next_col k (tidy_next_col k)).
    apply tidy_bind; [apply (tidy_tc _ rowcap_closed)|]. intros _. exact IH.
  Qed.
  Lemma tidy_rows trs k : tidy k (rows_run o trs).
  Proof.
    induction trs as [|n trs IH]; cbn [rows_run]; [apply tidy_ret|]. apply (tidy_at (row_run o n ;;; rows_run o trs) next_row k (tidy_next _ rowcap_closed k)).
    apply tidy_bind; [|intros _; exact IH]. unfold row_run. apply tidy_bind; [apply (tidy_tr _ rowcap_closed)|]. intros _.
    apply tidy_bind; [apply tidy_cells|]. intros _. apply (tidy_end_row _ rowcap_closed).
  Qed.
  Lemma word_rowcap sect tbl cols trs t : S_Ooxml.word_table tbl cols trs -> ox_parse_table o sect tbl = Ok t ->
    treachable t /\ rowcap (Z.of_nat (List.length trs)) t.
  Proof.
    intros HW. rewrite (parse_word_table o sect tbl cols trs HW). destruct (tbl_styles o sect tbl) as [st|e]; [|discriminate]. cbn [rbind].
    set (s0 := MkPState 1 0 0 None _).
    assert (N0 : neat P s0).
    { split; [cbn; lia|]. split; [discriminate|]. apply (cl_new _ rowcap_closed (Some st) (tbl_style_id tbl)). reflexivity. }
    pose proof (still_cols cols s0) as E1. destruct (tidy_cols cols 0 s0 ltac:(cbn; lia) N0) as [_ N1]. unfold sbind.
    destruct (cols_run o cols s0) as [s1 [[]|e]]; [|discriminate]. cbn [fst] in *. destruct (tidy_rows trs 0 s1 ltac:(rewrite E1; cbn; lia) N1) as [_ N2].
    destruct (rows_run o trs s1) as [s2 [[]|e]] eqn:E2; [|discriminate]. cbn [fst rbind] in *. destruct N2 as (_ & _ & N2).
    rewrite (rows_pos _ _ _ E2), E1 in N2. destruct (ps_table s2); [|discriminate]. intros [= <-]. exact N2.
  Qed.
End Word.
