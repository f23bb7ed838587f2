(** * The tables made by the parsers: their rows list each cell once, from left to right *)
From Coq Require Import QArith.
From Verif Require Import Base M_Geometry M_Xml M_Cell M_Grid M_Table M_Str M_Units M_Cals M_CalsParser M_FormexParser M_FormexRead M_Ooxml.
From Verif Require Import S_Geometry S_Grid S_Table S_Units S_Cals S_Int S_CalsParser S_RoundTrip.
From Verif Require Import P_Geometry P_Grid P_GridFacts P_Table P_TableStep P_TableFacts P_TableRefine P_TableMore P_Cals P_CalsParser P_CalsSim P_CalsTable.
Open Scope list_scope.
Open Scope Z_scope.

(** Either the rows have been read, or there is no cell yet. *)
Definition rowed (t : table) : Prop := exists o, rw t o.
Definition blank (t : table) : Prop := exists o, tinv t o /\ fst o = None /\ t_grid t = [].
Definition fit (t : table) : Prop := rowed t \/ blank t.
Definition fits {A} (m : SM table A) : Prop := forall t, fit t -> fit (fst (m t)).
Definition rows_it {A} (m : SM table A) : Prop := forall t, fit t -> rowed (fst (m t)).

Lemma blank_rows t t' : blank t -> (forall o, st t (t_grid t) o -> st t' (t_grid t) (ghost_set Rows (seen (ghost_of Rows o) (t_grid t)) o)) -> rowed t'.
Proof.
  intros (o & [HS HM] & Eo & Eg) H. specialize (H o HS). pose proof (proj1 H) as Eg'. exists (ghost_set Rows (seen (ghost_of Rows o) (t_grid t)) o).
  split; [|split].
  - split; rewrite Eg'; [exact H|]. eapply gt_mem_inv; [apply gt_read|exact HM].
  - rewrite Eg', Eg. intros c x [].
  - exists []. cbn. rewrite Eo, Eg. split; [reflexivity|constructor].
Qed.
Lemma blank_cols t t' : blank t -> (forall o, st t (t_grid t) o -> st t' (t_grid t) (ghost_set Cols (seen (ghost_of Cols o) (t_grid t)) o)) -> blank t'.
Proof.
  intros (o & [HS HM] & Eo & Eg) H. specialize (H o HS). pose proof (proj1 H) as Eg'. exists (ghost_set Cols (seen (ghost_of Cols o) (t_grid t)) o).
  split; [|split; [exact Eo|congruence]].
  split; rewrite Eg'; [exact H|]. eapply gt_mem_inv; [apply gt_read|exact HM].
Qed.
Lemma fit_valid t : fit t -> all_valid (t_grid t) /\ exists o, tinv t o.
Proof. intros [(o & (HS & HM) & _)|(o & (HS & HM) & _)]; (split; [apply HM|exists o; split; assumption]). Qed.

(** Reading a row *)
Lemma rows_read t p : fit t -> rowed (fst (view_get Rows p t)).
Proof.
  intros [(o & HR)|HB].
  - rewrite <- unit_of_state. apply (rw_step (TReadView Rows p) t o HR I). discriminate.
  - assert (HV : all_valid (t_grid t)) by (apply fit_valid; right; exact HB). apply (blank_rows t _ HB). intros o HS.
    destruct (view_get_st Rows p t _ o HS HV) as (t' & vs & HS' & _ & _ & _ & E). rewrite E. exact HS'.
Qed.
Lemma fit_cols t : fit t -> fit (fst (views_get Cols t)).
Proof.
  intros [(o & HR)|HB].
  - left. rewrite <- unit_of_state. apply (rw_step (TReadViews Cols) t o HR I). discriminate.
  - assert (HV : all_valid (t_grid t)) by (apply fit_valid; right; exact HB). right. apply (blank_cols t _ HB). intros o HS.
    destruct (views_get_st Cols t _ o HS HV) as (t' & vs & E & HS' & _). rewrite E. exact HS'.
Qed.
Lemma rows_modify p f : (forall v, v_pos (f v) = v_pos v /\ v_owned (f v) = v_owned v /\ v_caught (f v) = v_caught v) ->
  rows_it (view_modify Rows p f).
Proof.
  intros Hf t [(o & HR)|HB].
  - pose proof HR as ([HS HM] & _). destruct (view_modify_st Rows p f t (t_grid t) o Hf HS (proj1 (proj1 HM))) as [HS' _].
    eexists. apply (rw_read Rows t _ o HR HS').
  - assert (HV : all_valid (t_grid t)) by (apply fit_valid; right; exact HB). apply (blank_rows t _ HB). intros o HS.
    apply (view_modify_st Rows p f t (t_grid t) o Hf HS HV).
Qed.
Lemma fits_modify p f : (forall v, v_pos (f v) = v_pos v /\ v_owned (f v) = v_owned v /\ v_caught (f v) = v_caught v) ->
  fits (view_modify Cols p f).
Proof.
  intros Hf t [(o & HR)|HB].
  - left. pose proof HR as ([HS HM] & _). destruct (view_modify_st Cols p f t (t_grid t) o Hf HS (proj1 (proj1 HM))) as [HS' _].
    eexists. apply (rw_read Cols t _ o HR HS').
  - assert (HV : all_valid (t_grid t)) by (apply fit_valid; right; exact HB). right. apply (blank_cols t _ HB). intros o HS.
    apply (view_modify_st Cols p f t (t_grid t) o Hf HS HV).
Qed.
Lemma rows_it_fits {A} (m : SM table A) : rows_it m -> fits m.
Proof. intros H t Ht. left. apply H, Ht. Qed.
Lemma fits_read p : fits (view_get Rows p).
Proof. apply rows_it_fits. intros t. apply rows_read. Qed.
Lemma fits_views : fits (views_get Cols).
Proof. exact fit_cols. Qed.

(** Adding cells *)
Lemma rowed_step op t : rowed t -> row_wise op -> (forall bb ct s na, op = TFill bb ct s na -> valid bb) -> rowed (fst (tstep op t)).
Proof. intros (o & HR) H1 H2. exact (rw_step op t o HR H1 H2). Qed.
Lemma rows_insert p ct s na w hh : rows_it (insert_cell Rows p ct s na w hh).
Proof.
  intros t Ht. assert (H0 : exists o, tinv t o /\ packed (t_grid t) /\ match fst o with Some h => ordered h | None => t_grid t = [] end).
  { destruct Ht as [(o & HT & HP & h & Eh & HO)|(o & HT & Eo & Eg)]; exists o; (split; [exact HT|]).
    - rewrite Eh. auto.
    - rewrite Eo. split; [|exact Eg]. rewrite Eg. intros c x []. }
  destruct H0 as (o & [HS HM] & HPk & Ho).
  destruct (insert_cell_st Rows p ct s na w hh t _ o HS (proj1 HM) (seen_mem Rows (t_grid t, o) HM)) as (t1 & HS1 & H).
  assert (HR1 : rw t1 (ghost_set Rows (seen (ghost_of Rows o) (t_grid t)) o)).
  { pose proof (proj1 HS1) as Eg. split; [|split].
    - split; rewrite Eg; [exact HS1|]. eapply gt_mem_inv; [apply gt_read|exact HM].
    - rewrite Eg. exact HPk.
    - eexists. split; [reflexivity|]. cbn [ghost_of]. destruct (fst o) as [h|]; cbn [seen]; [exact Ho|]. rewrite Ho. constructor. }
  destruct H as [(_ & _ & E)|(q & i & v & _ & _ & Hq & Hi & _ & Hf & Hl & [(_ & E)|(Hw & Hh & E)])]; rewrite E; cbn [fst]; [eexists; exact HR1|eexists; exact HR1|].
  set (c := MkCell ct (styles_of s) (inherit na (v_nature v)) (pinned Rows q i w hh)).
  destruct (table_setitem_st (PCoord (at_pos Rows q i)) c t1 _ _ HS1 (proj1 HM))
    as [(e & _ & Et)|(g' & c' & t' & Ee & Hget & HP & HI' & Et & HS')]; rewrite Et; cbn [fst]; [eexists; exact HR1|].
  assert (Ec : c' = c).
  { apply (setitem_same (PCoord (at_pos Rows q i)) c (t_grid t) g' c' (proj1 HM) Ee Hget). constructor. }
  subst c'. eexists. eapply (rw_set _ c (t_grid t) g' c t1 t'); eauto. exact (proj1 HS1).
Qed.
Lemma fits_expand v w h a : fits (table_expand v w h a).
Proof.
  intros t [HR|(o & [HS HM] & Eo & Eg)].
  - left. apply (rowed_step (TExpand v w h a) t HR I). discriminate.
  - destruct (table_expand_st v w h a t _ o HS (proj1 HM)) as [(x & _ & E)|(g' & r & t' & Ex & _)].
    + rewrite E. right. exists o. repeat (split; [first [assumption|split; assumption]|]). exact Eg.
    + exfalso. destruct (expand_success v w h a _ g' r (proj1 HM) Ex) as (c & _ & _ & _ & Hc & _).
      rewrite Eg in Hc. revert Hc. clear. unfold grid_getitem. destruct (coord_from_value v) as [k|e]; cbn; discriminate.
Qed.
Lemma rowed_fill t bb ct s na : rowed t -> valid bb -> cx (bmin bb) = 1 -> rowed (fst (table_fill_missing bb ct s na t)).
Proof. intros H V E. apply (rowed_step (TFill bb ct s na) t H E). intros bb' ? ? ? [= <- _ _ _]. exact V. Qed.

Lemma attributes_kept_owned na : forall v, v_pos (with_nature na v) = v_pos v /\ v_owned (with_nature na v) = v_owned v /\ v_caught (with_nature na v) = v_caught v.
Proof. intros v. repeat split. Qed.
Lemma styles_kept_owned f : forall v, v_pos (with_styles (f v) v) = v_pos v /\ v_owned (with_styles (f v) v) = v_owned v /\ v_caught (with_styles (f v) v) = v_caught v.
Proof. intros v. repeat split. Qed.
Lemma packed_first g bb : all_valid g -> packed g -> bounds g bb -> g <> [] -> cx (bmin bb) = 1.
Proof.
  intros HV HP (Vb & Hsub & Hleast) Hne.
  assert (K : exists c, In c g /\ cx (bmin (c_box c)) = 1).
  { destruct g as [|c0 g0]; [congruence|]. assert (Hc0 : In c0 (c0 :: g0)) by (left; reflexivity).
    assert (V0 : valid (c_box c0)) by (unfold all_valid in HV; rewrite Forall_forall in HV; exact (HV c0 Hc0)).
    destruct (Z.eq_dec (cx (bmin (c_box c0))) 1) as [E|E]; [eauto|].
    assert (H1 : ~ free (c0 :: g0) (Coord 1 (cy (bmin (c_box c0))))) by (apply HP; [exact Hc0|unfold valid in V0; lia]).
    destruct (freeb (c0 :: g0) (Coord 1 (cy (bmin (c_box c0))))) eqn:Ef; [exfalso; apply H1, freeb_free, Ef|].
    assert (X : exists d, In d (c0 :: g0) /\ covers (c_box d) (Coord 1 (cy (bmin (c_box c0))))).
    { assert (Dec : forall l, (exists d, In d l /\ covers (c_box d) (Coord 1 (cy (bmin (c_box c0))))) \/ forall d, In d l -> ~ covers (c_box d) (Coord 1 (cy (bmin (c_box c0))))).
      { induction l as [|a l [(d & Hd & Hc)|IH]]; [right; intros d []|left; exists d; split; [right; exact Hd|exact Hc]|].
        assert (D : covers (c_box a) (Coord 1 (cy (bmin (c_box c0)))) \/ ~ covers (c_box a) (Coord 1 (cy (bmin (c_box c0))))) by (unfold covers; lia).
        destruct D as [D|D]; [left; exists a; split; [left; reflexivity|exact D]|right]. intros d [<-|Hd]; [exact D|apply IH, Hd]. }
      destruct (Dec (c0 :: g0)) as [D|D]; [exact D|exfalso; exact (H1 D)]. }
    destruct X as (d & Hd & Hc). exists d. split; [exact Hd|].
    assert (Vd : valid (c_box d)) by (unfold all_valid in HV; rewrite Forall_forall in HV; exact (HV d Hd)). unfold covers, valid in *. cbn in Hc. lia. }
  destruct K as (c & Hc & E). specialize (Hsub c Hc).
  assert (V : valid (c_box c)) by (unfold all_valid in HV; rewrite Forall_forall in HV; exact (HV c Hc)).
  specialize (Hsub (bmin (c_box c)) ltac:(unfold covers, valid in *; lia)). unfold covers, valid in *. lia.
Qed.
Lemma restyle_st t g o s na : st t g o -> st (restyle s na t) g o.
Proof. intros [Hg H]. split; [exact Hg|]. intros ax. specialize (H ax). destruct ax; exact H. Qed.
Lemma fit_restyle t s na : fit t -> fit (restyle s na t).
Proof.
  intros [(o & (HS & HM) & HP & Hh)|(o & (HS & HM) & Eo & Eg)]; [left|right]; exists o.
  - split; [split; [apply restyle_st, HS|exact HM]|]. split; [exact HP|exact Hh].
  - split; [split; [apply restyle_st, HS|exact HM]|]. split; [exact Eo|exact Eg].
Qed.

Lemma fits_row r n q bb t : box_new [PInt 1; PInt r; PInt n; PInt r] = Ok bb -> fit t ->
  fit (fst ((v <- view_get Rows q ;; table_fill_missing bb CNone None (v_nature v)) t)).
Proof.
  intros Eb Ht. unfold sbind. pose proof (rows_read t q Ht) as H. destruct (view_get Rows q t) as [t' [v|x]]; cbn [fst] in *; [|left; exact H].
  left. destruct (box_new_form_ok [PInt 1; PInt r; PInt n; PInt r] 1 r n r) as [Bok Berr]; [constructor; constructor|].
  assert (D : valid (MkBox (Coord 1 r) (Coord n r)) \/ ~ valid (MkBox (Coord 1 r) (Coord n r))) by (unfold valid; cbn; lia).
  destruct D as [V|V]; [rewrite (Bok V) in Eb; injection Eb as <-; apply rowed_fill; [exact H|exact V|reflexivity]|].
  rewrite (Berr V) in Eb; discriminate.
Qed.
Lemma fits_end : fits (t <- sget ;; bb <- slift (table_bounding_box t) ;;
    match bb with None => sraise EAttributeError | Some bb => table_fill_missing bb CNone None None end).
Proof.
  intros t Ht. unfold sbind, sget, slift. destruct (table_bounding_box t) as [[bb|]|x] eqn:Eb; cbn [fst sraise]; [|exact Ht|exact Ht].
  assert (Hne : t_grid t <> []) by (intros E; unfold table_bounding_box, grid_bounding_box in Eb; rewrite E in Eb; discriminate).
  destruct Ht as [HR|(o & _ & _ & E)]; [|congruence]. left. pose proof HR as (o & (HS & HM) & HP & _).
  assert (HV : all_valid (t_grid t)) by apply HM. pose proof (bounding_box_least _ _ HV Eb) as HB.
  apply rowed_fill; [exact HR|apply HB|]. exact (packed_first _ _ HV HP HB Hne).
Qed.
Lemma fit_new st na t : table_new [] st na = Ok t -> fit t.
Proof.
  intros E. right. destruct (table_new_st [] st na t E) as [HS HM]. exists (None, None). cbn in E. injection E as <-. cbn in *.
  repeat (split; [first [assumption|reflexivity|split; assumption]|]). reflexivity.
Qed.

(** ** A property of tables kept by all calls of the parsers

    [P k]: what holds of the table when the parser has come to the row [k]. *)
Definition parser_call (k : Z) (op : top) : Prop :=
  match op with
  | TInsert Rows p _ _ _ _ _ | TReadView Rows p | TSetNature Rows p _ | TSetStyles Rows p _ => p <= k
  | TUpdateStyles ax p _ => ax = Rows -> p <= k
  | TExpand _ _ _ _ | TReadViews Cols => True
  | _ => False
  end.
Record closed (P : Z -> table -> Prop) : Prop := {
  cl_more : forall k k' t, k <= k' -> P k t -> P k' t;
  cl_new : forall st na t, table_new [] st na = Ok t -> P 0 t;
  cl_restyle : forall k t s na, P k t -> P k (restyle s na t);
  cl_step : forall k op t, parser_call k op -> P k t -> P k (fst (tstep op t));
  cl_row : forall k r n q bb t, box_new [PInt 1; PInt r; PInt n; PInt r] = Ok bb -> q <= k -> P k t ->
    P k (fst ((v <- view_get Rows q ;; table_fill_missing bb CNone None (v_nature v)) t));
  cl_end : forall k t, P k t -> P k (fst ((t <- sget ;; bb <- slift (table_bounding_box t) ;;
    match bb with None => sraise EAttributeError | Some bb => table_fill_missing bb CNone None None end) t))
}.

Section Closed.
Variable P : Z -> table -> Prop.
Hypothesis HP : closed P.
Definition holds {A} (k : Z) (m : SM table A) : Prop := forall t, P k t -> P k (fst (m t)).
Lemma holds_bind {A B} k (m : SM table A) (f : A -> SM table B) : holds k m -> (forall a, holds k (f a)) -> holds k (sbind m f).
Proof.
  intros Hm Hf t Ht. unfold sbind. specialize (Hm t Ht). destruct (m t) as [t' [a|e]]; cbn [fst] in *; [apply Hf, Hm|exact Hm].
Qed.
Lemma holds_same {A} k (m : SM table A) : (forall t, fst (m t) = t) -> holds k m.
Proof. intros H t Ht. rewrite H. exact Ht. Qed.
Lemma holds_step k op : parser_call k op -> holds k (tstep op).
Proof. intros H t. apply (cl_step P HP k op t H). Qed.
Lemma holds_read k p : p <= k -> holds k (view_get Rows p).
Proof. intros Hp t Ht. rewrite <- unit_of_state. exact (holds_step k (TReadView Rows p) Hp t Ht). Qed.
Lemma holds_views k : holds k (views_get Cols).
Proof. intros t Ht. rewrite <- unit_of_state. exact (holds_step k (TReadViews Cols) I t Ht). Qed.

(** [tidy k m]: from the row [k] on, [m] keeps the property and does not go back. *)
Definition neat (s : pstate) : Prop :=
  0 <= ps_row_pos s /\ (forall r, ps_row s = Some r -> r <= ps_row_pos s) /\ match ps_table s with Some t => P (ps_row_pos s) t | None => True end.
Definition tidy {A} (k : Z) (m : SM pstate A) : Prop :=
  forall s, k <= ps_row_pos s -> neat s -> ps_row_pos s <= ps_row_pos (fst (m s)) /\ neat (fst (m s)).
Lemma tidy_bind {A B} k (m : SM pstate A) (f : A -> SM pstate B) : tidy k m -> (forall a, tidy k (f a)) -> tidy k (sbind m f).
Proof.
  intros Hm Hf s Hk Hs. unfold sbind. destruct (Hm s Hk Hs) as [Hm1 Hm2]. destruct (m s) as [s' [a|e]]; cbn [fst] in *; [|split; assumption].
  destruct (Hf a s' ltac:(lia) Hm2). split; [lia|assumption].
Qed.
Lemma tidy_same {A} k (m : SM pstate A) : (forall s, fst (m s) = s) -> tidy k m.
Proof. intros H s Hk Hs. rewrite H. split; [lia|exact Hs]. Qed.
Lemma tidy_read {B} k (f : pstate -> SM pstate B) :
  (forall s0, k <= ps_row_pos s0 -> (forall r, ps_row s0 = Some r -> r <= ps_row_pos s0) -> tidy (ps_row_pos s0) (f s0)) -> tidy k (sbind sget f).
Proof. intros H s Hk Hs. unfold sbind, sget. apply H; [exact Hk|apply Hs|lia|exact Hs]. Qed.
Lemma tidy_get k : tidy k sget. Proof. apply tidy_same. reflexivity. Qed.
Lemma tidy_raise {A} k x : tidy k (sraise x : SM pstate A). Proof. apply tidy_same. reflexivity. Qed.
Lemma tidy_ret {A} k (a : A) : tidy k (sret a). Proof. apply tidy_same. reflexivity. Qed.
Lemma tidy_lift {A} k (r : result A) : tidy k (slift r). Proof. apply tidy_same. intros s. destruct r; reflexivity. Qed.
Lemma tidy_modify k f : (forall s, ps_table (f s) = ps_table s /\ ps_row_pos (f s) = ps_row_pos s /\ ps_row (f s) = ps_row s) -> tidy k (smodify f).
Proof.
  intros H s Hk Hs. rewrite smodify_eq. destruct (H s) as (H1 & H2 & H3). unfold neat in *. cbn [fst]. rewrite H1, H2, H3.
  split; [lia|exact Hs].
Qed.
Ltac tidy_modify := apply tidy_modify; intros ?; split; [|split]; reflexivity.
Lemma tidy_next k : tidy k (smodify next_row).
Proof.
  intros s Hk (H0 & _ & Ht). rewrite smodify_eq. unfold neat. cbn [fst next_row ps_row_pos ps_row ps_table]. split; [lia|]. split; [lia|].
  split; [discriminate|]. destruct (ps_table s) as [t|]; [|exact I]. apply (cl_more P HP (ps_row_pos s)); [lia|exact Ht].
Qed.
Lemma tidy_with_row k r : r <= k -> tidy k (smodify (with_row (Some r))).
Proof.
  intros Hr s Hk (H0 & _ & Ht). rewrite smodify_eq. unfold neat. cbn [fst with_row ps_row_pos ps_row ps_table]. split; [lia|]. split; [exact H0|].
  split; [intros ? [= <-]; lia|exact Ht].
Qed.
Lemma tidy_table {A} k (m : SM table A) : (forall k', k <= k' -> holds k' m) -> tidy k (on_table m).
Proof.
  intros Hm s Hk Hs. unfold on_table. destruct (ps_table s) as [t|] eqn:Et; [|cbn [fst]; split; [lia|exact Hs]].
  destruct Hs as (H0 & H1 & Ht). rewrite Et in Ht. specialize (Hm _ Hk t Ht). destruct (m t) as [t' r].
  cbn [fst with_table ps_row_pos]. split; [lia|]. split; [exact H0|]. split; [exact H1|exact Hm].
Qed.
Lemma tidy_iter {A} k (f : A -> SM pstate unit) l : (forall a, tidy k (f a)) -> tidy k (siter f l).
Proof. intros H. induction l as [|a l IH]; cbn [siter]; [apply tidy_ret|]. apply tidy_bind; [apply H|]. intros _. exact IH. Qed.
Lemma tidy_new k st na : tidy k (t <- slift (table_new [] st na) ;; smodify (with_table (Some t))).
Proof.
  intros s Hk Hs. unfold sbind, slift. destruct (table_new [] st na) as [t|x] eqn:E; [|cbn; split; [lia|exact Hs]]. rewrite smodify_eq.
  cbn [fst with_table ps_row_pos]. split; [lia|]. split; [exact (proj1 Hs)|]. split; [exact (proj1 (proj2 Hs))|]. cbn [ps_table ps_row_pos with_table].
  apply (cl_more P HP 0); [exact (proj1 Hs)|]. exact (cl_new P HP st na t E).
Qed.
Lemma tidy_known {A B} k (r : result A) (f : A -> SM pstate B) : (forall a, r = Ok a -> tidy k (f a)) -> tidy k (sbind (slift r) f).
Proof. intros H s Hk Hs. unfold sbind, slift. destruct r as [a|e]; [apply (H a eq_refl); assumption|cbn; split; [lia|exact Hs]]. Qed.

Lemma call_more k k' op : k <= k' -> parser_call k op -> parser_call k' op.
Proof. intros H. destruct op; try destruct ax; cbn; try tauto; try lia; intros X E; specialize (X E); lia. Qed.
Lemma tidy_step k op : parser_call k op -> tidy k (on_table (tstep op)).
Proof. intros H. apply tidy_table. intros k' Hk. apply holds_step, (call_more k); assumption. Qed.
Lemma tidy_end_row k : tidy k end_row.
Proof.
  unfold end_row. apply tidy_read. intros s _ Hr. apply tidy_bind; [apply tidy_table; intros; apply holds_views|]. intros vs.
  apply tidy_known. intros bb Eb. destruct (ps_row s) as [r|]; [|apply tidy_raise]. apply tidy_table. intros k' Hk t.
  apply (cl_row P HP k' _ _ _ _ t Eb). specialize (Hr r eq_refl). lia.
Qed.
Lemma tidy_end_table k : tidy k end_table.
Proof. apply tidy_table. intros k' _. exact (cl_end P HP k'). Qed.
Lemma tidy_nature k p na : p <= k -> tidy k (on_table (view_set_nature Rows p na)).
Proof. exact (tidy_step k (TSetNature Rows p na)). Qed.
Lemma tidy_set_styles k p s : p <= k -> tidy k (on_table (view_set_styles Rows p s)).
Proof. exact (tidy_step k (TSetStyles Rows p s)). Qed.
Lemma tidy_update_rows k p s : p <= k -> tidy k (on_table (view_update_styles Rows p s)).
Proof. intros H. exact (tidy_step k (TUpdateStyles Rows p s) (fun _ => H)). Qed.
Lemma tidy_update_cols k p s : tidy k (on_table (view_update_styles Cols p s)).
Proof. apply (tidy_step k (TUpdateStyles Cols p s)). discriminate. Qed.
Lemma tidy_read_row k p : p <= k -> tidy k (on_table (unit_of (view_get Rows p))).
Proof. exact (tidy_step k (TReadView Rows p)). Qed.
Lemma tidy_insert k p ct s w h (f : view -> nature) : p <= k ->
  tidy k (on_table (v <- view_get Rows p ;; insert_cell Rows p ct s (f v) w h)).
Proof.
  intros H. apply tidy_table. intros k' Hk. apply holds_bind; [apply holds_read; lia|]. intros v. apply (holds_step k' (TInsert Rows p ct s (f v) w h)). cbn. lia.
Qed.

(** ** CALS *)
Section Cals.
  Variable o : pcals_opts.
  Lemma tidy_cals_event k ev : tidy k (parse_event o ev).
  Proof.
    unfold parse_event. apply tidy_bind; [tidy_modify|]. intros _. apply tidy_bind; [apply tidy_get|]. intros s.
    destruct (1 <? ps_depth s); [apply tidy_ret|]. destruct (ev_start ev).
    - unfold on_start. cbv zeta. destruct (String.eqb _ _).
      { apply tidy_bind; [tidy_modify|]. intros _. unfold parse_cals_entry. apply tidy_read. intros s' _ Hr.
        apply tidy_bind; [apply tidy_lift|]. intros wh. destruct (ps_row s'); [apply (tidy_insert _ _ _ _ _ _ v_nature); auto|apply tidy_raise]. }
      destruct (String.eqb _ _).
      { apply tidy_bind; [apply tidy_next|]. intros _. unfold parse_cals_row. apply tidy_bind; [apply tidy_lift|]. intros na.
        apply tidy_read. intros s' _ _. apply tidy_bind; [apply tidy_read_row; lia|]. intros _.
        apply tidy_bind; [apply tidy_with_row; lia|]. intros _. apply tidy_bind; [apply tidy_nature; lia|]. intros _. apply tidy_set_styles. lia. }
      destruct (str_mem _ _); [apply tidy_ret|]. destruct (String.eqb _ _).
      { apply tidy_bind; [tidy_modify|]. intros _. unfold parse_cals_colspec. apply tidy_bind; [apply tidy_lift|]. intros _.
        apply tidy_bind; [apply tidy_get|]. intros s'. apply tidy_bind; [apply tidy_lift|]. intros c. apply tidy_update_cols. }
      destruct (String.eqb _ _).
      { apply tidy_table. intros k' _ t Ht. cbn. apply (cl_restyle P HP), Ht. }
      destruct (String.eqb _ _); [|apply tidy_raise]. unfold parse_cals_table. apply tidy_bind; [apply tidy_lift|]. intros sn. apply tidy_new.
    - unfold on_end. cbv zeta. destruct (String.eqb _ _); [apply tidy_end_row|]. destruct (String.eqb _ _); [apply tidy_end_table|apply tidy_ret].
  Qed.
  Lemma cals_run_closed evs s : siter (parse_event o) evs pstate_reset = (s, Ok tt) -> neat s.
  Proof.
    intros E. pose proof (tidy_iter 0 (parse_event o) evs (tidy_cals_event 0) pstate_reset) as H. rewrite E in H. cbn [fst] in H.
    apply H; [cbn; lia|]. split; [cbn; lia|]. split; [discriminate|exact I].
  Qed.
  Lemma cals_closed e t : parse_table o e = Ok t -> exists k, P k t.
  Proof.
    unfold parse_table. pose proof (cals_run_closed (walk (cals_elements o) None e)) as H.
    destruct (siter _ _ _) as [s [[]|x]]; [|discriminate]. cbn [rbind] in *. destruct (H s eq_refl) as (_ & _ & Ht). destruct (ps_table s); [|discriminate].
    intros [= <-]. eauto.
  Qed.
End Cals.

(** ** Formex *)
Section Formex.
  Variable o : pfmx_opts.
  Lemma tidy_enter k na : tidy k (enter_row na).
  Proof.
    unfold enter_row. apply tidy_read. intros s _ _. apply tidy_bind; [apply tidy_read_row; lia|]. intros _.
    apply tidy_bind; [apply tidy_with_row; lia|]. intros _. apply tidy_nature. lia.
  Qed.
  Lemma tidy_style k st : tidy k (style_row st).
  Proof. unfold style_row. apply tidy_read. intros s _ _. apply tidy_set_styles. lia. Qed.
  Lemma tidy_in_row k ct st na w h : tidy k (insert_in_row ct st na w h).
  Proof.
    unfold insert_in_row. apply tidy_read. intros s _ Hr. destruct (ps_row s); [|apply tidy_raise].
    apply (tidy_insert _ _ _ _ _ _ (fun v => na (v_nature v))). auto.
  Qed.
  Lemma tidy_title k e st : tidy k (insert_title o e st).
  Proof.
    unfold insert_title. apply tidy_bind; [apply tidy_enter|]. intros _. apply tidy_bind; [apply tidy_style|]. intros _.
    apply tidy_bind; [apply tidy_lift|]. intros a. apply tidy_bind; [apply tidy_lift|]. intros b.
    apply tidy_bind; [apply tidy_iter; intros ?; apply tidy_in_row|]. intros _. apply tidy_in_row.
  Qed.
  Lemma tidy_notes k e : tidy k (parse_gr_notes o e).
  Proof.
    unfold parse_gr_notes. apply tidy_bind; [apply tidy_enter|]. intros _. apply tidy_bind.
    - apply tidy_table. intros k' _. apply holds_bind; [apply holds_same; reflexivity|]. intros t. apply holds_same. intros t'. destruct (table_bounding_box t); reflexivity.
    - intros [bb|]; [apply tidy_in_row|apply tidy_raise].
  Qed.
  Lemma tidy_fmx_event k ev : tidy k (fparse_event o ev).
  Proof.
    unfold fparse_event. apply tidy_bind; [tidy_modify|]. intros _. apply tidy_bind; [apply tidy_get|]. intros s.
    destruct (1 <? ps_depth s); [apply tidy_ret|]. destruct (fe_start ev).
    - unfold fon_start. cbv zeta. destruct (String.eqb _ _).
      { apply tidy_bind; [tidy_modify|]. intros _. unfold parse_fmx_cell. apply tidy_bind; [apply tidy_lift|]. intros wh. apply tidy_in_row. }
      destruct (String.eqb _ _).
      { apply tidy_bind; [apply tidy_next|]. intros _. unfold parse_fmx_row. apply tidy_bind; [apply tidy_enter|]. intros _. apply tidy_style. }
      destruct (String.eqb _ _); [apply tidy_ret|].
      destruct (String.eqb _ _); [apply tidy_bind; [apply tidy_next|intros _; apply tidy_title]|].
      destruct (String.eqb _ _); [apply tidy_bind; [apply tidy_next|intros _; apply tidy_title]|].
      destruct (String.eqb _ _).
      { apply tidy_bind; [tidy_modify|]. intros _. unfold parse_fmx_colspec. 
        apply tidy_bind; [apply tidy_get|]. intros s'. apply tidy_bind; [apply tidy_lift|]. intros c. apply tidy_update_cols. }
      destruct (String.eqb _ _); [|apply tidy_raise]. unfold parse_fmx_corpus. apply tidy_bind; [apply tidy_lift|]. intros sn. apply tidy_new.
    - unfold fon_end. cbv zeta. destruct (str_mem _ _); [apply tidy_end_row|]. destruct (String.eqb _ _); [|apply tidy_ret].
      unfold end_corpus. apply tidy_bind; [|intros _; apply tidy_end_table]. apply tidy_iter. intros n.
      apply tidy_bind; [apply tidy_next|]. intros _. apply tidy_notes.
  Qed.
  Lemma formex_run_closed evs s : siter (fparse_event o) evs pstate_reset = (s, Ok tt) -> neat s.
  Proof.
    intros E. pose proof (tidy_iter 0 (fparse_event o) evs (tidy_fmx_event 0) pstate_reset) as H. rewrite E in H. cbn [fst] in H.
    apply H; [cbn; lia|]. split; [cbn; lia|]. split; [discriminate|exact I].
  Qed.
  Lemma formex_closed parent b bef e t : parse_formex o parent b bef e = Ok t -> exists k, P k t.
  Proof.
    unfold parse_formex. pose proof (formex_run_closed (fwalk o parent b bef e)) as H.
    destruct (siter _ _ _) as [s [[]|x]]; [|discriminate]. cbn [rbind] in *. destruct (H s eq_refl) as (_ & _ & Ht). destruct (ps_table s); [|discriminate].
    intros [= <-]. eauto.
  Qed.
End Formex.

(** ** Word *)
Section Word.
  Variable o : ooxml_opts.
  Lemma tidy_put k e w : tidy k (put_tc o e w).
  Proof.
    unfold put_tc. apply tidy_bind; [apply tidy_lift|]. intros st0. apply tidy_read. intros s _ Hr.
    destruct (ps_row s) as [r|]; [apply (tidy_step _ (TInsert Rows _ _ _ _ _ _) (Hr r eq_refl))|apply tidy_raise].
  Qed.
  Lemma tidy_grid_col k e : tidy k (parse_grid_col o e).
  Proof.
    unfold parse_grid_col. apply tidy_bind; [apply tidy_lift|]. intros st0.
    apply tidy_bind; [apply tidy_get|]. intros s'. apply tidy_update_cols.
  Qed.
  Lemma tidy_tr k e : tidy k (parse_tr o e).
  Proof.
    unfold parse_tr. apply tidy_bind; [apply tidy_lift|]. intros na.
    apply tidy_read. intros s' _ _. apply tidy_bind; [apply tidy_read_row; lia|]. intros _.
    apply tidy_bind; [apply tidy_with_row; lia|]. intros _. apply tidy_bind; [apply tidy_nature; lia|]. intros _.
    apply tidy_bind; [apply tidy_lift|]. intros st0. apply tidy_bind; [apply tidy_update_rows; lia|]. intros _. apply tidy_update_rows. lia.
  Qed.
  Lemma tidy_tc k e : tidy k (parse_tc o e).
  Proof.
    unfold parse_tc.
    apply tidy_bind; [apply tidy_lift|]. intros w. apply tidy_bind; [tidy_modify|]. intros _.
    destruct (tc_merge e) as [m|]; [|apply tidy_put]. destruct (String.eqb _ _).
    { apply tidy_bind; [apply tidy_get|]. intros s'. destruct (ps_row s'); [apply (tidy_step _ (TExpand _ _ _ _) I)|apply tidy_raise]. }
    destruct (String.eqb _ _); [apply tidy_put|apply tidy_raise].
  Qed.
  Lemma tidy_ox_event k sect ev : tidy k (ox_event o sect ev).
  Proof.
    unfold ox_event. apply tidy_bind; [tidy_modify|]. intros _. apply tidy_bind; [apply tidy_get|]. intros s.
    destruct (1 <? ps_depth s); [apply tidy_ret|]. destruct (ev_start ev).
    - unfold ox_start. cbv zeta. destruct (String.eqb _ _).
      { unfold parse_tbl. apply tidy_bind; [apply tidy_lift|]. intros st0. apply tidy_new. }
      destruct (String.eqb _ _); [apply tidy_ret|]. destruct (String.eqb _ _).
      { apply tidy_bind; [tidy_modify|]. intros _. apply tidy_grid_col. }
      destruct (String.eqb _ _).
      { apply tidy_bind; [apply tidy_next|]. intros _. apply tidy_tr. }
      destruct (String.eqb _ _); [|apply tidy_raise]. apply tidy_bind; [tidy_modify|]. intros _. apply tidy_tc.
    - unfold ox_end. destruct (String.eqb _ _); [apply tidy_end_row|apply tidy_ret].
  Qed.
  Lemma word_closed sect e t : ox_parse_table o sect e = Ok t -> exists k, P k t.
  Proof.
    unfold ox_parse_table. pose proof (tidy_iter 0 (ox_event o sect) (walk ox_elements None e) (tidy_ox_event 0 sect) pstate_reset) as H.
    destruct (siter _ _ _) as [s [[]|x]]; [|discriminate]. cbn [rbind fst] in *. destruct H as (_ & _ & _ & H); [cbn; lia|split; [cbn; lia|split; [discriminate|exact I]]|].
    destruct (ps_table s); [|discriminate]. intros [= <-]. eauto.
  Qed.
End Word.

End Closed.

Lemma fit_closed : closed (fun _ => fit).
Proof.
  split.
  - intros k k' t _ H. exact H.
  - exact fit_new.
  - intros _. exact fit_restyle.
  - intros k op t H Ht. destruct op; try destruct ax; try contradiction; cbn [tstep].
    + apply fits_expand, Ht.
    + left. apply rows_insert, Ht.
    + rewrite unit_of_state. apply fit_cols, Ht.
    + rewrite unit_of_state. apply fits_read, Ht.
    + left. apply rows_modify; [apply attributes_kept_owned|exact Ht].
    + left. apply rows_modify; [apply (styles_kept_owned (fun _ => styles_of st))|exact Ht].
    + left. apply rows_modify; [apply (styles_kept_owned (fun v => dupdate (v_styles v) st))|exact Ht].
    + apply fits_modify; [apply (styles_kept_owned (fun v => dupdate (v_styles v) st))|exact Ht].
  - intros k r n q bb t Eb _ Ht. exact (fits_row r n q bb t Eb Ht).
  - intros _. exact fits_end.
Qed.
Lemma treachable_closed : closed (fun _ => treachable).
Proof.
  split.
  - intros k k' t _ H. exact H.
  - exact (treach_new []).
  - intros _. exact treachable_restyle.
  - intros k op t _ H. constructor. exact H.
  - intros k r n q bb t _ _ H. apply (keeps_bind (view_get Rows q)); [apply keeps_view| |exact H]. intros v. apply keeps_fill.
  - intros _ t H. apply keeps_bind; [apply keeps_same; reflexivity| |exact H]. intros t0. apply keeps_bind; [apply keeps_same; intros; destruct (table_bounding_box t0); reflexivity|].
    intros [bb|]; [apply keeps_fill|apply keeps_same; reflexivity].
Qed.

Lemma fit_ordered t : fit t -> rows_ordered t.
Proof.
  intros [(o & HR)|(o & HT & Eo & Eg)] p v Hp Hv; [exact (rw_views t o p v HR Hp Hv)|].
  destruct (reads_facts Rows p t o HT Hp) as (v' & Hv' & Ep & Ew & _). pose proof (reads_fun _ _ _ _ _ Hv Hv') as <-.
  rewrite Ew. cbn [ghost_of]. rewrite Eo, Eg. constructor.
Qed.

Lemma ordered_nodup h : ordered h -> NoDup h.
Proof.
  induction 1 as [|a l HF H IH]; constructor; [|exact IH]. intros Ha. rewrite Forall_forall in HF. specialize (HF a Ha eq_refl). lia.
Qed.
Lemma fit_exact t : fit t -> views_exact Rows t.
Proof.
  intros [(o & HT & HP & h & Eh & HO)|(o & HT & Eo & Eg)].
  - apply (exact_views Rows t o HT). exists h. split; [exact Eh|]. cbn [fst]. apply NoDup_Permutation; [apply ordered_nodup, HO| |].
    + apply in_order_NoDup, (proj2 HT).
    + exact (proj2 (proj2 HT) Rows h Eh).
  - intros p v Hp Hv. destruct (reads_facts Rows p t o HT Hp) as (v' & Hv' & Ep & Ew & Ec). pose proof (reads_fun _ _ _ _ _ Hv Hv') as <-.
    cbn [ghost_of] in *. rewrite Eo, Eg in Ew, Ec. cbn in Ew, Ec. unfold table_iter. rewrite Eg, Ew, Ec. split; exists []; split; constructor.
Qed.
