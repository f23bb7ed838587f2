(** * Invariants of tables *)
From Coq Require Import Relations.
From Verif Require Import Base M_Geometry M_Xml M_Cell M_Grid M_Table.
From Verif Require Import S_Geometry S_Cell S_Grid S_Table P_Geometry P_Cell P_Grid P_GridFacts P_Table P_TableStep.

(** ** The views show the cells of the table *)

Definition mem_inv (s : gstate) : Prop :=
  grid_inv (fst s) /\ forall ax h, ghost_of ax (snd s) = Some h -> forall c, In c h <-> In c (fst s).

Lemma seen_mem ax s : mem_inv s -> forall c, In c (seen (ghost_of ax (snd s)) (fst s)) <-> In c (fst s).
Proof.
  intros [_ H] c. unfold seen. destruct (ghost_of ax (snd s)) as [h|] eqn:E; [|tauto]. apply (H ax h E).
Qed.

Lemma gt_mem_inv s s' : gt s s' -> mem_inv s -> mem_inv s'.
Proof.
  intros H HM. destruct H as [ax g o | v c c' g g' o E Hget HP | gop g o].
  - split; [apply HM|]. intros ax' h Eh c. cbn [fst snd] in *.
    assert (D : {ax' = ax} + {ax' <> ax}) by decide equality. destruct D as [->|D].
    + rewrite ghost_of_set in Eh. injection Eh as <-. apply (seen_mem ax (g, o) HM).
    + rewrite ghost_of_set_other in Eh by exact D. apply (proj2 HM ax' h Eh).
  - split.
    + cbn. pose proof (grid_setitem_inv v c g (proj1 HM)) as H. rewrite E in H. exact H.
    + intros ax h Eh d.
      assert (Hs : forall oh, (oh = ghost_of ax o) -> (In d (seen oh g' ++ [c']) <-> In d g')).
      { intros oh ->. rewrite in_app_iff. cbn [In].
        assert (Hin : In d g' <-> c' = d \/ In d g) by (rewrite HP; reflexivity).
        unfold seen. destruct (ghost_of ax o) as [h'|] eqn:Eo.
        - rewrite (proj2 HM ax h' Eo d). cbn [fst]. tauto.
        - tauto. }
      destruct ax, o as [o1 o2]; cbn in Eh; injection Eh as <-; apply Hs; reflexivity.
  - split.
    + apply gstep_inv, HM.
    + intros ax h Eh d. destruct ax; cbn in Eh; injection Eh as <-; reflexivity.
Qed.

Lemma gts_mem_inv s s' : gts s s' -> mem_inv s -> mem_inv s'.
Proof. intros H. induction H; eauto using gt_mem_inv. Qed.

(** Each cell shows up once *)
Definition exact (ax : axis) (s : gstate) : Prop :=
  exists h, ghost_of ax (snd s) = Some h /\ Permutation h (fst s).

Lemma gt_exact ax s s' : gt s s' -> exact ax s -> exact ax s'.
Proof.
  intros H (h & Eh & HP). destruct H as [ax' g o | v c c' g g' o E Hget HP' | gop g o]; cbn [fst snd] in *.
  - assert (D : {ax = ax'} + {ax <> ax'}) by decide equality. destruct D as [<-|D].
    + exists h. cbn. rewrite ghost_of_set, Eh. split; [reflexivity|exact HP].
    + exists h. cbn. rewrite ghost_of_set_other by exact D. split; assumption.
  - exists (h ++ [c']). split.
    + destruct ax, o as [o1 o2]; cbn in *; subst; reflexivity.
    + cbn [fst]. rewrite HP', <- HP. symmetry. apply Permutation_cons_append.
  - exists (fst (gstep gop g)). split; [destruct ax; reflexivity|reflexivity].
Qed.

Lemma gts_exact ax s s' : gts s s' -> exact ax s -> exact ax s'.
Proof. intros H. induction H; eauto using gt_exact. Qed.

Lemma gts_refl s : gts s s.
Proof. apply rt_refl. Qed.
Lemma gts_one s s' : gt s s' -> gts s s'.
Proof. apply rt_step. Qed.

(** ** Every operation is a sequence of elementary changes *)

Definition simulates (m : SM table unit) : Prop :=
  forall t g o, st t g o -> mem_inv (g, o) ->
  exists g' o', gts (g, o) (g', o') /\ st (fst (m t)) g' o'.

Lemma sim_set v c : simulates (table_setitem v c).
Proof.
  intros t g o HS HM. destruct (table_setitem_st v c t g o HS (proj1 HM))
    as [(e & _ & E)|(g' & c' & t' & Eg & Hget & HP & _ & E & HS')]; rewrite E.
  - exists g, o. split; [apply gts_refl|exact HS].
  - eexists _, _. split; [|exact HS']. eapply gts_one, gt_set; eassumption.
Qed.

Lemma sim_siter {A} (f : A -> SM table unit) l : (forall a, In a l -> simulates (f a)) -> simulates (siter f l).
Proof.
  induction l as [|a l IH]; intros Hf t g o HS HM; cbn [siter].
  - exists g, o. split; [apply gts_refl|exact HS].
  - destruct (Hf a (or_introl eq_refl) t g o HS HM) as (g1 & o1 & G1 & HS1).
    unfold sbind. destruct (f a t) as [t1 [[]|e]]; cbn [fst] in *.
    + destruct (IH (fun b Hb => Hf b (or_intror Hb)) t1 g1 o1 HS1 (gts_mem_inv _ _ G1 HM)) as (g2 & o2 & G2 & HS2).
      exists g2, o2. split; [eapply rt_trans; eassumption|exact HS2].
    + exists g1, o1. split; assumption.
Qed.

Lemma rebuild_gt gop g g' o :
  fst (gstep gop g) = g' -> gt (g, o) (g', (Some g', Some g')).
Proof. intros <-. apply gt_rebuild. Qed.

Lemma sim_del v : simulates (table_delitem v).
Proof.
  intros t g o HS HM. destruct (table_delitem_st v t g o HS (proj1 HM)) as [(e & _ & E)|(g' & t' & Eg & _ & E & HS')]; rewrite E.
  - exists g, o. split; [apply gts_refl|exact HS].
  - eexists _, _. split; [|exact HS']. apply gts_one, (rebuild_gt (GDel v)). cbn [gstep]. rewrite Eg. reflexivity.
Qed.

Lemma sim_merge s e a : simulates (table_merge s e a).
Proof.
  intros t g o HS HM. destruct (table_merge_st s e a t g o HS (proj1 HM)) as [(x & _ & E)|(g' & r & t' & Eg & _ & E & HS')]; rewrite E.
  - exists g, o. split; [apply gts_refl|exact HS].
  - eexists _, _. split; [|exact HS']. apply gts_one, (rebuild_gt (GMerge s e a)). cbn [gstep]. rewrite unit_of_state, Eg. reflexivity.
Qed.

Lemma sim_expand v w h a : simulates (table_expand v w h a).
Proof.
  intros t g o HS HM. destruct (table_expand_st v w h a t g o HS (proj1 HM)) as [(x & _ & E)|(g' & r & t' & Eg & _ & E & HS')]; rewrite E.
  - exists g, o. split; [apply gts_refl|exact HS].
  - eexists _, _. split; [|exact HS']. apply gts_one, (rebuild_gt (GExpand v w h a)). cbn [gstep]. rewrite unit_of_state, Eg. reflexivity.
Qed.

Lemma sim_read ax : simulates (unit_of (views_get ax)).
Proof.
  intros t g o HS HM. rewrite unit_of_state.
  destruct (views_get_st ax t g o HS (proj1 (proj1 HM))) as (t' & vs & E & HS' & _). rewrite E.
  eexists _, _. split; [|exact HS']. apply gts_one, gt_read.
Qed.

Lemma sim_read_view ax p : simulates (unit_of (view_get ax p)).
Proof.
  intros t g o HS HM. rewrite unit_of_state.
  destruct (view_get_st ax p t g o HS (proj1 (proj1 HM))) as (t' & vs & HS' & _ & _ & _ & E). rewrite E.
  eexists _, _. split; [|exact HS']. apply gts_one, gt_read.
Qed.

Lemma sim_modify ax p f :
  (forall v, v_pos (f v) = v_pos v /\ v_owned (f v) = v_owned v /\ v_caught (f v) = v_caught v) ->
  simulates (view_modify ax p f).
Proof.
  intros Hf t g o HS HM. destruct (view_modify_st ax p f t g o Hf HS (proj1 (proj1 HM))) as [HS' _].
  eexists _, _. split; [|exact HS']. apply gts_one, gt_read.
Qed.

Lemma sim_insert ax p ct s na w h : simulates (insert_cell ax p ct s na w h).
Proof.
  intros t g o HS HM.
  destruct (insert_cell_st ax p ct s na w h t g o HS (proj1 HM) (seen_mem ax (g, o) HM)) as (t1 & HS1 & H).
  assert (G1 : gts (g, o) (g, ghost_set ax (seen (ghost_of ax o) g) o)) by apply gts_one, gt_read.
  destruct H as [(_ & _ & E)|(q & i & v & _ & _ & _ & _ & _ & _ & _ & [(_ & E)|(_ & _ & E)])].
  - rewrite E. eauto.
  - rewrite E. eauto.
  - rewrite E. destruct (sim_set (PCoord (at_pos ax q i))
      (MkCell ct (styles_of s) (inherit na (v_nature v)) (pinned ax q i w h)) t1 g _ HS1 (gts_mem_inv _ _ G1 HM))
      as (g' & o' & G2 & HS2).
    exists g', o'. split; [eapply rt_trans; eassumption|exact HS2].
Qed.

Lemma sim_fill_one ct s na xy : simulates (fill_one ct s na xy).
Proof.
  intros t g o HS HM. unfold fill_one, sbind, sget, slift.
  destruct (table_contains t _) as [[]|e]; cbn [fst].
  - exists g, o. split; [apply gts_refl|exact HS].
  - destruct (cell_new ct s na (fst xy) (snd xy) 1 1) as [c|e].
    + apply sim_set; assumption.
    + exists g, o. split; [apply gts_refl|exact HS].
  - exists g, o. split; [apply gts_refl|exact HS].
Qed.

Lemma table_pop_fst v t : fst (table_pop v t) = t \/ fst (table_pop v t) = fst (table_delitem v t).
Proof.
  unfold table_pop, sbind, sget, slift. destruct (table_getitem t v); [|auto].
  destruct (table_delitem v t) as [t' [[]|e]]; auto.
Qed.

Lemma table_popitem_eq t :
  table_popitem t = (t, Err (match t_grid t with [] => EKeyError | _ => ETypeError end)).
Proof. unfold table_popitem, sbind, sget, slift, table_iter, grid_iter, table_getitem. destruct (t_grid t); reflexivity. Qed.

Lemma tstep_sim op : simulates (tstep op).
Proof.
  destruct op; cbn [tstep].
  - apply sim_set.
  - apply sim_del.
  - apply sim_merge.
  - apply sim_expand.
  - apply sim_siter. intros; apply sim_fill_one.
  - apply sim_insert.
  - apply sim_read.
  - apply sim_read_view.
  - apply sim_modify. intros; repeat split.
  - apply sim_modify. intros; repeat split.
  - apply sim_modify. intros; repeat split.
  - intros t g o HS HM. rewrite unit_of_state. destruct (table_pop_fst v t) as [->| ->].
    + exists g, o. split; [apply gts_refl|exact HS].
    + apply sim_del; assumption.
  - intros t g o HS HM. rewrite unit_of_state. unfold table_setdefault.
    assert (H : exists g' o', gts (g, o) (g', o') /\ st t g' o') by (exists g, o; split; [apply gts_refl|exact HS]).
    destruct (table_getitem t v) as [d|[]]; cbn [fst]; try exact H.
    destruct (sim_set v c t g o HS HM) as (g' & o' & G & HS'). exists g', o'. split; [exact G|].
    unfold sbind. destruct (table_setitem v c t) as [t' [[]|e]]; exact HS'.
  - apply sim_siter. intros; apply sim_set.
  - intros t g o HS HM. rewrite unit_of_state, table_popitem_eq. exists g, o. split; [apply gts_refl|exact HS].
Qed.

Lemma table_new_st cells s na t :
  table_new cells s na = Ok t -> st t (t_grid t) (None, None) /\ mem_inv (t_grid t, (None, None)).
Proof.
  unfold table_new. destruct (grid_new cells) as [g|e] eqn:E; [|discriminate]. cbn. intros [= <-]. split.
  - split; [reflexivity|]. intros []; exact I.
  - split; [cbn; eapply grid_new_inv, E|]. intros [] h; discriminate.
Qed.

Definition tinv (t : table) (o : option (list cell) * option (list cell)) : Prop :=
  st t (t_grid t) o /\ mem_inv (t_grid t, o).

Lemma tinv_step op t o :
  tinv t o -> exists o', tinv (fst (tstep op t)) o' /\ gts (t_grid t, o) (t_grid (fst (tstep op t)), o').
Proof.
  intros [HS HM]. destruct (tstep_sim op t _ o HS HM) as (g' & o' & G & HS').
  pose proof (proj1 HS') as Eg. exists o'. unfold tinv. rewrite Eg. split; [split|]; auto.
  eapply gts_mem_inv; eassumption.
Qed.

Lemma treachable_tinv t : treachable t -> exists o, tinv t o.
Proof.
  induction 1 as [cells s na t E | t op _ [o IH]].
  - exists (None, None). eapply table_new_st, E.
  - destruct (tinv_step op t o IH) as (o' & H & _). eauto.
Qed.

Lemma trun_tinv h t o :
  tinv t o -> exists o', tinv (trun t h) o' /\ gts (t_grid t, o) (t_grid (trun t h), o').
Proof.
  revert t o. induction h as [|op h IH]; intros t o HT; cbn.
  - exists o. split; [exact HT|apply gts_refl].
  - destruct (tinv_step op t o HT) as (o1 & H1 & G1). destruct (IH _ _ H1) as (o2 & H2 & G2).
    exists o2. split; [exact H2|]. eapply rt_trans; eassumption.
Qed.

Lemma trun_treachable h t : treachable t -> treachable (trun t h).
Proof. revert t. induction h as [|op h IH]; intros t H; cbn; [exact H|]. apply IH. constructor. exact H. Qed.

(** ** Reading a view *)

Lemma reads_facts ax p t o :
  tinv t o -> 1 <= p ->
  exists v, reads ax p t v /\ v_pos v = p /\
    v_owned v = filter (can_own ax v) (seen (ghost_of ax o) (t_grid t)) /\
    v_caught v = filter (can_catch ax v) (seen (ghost_of ax o) (t_grid t)).
Proof.
  intros [HS HM] Hp.
  destruct (view_get_st ax p t _ o HS (proj1 (proj1 HM))) as (t1 & vs & HS1 & E1 & R & HL & E).
  destruct (py_nth_pos vs p ltac:(lia)) as (v & Ev & Hv).
  exists v. unfold reads. rewrite E. split; [exact Ev|]. exact (vl_rep_caught ax _ vs p v R Hv Hp).
Qed.

Lemma reads_fun ax p t v v' : reads ax p t v -> reads ax p t v' -> v = v'.
Proof. unfold reads. congruence. Qed.

Lemma view_membership ax p t v :
  treachable t -> 1 <= p -> reads ax p t v ->
  v_pos v = p /\
  (forall c, In c (v_owned v) <-> In c (table_iter t) /\ starts_at ax p c) /\
  (forall c, In c (v_caught v) <-> In c (table_iter t) /\ spans ax p c).
Proof.
  intros HR Hp Hv. destruct (treachable_tinv t HR) as [o HT].
  destruct (reads_facts ax p t o HT Hp) as (v' & Hv' & Ep & Eo & Ec).
  pose proof (reads_fun _ _ _ _ _ Hv Hv') as <-. split; [exact Ep|].
  pose proof (seen_mem ax (t_grid t, o) (proj2 HT)) as Hs. cbn [fst snd] in Hs.
  split; intros c.
  - rewrite Eo, filter_In, Hs, can_own_spec, Ep. reflexivity.
  - rewrite Ec, filter_In, Hs. unfold table_iter, grid_iter. split; intros [H1 H2]; (split; [exact H1|]);
      rewrite <- Ep in *; apply (can_catch_spec ax v c); auto; apply (inv_valid (t_grid t)); auto; apply HT.
Qed.

Lemma reads_exists ax p t : treachable t -> 1 <= p -> exists v, reads ax p t v.
Proof.
  intros HR Hp. destruct (treachable_tinv t HR) as [o HT].
  destruct (reads_facts ax p t o HT Hp) as (v & Hv & _). eauto.
Qed.

Lemma perm_filter {A} (f : A -> bool) l m : Permutation l m -> Permutation (filter f l) (filter f m).
Proof.
  induction 1; cbn.
  - constructor.
  - destruct (f x); [constructor|]; assumption.
  - destruct (f x), (f y); try reflexivity. apply perm_swap.
  - etransitivity; eassumption.
Qed.

Lemma exact_views ax t o : tinv t o -> exact ax (t_grid t, o) -> views_exact ax t.
Proof.
  intros HT (h & Eh & HP) p v Hp Hv. cbn [fst snd] in *.
  destruct (reads_facts ax p t o HT Hp) as (v' & Hv' & Ep & Eo & Ec).
  pose proof (reads_fun _ _ _ _ _ Hv Hv') as <-. rewrite Eh in Eo, Ec. cbn in Eo, Ec.
  assert (HV : forall c, In c (t_grid t) -> valid (c_box c)) by (intros c; apply inv_valid, HT).
  split.
  - exists (filter (can_own ax v) (t_grid t)). split.
    + apply filter_selects. intros c _. rewrite can_own_spec, Ep. reflexivity.
    + rewrite Eo. apply perm_filter, HP.
  - exists (filter (can_catch ax v) (t_grid t)). split.
    + apply filter_selects. intros c Hc. rewrite can_catch_spec, Ep by (apply HV, Hc). reflexivity.
    + rewrite Ec. apply perm_filter, HP.
Qed.

Lemma views_exact_run ax t o h : tinv t o -> exact ax (t_grid t, o) -> views_exact ax (trun t h).
Proof.
  intros HT HE. destruct (trun_tinv h t o HT) as (o' & HT' & G).
  eapply exact_views; [exact HT'|]. eapply gts_exact; eassumption.
Qed.

Lemma rebuild_state op t t' :
  treachable t -> rebuilds op = true -> tstep op t = (t', Ok tt) ->
  tinv t' (Some (t_grid t'), Some (t_grid t')).
Proof.
  intros HR Hop E. destruct (treachable_tinv t HR) as (o & HS & HM). pose proof (proj1 HM) as HI. cbn in HI.
  assert (Hgoal : forall g', st t' g' (Some g', Some g') -> grid_inv g' -> tinv t' (Some (t_grid t'), Some (t_grid t'))).
  { intros g' HS' HI'. pose proof (proj1 HS') as Eg. rewrite Eg. split; [rewrite Eg; exact HS'|].
    rewrite Eg. split; [exact HI'|]. intros [] h'; cbn; intros [= <-]; reflexivity. }
  destruct op; try discriminate; cbn [tstep] in E.
  - destruct (table_delitem_st v t _ o HS HI) as [(e & _ & E')|(g' & t'' & _ & HI' & E' & HS')]; [congruence|].
    rewrite E' in E. injection E as <-. eauto.
  - destruct (table_merge_st start end_ app t _ o HS HI) as [(e & _ & E')|(g' & r & t'' & _ & HI' & E' & HS')]; [congruence|].
    rewrite E' in E. injection E as <-. eauto.
  - destruct (table_expand_st v width height app t _ o HS HI) as [(e & _ & E')|(g' & r & t'' & _ & HI' & E' & HS')]; [congruence|].
    rewrite E' in E. injection E as <-. eauto.
  - unfold unit_of, table_pop, sbind, sget, slift, sret in E.
    destruct (table_getitem t v); [|discriminate].
    destruct (table_delitem_st v t _ o HS HI) as [(e & _ & E')|(g' & t'' & _ & HI' & E' & HS')]; rewrite E' in E; [discriminate|].
    injection E as <-. eauto.
Qed.

Lemma exact_after_rebuild ax op t t' h :
  treachable t -> rebuilds op = true -> tstep op t = (t', Ok tt) -> views_exact ax (trun t' h).
Proof.
  intros HR Hop E. eapply views_exact_run; [eapply rebuild_state; eassumption|].
  exists (t_grid t'). split; [destruct ax; reflexivity|reflexivity].
Qed.

Lemma exact_after_first_read ax t h :
  treachable t -> ~ materialised ax t -> views_exact ax (trun t (TReadViews ax :: h)).
Proof.
  intros HR Hn. destruct (treachable_tinv t HR) as (o & HS & HM).
  assert (Eo : ghost_of ax o = None).
  { pose proof (proj2 HS ax) as H. unfold gh in H. unfold materialised in Hn.
    destruct (t_views ax t); [exfalso; apply Hn; discriminate|]. destruct (ghost_of ax o); [contradiction|reflexivity]. }
  unfold trun. cbn [fold_left tstep]. fold (trun (fst (unit_of (views_get ax) t)) h). rewrite unit_of_state.
  destruct (views_get_st ax t _ o HS (proj1 (proj1 HM))) as (t' & vs & E & HS' & _). rewrite E. cbn [fst].
  pose proof (proj1 HS') as Eg. rewrite <- Eg in HS' at 1.
  eapply (views_exact_run ax t').
  - split; [exact HS'|]. rewrite Eg. eapply gt_mem_inv; [apply (gt_read ax)|exact HM].
  - exists (t_grid t). rewrite Eo. cbn [seen fst snd]. split; [apply ghost_of_set|rewrite Eg; reflexivity].
Qed.

(** ** Order *)

Lemma owned_sorted ax l :
  (match ax with Rows => True | Cols => True end) ->
  in_order l -> forall p, left_to_right ax (filter (fun c => match ax with Rows => cy (c_min c) =? p | Cols => cx (c_min c) =? p end) l).
Proof.
  intros _ H p. unfold left_to_right. induction H as [|a l H IH HF]; cbn [filter]; [constructor|].
  destruct (match ax with Rows => _ | Cols => _ end) eqn:Ea; [|exact IH]. constructor; [exact IH|].
  apply Forall_forall. intros b Hb. apply filter_In in Hb as [Hb Eb]. rewrite Forall_forall in HF.
  specialize (HF b Hb). unfold before, c_min in *. destruct ax; cbn in *; lia.
Qed.

Lemma sorted_after_rebuild ax op t t' p v :
  treachable t -> rebuilds op = true -> tstep op t = (t', Ok tt) -> 1 <= p -> reads ax p t' v ->
  selects (starts_at ax p) (table_iter t') (v_owned v) /\ left_to_right ax (v_owned v).
Proof.
  intros HR Hop E Hp Hv. pose proof (rebuild_state op t t' HR Hop E) as HT.
  destruct (reads_facts ax p t' _ HT Hp) as (v' & Hv' & Ep & Eo & Ec).
  pose proof (reads_fun _ _ _ _ _ Hv Hv') as <-.
  replace (seen _ _) with (t_grid t') in Eo by (destruct ax; reflexivity). rewrite Eo. split.
  - apply filter_selects. intros c _. rewrite can_own_spec, Ep. reflexivity.
  - replace (filter (can_own ax v) (t_grid t')) with
      (filter (fun c => match ax with Rows => cy (c_min c) =? p | Cols => cx (c_min c) =? p end) (t_grid t')).
    + apply owned_sorted; [destruct ax; exact I|]. apply HT.
    + apply filter_ext. intros c. unfold can_own. rewrite Ep. reflexivity.
Qed.

(** ** Number of views *)

Lemma vl_adopt_length ax c vs vs' :
  pos_ok vs -> valid (c_box c) -> vl_adopt ax c vs = Ok vs' -> ax_hi ax (c_box c) <= Z.of_nat (List.length vs) ->
  List.length vs' = List.length vs.
Proof.
  intros HP V E HL. rewrite vl_adopt_eq in E by assumption. injection E as <-.
  rewrite map_length, fit_small by exact HL. reflexivity.
Qed.

Lemma vl_adopt_all_length ax cells h vs vs' :
  vl_rep ax h vs -> all_valid cells -> vl_adopt_all ax cells vs = Ok vs' ->
  (forall c, In c cells -> ax_hi ax (c_box c) <= Z.of_nat (List.length vs)) ->
  List.length vs' = List.length vs.
Proof.
  revert h vs. induction cells as [|c cells IH]; intros h vs HR HV E HL.
  - cbn in E. congruence.
  - inversion HV as [|? ? V HV']; subst. cbn in E.
    destruct (vl_rep_adopt ax h c vs HR V) as (vs1 & E1 & R1). rewrite E1 in E. cbn in E.
    assert (L1 : List.length vs1 = List.length vs).
    { eapply vl_adopt_length; eauto; [apply HR|]. apply HL. left. reflexivity. }
    rewrite <- L1. eapply IH; eauto. intros d Hd. rewrite L1. apply HL. right. exact Hd.
Qed.

Lemma last_hi ax t bb : grid_bounding_box (t_grid t) = Ok (Some bb) -> last_pos ax t (ax_hi ax bb).
Proof. intros H. right. exists bb. split; [exact H|]. destruct ax; reflexivity. Qed.

Lemma last_pos_fun ax t n m : all_valid (t_grid t) -> last_pos ax t n -> last_pos ax t m -> n = m.
Proof.
  intros HV [[E1 ->]|(b1 & E1 & ->)] [[E2 ->]|(b2 & E2 & ->)].
  - reflexivity.
  - rewrite E1 in E2. discriminate.
  - rewrite E2 in E1. discriminate.
  - rewrite E1 in E2. injection E2 as <-. reflexivity.
Qed.

Lemma subarea_hi ax a b : valid a -> subarea a b -> ax_lo ax b <= ax_lo ax a /\ ax_hi ax a <= ax_hi ax b.
Proof.
  intros V H. destruct (valid_min_max a V) as [H1 H2]. apply H in H1. apply H in H2.
  destruct ax; unfold covers in *; cbn; lia.
Qed.

Lemma vl_refresh_length ax t vs vs' :
  pos_ok vs -> all_valid (t_grid t) -> vl_refresh ax (t_grid t) vs = Ok vs' ->
  last_pos ax t (Z.of_nat (List.length vs')).
Proof.
  intros HP HV E. unfold vl_refresh in E.
  destruct (bounding_box_spec (t_grid t) HV) as [[Eg Eb]|(Hne & bb & Eb & Vb & Hb)]; rewrite Eb in E; cbn in E.
  - injection E as <-. left. auto.
  - assert (Hhi : 1 <= ax_hi ax bb) by (pose proof (ax_lo_valid ax bb Vb); lia).
    assert (L : List.length vs' = List.length (map view_reset (fit_to_size (ax_hi ax bb) true vs))).
    { eapply vl_adopt_all_length; eauto using vl_rep_reset. intros c Hc.
      rewrite map_length, fit_length_true by lia.
      apply (subarea_hi ax (c_box c) bb).
      - unfold all_valid in HV. rewrite Forall_forall in HV. apply HV, Hc.
      - apply (proj1 (Hb bb Vb) (subarea_refl bb)), Hc. }
    rewrite L, map_length, fit_length_true by lia. apply last_hi, Eb.
Qed.

(** the whole history of a rebuild, again, for the number of views *)
Lemma refresh_all_count t g o t' ax :
  st t g o -> all_valid g -> refresh_all t = (t', Ok tt) ->
  exists vs, t_views ax t' = Some vs /\ last_pos ax t' (Z.of_nat (List.length vs)).
Proof.
  intros HS HV. unfold refresh_all, sbind, slift, sget.
  destruct (views_get_st Rows t g o HS HV) as (t1 & rs & E1 & HS1 & _ & R1). rewrite E1.
  pose proof (proj1 HS1) as Eg1. rewrite Eg1.
  destruct (vl_rep_refresh Rows g rs (proj1 R1) HV) as (rs' & E2 & R2). rewrite E2.
  destruct (views_put_st Rows _ _ t1 g _ HS1 R2) as [E3 HS3]. rewrite E3.
  destruct (views_get_st Cols _ g _ HS3 HV) as (t4 & cs & E4 & HS4 & V4 & R4). rewrite E4.
  destruct (vl_rep_refresh Cols g cs (proj1 R4) HV) as (cs' & E5 & R5). rewrite E5.
  cbn. intros [= <-]. destruct ax; cbn [t_views t_set_views].
  - assert (Er : t_rows t4 = Some rs').
    { unfold views_get, sbind, sget in E4. rewrite t_views_set in E4. cbn in E4.
      destruct (t_cols t1).
      - injection E4 as <- _. reflexivity.
      - unfold slift in E4. destruct (vl_refresh Cols (t_grid t1) []); [|discriminate].
        injection E4 as <- _. reflexivity. }
    cbn. exists rs'. split; [exact Er|].
    pose proof (vl_refresh_length Rows t1 rs rs' (proj1 R1)) as H. rewrite Eg1 in H. specialize (H HV E2).
    unfold last_pos in *. cbn [t_grid]. rewrite Eg1 in H. rewrite (proj1 HS4). exact H.
  - exists cs'. split; [reflexivity|].
    pose proof (vl_refresh_length Cols t4 cs cs' (proj1 R4)) as H. rewrite (proj1 HS4) in H. specialize (H HV E5).
    unfold last_pos in *. cbn [t_grid]. rewrite (proj1 HS4) in *. exact H.
Qed.

Lemma view_count_some ax t vs : t_views ax t = Some vs -> view_count ax t (Z.of_nat (List.length vs)).
Proof. intros H. exists vs. unfold views_get, sbind, sget. rewrite H. split; reflexivity. Qed.

Lemma view_count_fun ax t n m : view_count ax t n -> view_count ax t m -> n = m.
Proof. intros (vs & E & ->) (vs' & E' & ->). congruence. Qed.

Lemma rebuild_on_grid op t t' :
  rebuilds op = true -> tstep op t = (t', Ok tt) ->
  exists t1, refresh_all t1 = (t', Ok tt) /\
    (forall o g, st t g o -> grid_inv g -> exists g', st t1 g' o /\ grid_inv g').
Proof.
  intros Hop E.
  assert (Hgen : forall A (m : SM grid A), (forall g, grid_inv g -> grid_inv (fst (m g))) ->
    (on_grid m ;;; refresh_all) t = (t', Ok tt) ->
    exists t1, refresh_all t1 = (t', Ok tt) /\
    (forall o g, st t g o -> grid_inv g -> exists g', st t1 g' o /\ grid_inv g')).
  { intros A m Hm H. unfold sbind in H. destruct (on_grid m t) as [t1 [a|e]] eqn:E1; [|discriminate].
    exists t1. split; [exact H|]. intros o g HS HI. destruct (on_grid_st m t g o HS) as (t1' & E1' & HS').
    rewrite E1 in E1'. injection E1' as <- _. eauto. }
  destruct op; try discriminate; cbn [tstep] in E.
  - eapply Hgen; [|exact E]. intros; apply grid_delitem_inv; assumption.
  - eapply Hgen; [|exact E]. intros; apply grid_merge_inv; assumption.
  - eapply Hgen; [|exact E]. intros; apply grid_expand_inv; assumption.
  - unfold unit_of, table_pop in E. unfold sbind at 1 2, sget, slift, sret in E.
    unfold sbind at 1 in E. destruct (table_getitem t v) as [d|e]; [|discriminate].
    unfold sbind at 1 in E. destruct (table_delitem v t) as [t2 [[]|e]] eqn:E2; [|discriminate].
    injection E as <-. eapply Hgen; [|exact E2]. intros; apply grid_delitem_inv; assumption.
Qed.

Lemma count_after_rebuild ax op t t' :
  treachable t -> rebuilds op = true -> tstep op t = (t', Ok tt) ->
  exists n, view_count ax t' n /\ last_pos ax t' n.
Proof.
  intros HR Hop E. destruct (treachable_tinv t HR) as (o & HS & HM).
  destruct (rebuild_on_grid op t t' Hop E) as (t1 & Er & H).
  destruct (H o _ HS (proj1 HM)) as (g' & HS1 & HI').
  destruct (refresh_all_count t1 g' o t' ax HS1 (proj1 HI') Er) as (vs & Ev & HL).
  eauto using view_count_some.
Qed.

Lemma count_at_least ax t :
  treachable t -> exists n m, view_count ax t n /\ last_pos ax t m /\ m <= n.
Proof.
  intros HR. destruct (treachable_tinv t HR) as (o & HS & HM).
  assert (HV : all_valid (t_grid t)) by apply HM.
  destruct (views_get_st ax t _ o HS HV) as (t' & vs & E & HS' & Ev & R).
  exists (Z.of_nat (List.length vs)).
  destruct (bounding_box_spec (t_grid t) HV) as [[Eg Eb]|(Hne & bb & Eb & Vb & Hb)].
  - exists 0. split; [exists vs; rewrite E; auto|]. split; [left; auto|lia].
  - exists (ax_hi ax bb). split; [exists vs; rewrite E; auto|]. split; [apply last_hi, Eb|].
    (* the hull of the cells is at most the number of views *)
    set (n := Z.of_nat (List.length vs)).
    assert (Hall : forall c, In c (t_grid t) -> ax_hi ax (c_box c) <= n).
    { intros c Hc. apply R. apply (seen_mem ax (t_grid t, o) HM), Hc. }
    destruct (t_grid t) as [|c0 g0] eqn:Eg; [congruence|].
    assert (H0 : valid (c_box c0) /\ ax_hi ax (c_box c0) <= n).
    { split; [inversion HV; assumption|apply Hall; left; reflexivity]. }
    assert (Vv : valid (match ax with Rows => MkBox (Coord 1 1) (Coord (cx (bmax bb)) n)
                                    | Cols => MkBox (Coord 1 1) (Coord n (cy (bmax bb))) end)).
    { pose proof (ax_lo_valid ax _ (proj1 H0)). destruct Vb as [[? ?] [? ?]], ax; cbn in *; split; cbn; lia. }
    assert (Hs : subarea bb (match ax with Rows => MkBox (Coord 1 1) (Coord (cx (bmax bb)) n)
                                    | Cols => MkBox (Coord 1 1) (Coord n (cy (bmax bb))) end)).
    { apply Hb; [exact Vv|]. intros c Hc k Hk.
      pose proof (proj1 (Hb bb Vb) (subarea_refl bb) c Hc k Hk) as Hkb. specialize (Hall c Hc).
      unfold covers, valid in *. destruct ax; cbn in *; lia. }
    apply (subarea_hi ax _ _ Vb) in Hs. destruct ax; cbn in *; lia.
Qed.
