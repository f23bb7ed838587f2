(** * A table is a grid with views *)
From Verif Require Import Base M_Geometry M_Xml M_Cell M_Grid M_Table.
From Verif Require Import S_Geometry S_Cell S_Grid S_Table P_Geometry P_Cell P_Grid P_GridFacts.
From Verif Require Import P_Table P_TableStep P_TableFacts P_TableMore.

(** The same outcome, the calls which answer nothing excepted *)
Definition same_outcome (op : top) (gops : list gop) (t : table) : Prop :=
  match gops with
  | [gop] => match op with TFill _ _ _ _ => True | _ => snd (tstep op t) = snd (gstep gop (t_grid t)) end
  | _ => True
  end.

Lemma table_pop_grid v t :
  treachable t ->
  t_grid (fst (table_pop v t)) = fst (grid_pop v (t_grid t)) /\ snd (table_pop v t) = snd (grid_pop v (t_grid t)).
Proof.
  intros HR. unfold table_pop, grid_pop, sbind, sget, slift, sret, table_getitem.
  destruct (grid_getitem (t_grid t) v) as [d|e]; [|split; reflexivity].
  destruct (table_del_grid v t HR) as [A B].
  destruct (table_delitem v t) as [t1 [[]|e]], (grid_delitem v (t_grid t)) as [g1 [[]|e']]; cbn in *;
    try discriminate; split; congruence.
Qed.

Lemma table_setdefault_grid v c t :
  treachable t ->
  t_grid (fst (table_setdefault v c t)) = fst (grid_setdefault v c (t_grid t)) /\
  snd (table_setdefault v c t) = snd (grid_setdefault v c (t_grid t)).
Proof.
  intros HR. unfold table_setdefault, grid_setdefault, table_getitem.
  destruct (grid_getitem (t_grid t) v) as [d|[]]; try (split; reflexivity).
  destruct (table_set_grid v c t HR) as [A B]. unfold sbind, sret.
  destruct (table_setitem v c t) as [t1 [[]|e]], (grid_setitem v c (t_grid t)) as [g1 [[]|e']]; cbn in *;
    try discriminate; split; congruence.
Qed.

Lemma grid_popitem_eq g : grid_popitem g = (g, Err (match g with [] => EKeyError | _ => ETypeError end)).
Proof. destruct g; reflexivity. Qed.

Lemma table_update_grid pairs t :
  treachable t ->
  t_grid (fst (table_update pairs t)) = fst (grid_update pairs (t_grid t)) /\
  snd (table_update pairs t) = snd (grid_update pairs (t_grid t)).
Proof.
  revert t. induction pairs as [|[v c] pairs IH]; intros t HR; [split; reflexivity|].
  unfold table_update, grid_update. cbn [siter fst snd]. unfold sbind.
  destruct (table_set_grid v c t HR) as [A B].
  pose proof (treach_step t (TSet v c) HR) as HR1. cbn [tstep] in HR1.
  destruct (table_setitem v c t) as [t1 [[]|e]], (grid_setitem v c (t_grid t)) as [g1 [[]|e']]; cbn [fst snd] in *;
    try discriminate.
  - subst g1. apply IH, HR1.
  - split; congruence.
Qed.

Lemma unit_of_snd {S A} (m : SM S A) s : snd (unit_of m s) = drop (snd (m s)).
Proof. unfold unit_of, sbind, sret. destruct (m s) as [s' [a|e]]; reflexivity. Qed.

Lemma refine_step op t :
  treachable t -> proper op ->
  exists gops, calls t op gops /\ t_grid (fst (tstep op t)) = grun (t_grid t) gops /\ same_outcome op gops t.
Proof.
  intros HR Hp. unfold grun.
  destruct op as [v c|v|a b app|v w hh app|bb ct s na|ax p ct s na w hh|ax|ax p|ax p na|ax p s|ax p s|v|v c|pairs|].
  - exists [GSet v c]. split; [constructor|]. apply table_set_grid, HR.
  - exists [GDel v]. split; [constructor|]. apply table_del_grid, HR.
  - exists [GMerge a b app]. split; [constructor|]. cbn [fold_left gstep same_outcome tstep].
    rewrite unit_of_state, unit_of_snd. apply table_merge_grid, HR.
  - exists [GExpand v w hh app]. split; [constructor|]. cbn [fold_left gstep same_outcome tstep].
    rewrite unit_of_state, unit_of_snd. apply table_expand_grid, HR.
  - destruct (treachable_tinv t HR) as (o & HT).
    destruct (fill_list ct s na (fill_positions bb) t o HT (NoDup_fill_positions bb)) as (t' & o' & ks & E & _ & _ & HP & ND & Hk & Hg).
    { intros [x y] H. apply fill_positions_in in H. unfold covers, valid in *. cbn in *. unfold valid in Hp. lia. }
    eexists. split.
    + apply (call_fill t bb ct s na ks ND). intros k. rewrite Hk, fill_positions_in, coord_eta. reflexivity.
    + cbn [tstep]. unfold table_fill_missing. rewrite E. cbn [fst]. split; [exact Hg|].
      destruct ks as [|? [|? ?]]; exact I.
  - cbn [proper] in Hp. destruct (treachable_tinv t HR) as (o & HS & HM).
    destruct (insert_cell_st ax p ct s na w hh t _ o HS (proj1 HM) (seen_mem ax (t_grid t, o) HM)) as (t1 & HS1 & H).
    destruct H as [(_ & Hn & _)|(q & i & v & Evg & Eq & Hq & Hi & Hqp & Hf & Hl & H)]; [lia|].
    specialize (Hqp Hp). subst q. rewrite Hqp in *.
    destruct H as [(Hn & E)|(Hw & Hh & E)].
    + exists []. split; [constructor; exact Hn|]. cbn [tstep]. rewrite E. cbn. split; [apply HS1|exact I].
    + eexists. split.
      * apply (call_insert t ax p ct s na w hh i (inherit na (v_nature v))); auto.
        -- split; [exact Hi|]. destruct ax; auto.
        -- intros n ->. reflexivity.
        -- intros -> v' Hv'. unfold reads in Hv'. rewrite Evg in Hv'. cbn in *. congruence.
      * cbn [tstep fold_left gstep same_outcome].
        assert (Ep : place ax p i = at_pos ax p i) by (destruct ax; reflexivity).
        assert (Es : seat ax p i w hh = pinned ax p i w hh) by (destruct ax; reflexivity).
        rewrite Ep, Es, E. change (match s with Some st => st | None => [] end) with (styles_of s).
        set (c := MkCell ct (styles_of s) (inherit na (v_nature v)) (pinned ax p i w hh)).
        destruct (table_setitem_st (PCoord (at_pos ax p i)) c t1 _ _ HS1 (proj1 HM))
          as [(e & Ee & Et)|(g' & c' & t' & Ee & Hget & HP & HI' & Et & HS')];
          rewrite Ee, Et; cbn; split; try reflexivity; [apply HS1|apply HS'].
  - exists []. split; [constructor|]. cbn [tstep fold_left]. rewrite unit_of_state.
    destruct (treachable_tinv t HR) as (o & HS & HM).
    destruct (views_get_st ax t _ o HS (proj1 (proj1 HM))) as (t' & vs & E & HS' & _). rewrite E.
    split; [apply HS'|exact I].
  - exists []. split; [constructor|]. cbn [tstep fold_left]. rewrite unit_of_state.
    destruct (treachable_tinv t HR) as (o & HS & HM).
    destruct (view_get_st ax p t _ o HS (proj1 (proj1 HM))) as (t' & vs & HS' & _ & _ & _ & E). rewrite E.
    split; [apply HS'|exact I].
  - exists []. split; [constructor|]. destruct (treachable_tinv t HR) as (o & HS & HM).
    destruct (view_modify_st ax p (with_nature na) t (t_grid t) o) as [HS' _]; auto; [apply HM|].
    split; [apply HS'|exact I].
  - exists []. split; [constructor|]. destruct (treachable_tinv t HR) as (o & HS & HM).
    destruct (view_modify_st ax p (with_styles (styles_of s)) t (t_grid t) o) as [HS' _]; auto; [apply HM|].
    split; [apply HS'|exact I].
  - exists []. split; [constructor|]. destruct (treachable_tinv t HR) as (o & HS & HM).
    destruct (view_modify_st ax p (fun v => with_styles (dupdate (v_styles v) s) v) t (t_grid t) o) as [HS' _]; auto; [apply HM|].
    split; [apply HS'|exact I].
  - exists [GPop v]. split; [constructor|]. cbn [fold_left gstep same_outcome tstep].
    rewrite !unit_of_state, !unit_of_snd. destruct (table_pop_grid v t HR) as [-> ->]. split; reflexivity.
  - exists [GSetdefault v c]. split; [constructor|]. cbn [fold_left gstep same_outcome tstep].
    rewrite !unit_of_state, !unit_of_snd. destruct (table_setdefault_grid v c t HR) as [-> ->]. split; reflexivity.
  - exists [GUpdate pairs]. split; [constructor|]. cbn [fold_left gstep same_outcome tstep].
    apply table_update_grid, HR.
  - exists [GPopitem]. split; [constructor|]. cbn [fold_left gstep same_outcome tstep].
    rewrite !unit_of_state, !unit_of_snd, table_popitem_eq, grid_popitem_eq. split; reflexivity.
Qed.

(** ** A failing insertion through a view only creates empty views *)

Lemma reads_after_read ax p t : treachable t -> forall ax' q v, 1 <= q ->
  (reads ax' q (fst (view_get ax p t)) v <-> reads ax' q t v).
Proof.
  intros HR ax' q v Hq. destruct (treachable_tinv t HR) as (o & HT). pose proof HT as [HS HM].
  assert (HV : all_valid (t_grid t)) by apply HM.
  pose proof (view_get_attr ax p t _ o HS HV) as HA.
  destruct (view_get_st ax p t _ o HS HV) as (t1 & vs & HS1 & _ & _ & _ & E). rewrite E in *. cbn [fst] in *.
  set (o1 := ghost_set ax (seen (ghost_of ax o) (t_grid t)) o) in *.
  pose proof (proj1 HS1) as Eg.
  assert (HT1 : tinv t1 o1).
  { split; rewrite Eg; [exact HS1|]. eapply gt_mem_inv; [apply gt_read|exact HM]. }
  destruct (reads_facts ax' q t o HT Hq) as (a & Ha & Pa & Oa & Ca).
  destruct (reads_facts ax' q t1 o1 HT1 Hq) as (b & Hb & Pb & Ob & Cb).
  assert (Hs : seen (ghost_of ax' o1) (t_grid t1) = seen (ghost_of ax' o) (t_grid t)).
  { rewrite Eg. unfold o1. destruct ax, ax', o as [[?|] [?|]]; reflexivity. }
  assert (ab : b = a).
  { pose proof (reads_attr ax' q t o a HT Hq Ha) as A1. pose proof (reads_attr ax' q t1 o1 b HT1 Hq Hb) as A2.
    rewrite HA, <- A1 in A2. injection A2 as E1 E2.
    assert (Fo : forall c, can_own ax' a c = can_own ax' b c) by (intros c; unfold can_own; rewrite Pa, Pb; reflexivity).
    assert (Fc : forall c, can_catch ax' a c = can_catch ax' b c) by (intros c; unfold can_catch; rewrite Pa, Pb; reflexivity).
    rewrite Hs in Ob, Cb. rewrite (filter_ext _ _ Fo) in Oa. rewrite (filter_ext _ _ Fc) in Ca.
    destruct a, b; cbn in *. congruence. }
  subst b. split; intros H.
  - rewrite (reads_fun _ _ _ _ _ H Hb). exact Ha.
  - rewrite (reads_fun _ _ _ _ _ H Ha). exact Hb.
Qed.

Lemma insert_failure ax p ct s na w h t t' e :
  treachable t -> insert_cell ax p ct s na w h t = (t', Err e) ->
  t_grid t' = t_grid t /\ forall ax' q v, 1 <= q -> (reads ax' q t' v <-> reads ax' q t v).
Proof.
  intros HR E. destruct (treachable_tinv t HR) as (o & HS & HM).
  assert (Et : t' = fst (view_get ax p t)).
  { unfold insert_cell, sbind, slift in E.
    destruct (view_get_st ax p t _ o HS (proj1 (proj1 HM))) as (t1 & vs & HS1 & _ & _ & _ & Ev).
    rewrite Ev in E. rewrite Ev. cbn [fst].
    destruct (py_nth vs (p - 1)) as [v|x]; [|congruence].
    destruct (next_free ax v) as [i|x]; [|congruence].
    destruct (cell_new ct s _ _ _ w h) as [c|x]; [|congruence].
    destruct (table_setitem_st (PCoord (c_min c)) c t1 _ _ HS1 (proj1 HM))
      as [(x & _ & Et)|(g' & c' & t2 & _ & _ & _ & _ & Et & _)]; rewrite Et in E; congruence. }
  subst t'. split.
  - destruct (view_get_st ax p t _ o HS (proj1 (proj1 HM))) as (t1 & vs & HS1 & _ & _ & _ & Ev). rewrite Ev. apply HS1.
  - apply reads_after_read, HR.
Qed.

(** ** Attributes along a history *)

Lemma attributes_kept_run ax p h : forall t v v',
  treachable t -> 1 <= p -> reads ax p t v ->
  (forall h1 op h2, h = h1 ++ op :: h2 ->
     ~ sets_attributes ax p op /\
     (rebuilds op = true -> exists n, last_pos ax (trun t (h1 ++ [op])) n /\ p <= n)) ->
  reads ax p (trun t h) v' ->
  v_styles v' = v_styles v /\ v_nature v' = v_nature v.
Proof.
  induction h as [|op h IH]; intros t v v' HR Hp Hv Hh Hv'.
  - cbn in Hv'. rewrite (reads_fun _ _ _ _ _ Hv' Hv). auto.
  - cbn in Hv'. pose proof (treach_step t op HR) as HR1.
    destruct (reads_exists ax p _ HR1 Hp) as [v1 Hv1].
    destruct (Hh [] op h eq_refl) as [Hs Hb].
    assert (A : v_styles v1 = v_styles v /\ v_nature v1 = v_nature v).
    { destruct (count_at_least ax _ HR1) as (_ & m & _ & HL & _).
      apply (attributes_kept op t ax p v v1 m); auto. intros Hr. destruct (Hb Hr) as (n & HL' & Hn). cbn in HL'.
      destruct (treachable_tinv _ HR1) as (o1 & HT1).
      assert (n = m); [|lia]. eapply last_pos_fun; eauto. apply HT1. }
    assert (B : v_styles v' = v_styles v1 /\ v_nature v' = v_nature v1); [|destruct A, B; split; congruence].
    eapply IH; [exact HR1|exact Hp|exact Hv1| |exact Hv'].
    intros h1 op' h2 ->. destruct (Hh (op :: h1) op' h2 eq_refl) as [C1 C2]. split; [exact C1|].
    intros Hr. exact (C2 Hr).
Qed.
