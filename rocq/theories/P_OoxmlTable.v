(** * Word tables: the whole table *)
From Coq Require Import QArith.
From Verif Require Import Base M_Geometry M_Xml M_Cell M_Grid M_Table M_Str M_CalsParser M_Ooxml.
From Verif Require Import S_Geometry S_Grid S_Table S_Int S_CalsParser S_Ooxml.
From Verif Require Import P_Geometry P_Cell P_Grid P_GridFacts P_Table P_TableStep P_TableFacts P_TableMore P_Str P_Cals P_CalsParser P_CalsLayout P_CalsSim P_CalsTable P_OoxmlPath P_OoxmlRegions P_OoxmlEvents P_OoxmlLayout P_OoxmlRun.
Open Scope string_scope.
Open Scope list_scope.
Open Scope Z_scope.

Section Table.
  Variable o : ooxml_opts.

  (** Only the start of the table sets its own attributes. *)
  Lemma quiet_tc n : quiet (parse_tc o n).
  Proof.
    assert (Hput : forall w, quiet (put_tc o n w)).
    { intros w. unfold put_tc. apply quiet_bind; [apply quiet_lift|]. intros st. apply quiet_bind; [apply quiet_get|]. intros s.
      destruct (ps_row s) as [r|]; [apply quiet_table, keeps_insert|apply quiet_same; reflexivity]. }
    unfold parse_tc. apply quiet_bind; [apply quiet_lift|]. intros w.
    apply quiet_bind; [apply quiet_modify; intros; split; reflexivity|]. intros _.
    destruct (tc_merge n) as [m|]; [|apply Hput]. destruct (String.eqb m "continue").
    - apply quiet_bind; [apply quiet_get|]. intros s. destruct (ps_row s) as [r|]; [|apply quiet_same; reflexivity].
      apply quiet_table. exact (keeps_step (TExpand _ 0 1 None)).
    - destruct (String.eqb m "restart"); [apply Hput|apply quiet_same; reflexivity].
  Qed.
  Lemma quiet_tr n : quiet (parse_tr o n).
  Proof.
    unfold parse_tr. apply quiet_bind; [apply quiet_lift|]. intros na. apply quiet_bind; [apply quiet_get|]. intros s.
    apply quiet_bind; [apply quiet_table; exact (keeps_step (TReadView Rows _))|]. intros _.
    apply quiet_bind; [apply quiet_modify; intros; split; reflexivity|]. intros _.
    apply quiet_bind; [apply quiet_table; exact (keeps_step (TSetNature Rows _ _))|]. intros _.
    apply quiet_bind; [apply quiet_lift|]. intros st.
    apply quiet_bind; [apply quiet_table; exact (keeps_step (TUpdateStyles Rows _ _))|]. intros _.
    apply quiet_table. exact (keeps_step (TUpdateStyles Rows _ _)).
  Qed.
  Lemma quiet_after (f : pstate -> pstate) (m : SM pstate unit) :
    (forall s, ps_depth (f s) = ps_depth s /\ ps_table (f s) = ps_table s) -> quiet m -> quiet (fun s => m (f s)).
  Proof. intros Hf Hm. exact (quiet_bind (smodify f) (fun _ => m) (quiet_modify f Hf) (fun _ => Hm)). Qed.
  Lemma quiet_cells l : quiet (cells_run o l).
  Proof.
    induction l as [|c l IH]; [apply quiet_same; reflexivity|]. apply (quiet_after next_col); [intros; split; reflexivity|].
    apply quiet_bind; [apply quiet_tc|]. intros _. exact IH.
  Qed.
  Lemma quiet_rows l : quiet (rows_run o l).
  Proof.
    induction l as [|c l IH]; [apply quiet_same; reflexivity|]. apply (quiet_after next_row); [intros; split; reflexivity|].
    apply quiet_bind; [|intros _; exact IH]. unfold row_run. apply quiet_bind; [apply quiet_tr|]. intros _.
    apply quiet_bind; [apply quiet_cells|]. intros _. apply quiet_end_row.
  Qed.
  Lemma quiet_cols l : quiet (cols_run o l).
  Proof.
    induction l as [|c l IH]; [apply quiet_same; reflexivity|]. apply (quiet_after next_col); [intros; split; reflexivity|].
    apply quiet_bind; [|intros _; exact IH]. unfold parse_grid_col. apply quiet_bind; [apply quiet_lift|]. intros st.
    apply quiet_bind; [apply quiet_get|]. intros s. apply quiet_table. exact (keeps_step (TUpdateStyles Cols _ _)).
  Qed.

  Lemma gridded_read look rs t sts : gridded t sts -> read (List.length sts) (fun i => attr Cols t i) look rs t [].
  Proof.
    intros [HR HE HN HC HW]. split.
    - exact HR.
    - intros ct na b. unfold table_iter, grid_iter. rewrite HE. split; [intros (s & []) |].
      intros H. exfalso. destruct H as [r row c e l Hrow _ _ _ _|r row x Hrow _]; destruct Hrow as [_ Hrow]; destruct (Z.to_nat (r - 1)); discriminate.
    - exact HN.
    - intros q row [_ H]. destruct (Z.to_nat (q - 1)); discriminate.
    - reflexivity.
    - unfold table_iter, grid_iter. rewrite HE. intros d [].
    - exact HW.
  Qed.

  (** Why a table cannot be read *)
  Definition trouble (cols trs : list xnode) (rows : list wrow) (e : exn) : Prop :=
    (exists n, In n cols /\ grid_col_styles o n = Err e) \/
    (exists n, In n trs /\ row_trouble o n e) \/
    (e = EValueError /\ cols = [] /\ exists row, In row rows /\ wr_slots row = []).

  Lemma word_outcome sect tbl cols trs rows :
    word_table tbl cols trs -> Forall2 row_reads trs rows -> regular rows ->
    (exists e, ox_parse_table o sect tbl = Err e /\ (tbl_styles o sect tbl = Err e \/ trouble cols trs rows e)) \/
    (exists t st sts cw, ox_parse_table o sect tbl = Ok t /\ tbl_styles o sect tbl = Ok st /\ t_styles t = st /\ t_nature t = tbl_style_id tbl /\
       Forall2 (fun n st => grid_col_styles o n = Ok st) cols sts /\
       (forall i, snd (cw i) = None /\ forall k, dget (fst (cw i)) k = dget (nth i sts []) k) /\
       read (List.length cols) cw (tc_styles o) (fun i => nth i (map (row_look o) trs) []) t rows).
  Proof.
    intros HW HF HReg. rewrite (parse_word_table o sect tbl cols trs HW).
    destruct (tbl_styles o sect tbl) as [st|e]; [|left; exists e; split; [reflexivity|left; reflexivity]]. cbn [rbind].
    set (t0 := MkTable [] None None st (tbl_style_id tbl)).
    assert (HG0 : gridded t0 []).
    { split; [apply (treach_new [] (Some st) (tbl_style_id tbl)); reflexivity|reflexivity|cbn; auto| |reflexivity].
      intros i. cbn. split; [reflexivity|]. intros k. destruct i; reflexivity. }
    set (s0 := MkPState 1 0 0 None (Some t0)). remember ((cols_run o cols ;;; rows_run o trs) s0) as out eqn:Eo. unfold sbind in Eo.
    pose proof (quiet_cols cols s0 (gr_reach _ _ HG0)) as (HT1 & _ & HA1).
    destruct (all_cols o cols [] t0 HG0) as [(s' & e & E & n & Hn & He)|(t1 & sts & E & HFc & HG1)]; change (MkPState 1 (Z.of_nat (List.length (@nil styles))) 0 None (Some t0)) with s0 in E; rewrite E in *; cbn [fst snd] in *.
    { subst out. left. exists e. split; [reflexivity|]. right. left. eauto. }
    assert (Elen : List.length sts = List.length cols) by (clear - HFc; induction HFc; cbn; congruence).
    cbn [app] in *. pose proof (gridded_read (tc_styles o) (fun i => nth i (map (row_look o) trs) []) t1 sts HG1) as HRd. rewrite Elen in HRd.
    pose proof (quiet_rows trs (MkPState 1 (Z.of_nat (List.length sts)) 0 None (Some t1)) HT1) as (_ & _ & HA2).
    assert (Hrs : forall i n, nth_error trs i = Some n -> nth (0 + i) (map (row_look o) trs) [] = row_look o n).
    { intros i n Hn. apply nth_error_nth. cbn. apply map_nth_error, Hn. }
    destruct (all_rows o (List.length cols) (fun i => attr Cols t1 i) (fun i => nth i (map (row_look o) trs) []) trs rows [] t1 (Z.of_nat (List.length sts)) None HF HRd (Forall_nil _) HReg Hrs)
      as [(s' & e & E' & n & row & Hn & Hrow & _ & Hbad)|(s' & t' & E' & Et & HRd')]; cbn [List.length Z.of_nat] in E'; rewrite E' in *; cbn [fst snd] in *; subst out.
    - left. exists e. split; [reflexivity|]. right. right. destruct Hbad as [Hbad|(-> & Hc & Hs)]; [left; eauto|right].
      split; [reflexivity|]. split; [destruct cols; [reflexivity|discriminate]|eauto].
    - right. rewrite Et. cbn [rbind]. exists t', st, sts, (fun i => attr Cols t1 i). split; [reflexivity|]. split; [reflexivity|].
      rewrite HA1 in HA2. unfold attrs in HA2. rewrite Et in HA2. cbn in HA2. injection HA2 as HA3 HA4.
      split; [exact HA3|]. split; [exact HA4|]. split; [exact HFc|]. split; [apply HG1|exact HRd'].
  Qed.
End Table.
