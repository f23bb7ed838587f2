(** * Word tables: the rows are read one after the other *)
From Verif Require Import Base M_Geometry M_Xml M_Cell M_Grid M_Table M_Str M_CalsParser M_Ooxml.
From Verif Require Import S_Geometry S_Grid S_Table S_Int S_CalsParser S_Ooxml.
From Verif Require Import P_Geometry P_Cell P_Grid P_GridFacts P_Table P_TableStep P_TableFacts P_TableMore P_Cals P_CalsParser P_CalsLayout P_CalsSim P_OoxmlPath P_OoxmlRegions P_OoxmlEvents P_OoxmlLayout.
Open Scope string_scope.
Open Scope list_scope.
Open Scope Z_scope.

Lemma bind_ok {S A B} (m : SM S A) (k : A -> SM S B) s s' a : m s = (s', Ok a) -> (x <- m ;; k x) s = k a s'.
Proof. unfold sbind. intros ->. reflexivity. Qed.
Lemma bind_err {S A B} (m : SM S A) (k : A -> SM S B) s s' e : m s = (s', Err e) -> (x <- m ;; k x) s = (s', Err e).
Proof. unfold sbind. intros ->. reflexivity. Qed.
Lemma lift_ok {S A B} (r : result A) (k : A -> SM S B) s a : r = Ok a -> (x <- slift r ;; k x) s = k a s.
Proof. intros ->. reflexivity. Qed.
Lemma lift_err {S A B} (r : result A) (k : A -> SM S B) s e : r = Err e -> (x <- slift r ;; k x) s = (s, Err e).
Proof. intros ->. reflexivity. Qed.
Lemma get_bind {S B} (k : S -> SM S B) s : (x <- sget ;; k x) s = k s s.
Proof. reflexivity. Qed.
Lemma modify_bind {S B} (f : S -> S) (k : unit -> SM S B) s : (x <- smodify f ;; k x) s = k tt (f s).
Proof. reflexivity. Qed.
Lemma on_table_eq {A} (m : SM table A) d c p r t t' x : m t = (t', x) ->
  on_table m (MkPState d c p r (Some t)) = (MkPState d c p r (Some t'), x).
Proof. unfold on_table. cbn. intros ->. reflexivity. Qed.

Section Run.
  Variable o : ooxml_opts.
  Variable gcols : nat.
  Variable cw : nat -> styles * nature.
  Notation cols := (Z.of_nat gcols).
  Variable rs : nat -> styles.
  Notation laid := (laid gcols cw (tc_styles o) rs).
  Notation read := (read gcols cw (tc_styles o) rs).

  Lemma put_tc_eq n w d c r t : put_tc o n w (MkPState d c r (Some r) (Some t)) =
    match tc_styles o n with
    | Err e => (MkPState d c r (Some r) (Some t), Err e)
    | Ok st => let (t', x) := insert_cell Rows r (CList (map CNode (tc_content n))) (Some st) None w 1 t in
               (MkPState d c r (Some r) (Some t'), x)
    end.
  Proof.
    unfold put_tc, sbind, slift, sget. destruct (tc_styles o n) as [st|e]; [|reflexivity]. cbn [ps_row].
    unfold on_table. cbn [ps_table]. destruct (insert_cell _ _ _ _ _ _ _ t) as [t' x]. reflexivity.
  Qed.

  Lemma one_cell n w b done cur t : let r := Z.of_nat (List.length done) + 1 in let c := MkSlot n (row_width cur + 1) w b in
    columns n w -> (if b then continues n else begins n) ->
    laid t done cur -> sound done (add_slot cur c) ->
    (exists s' e, parse_tc o n (MkPState 1 (row_width cur + 1) r (Some r) (Some t)) = (s', Err e) /\ b = false /\ tc_styles o n = Err e) \/
    (exists t', parse_tc o n (MkPState 1 (row_width cur + 1) r (Some r) (Some t)) = (MkPState 1 (row_width cur + w) r (Some r) (Some t'), Ok tt) /\
       laid t' done (add_slot cur c)).
  Proof.
    intros r c Hw Hb HL HS. unfold parse_tc. rewrite (lift_ok _ _ _ _ (tc_width_spec _ _ Hw)).
    rewrite modify_bind. unfold add_col. cbn [ps_depth ps_col ps_row_pos ps_row ps_table].
    replace (row_width cur + 1 + (w - 1)) with (row_width cur + w) by lia.
    destruct b.
    - right. rewrite (tc_continues _ Hb). cbv [String.eqb Ascii.eqb Bool.eqb]. cbv iota.
      rewrite get_bind. cbn [ps_row ps_col].
      destruct (laid_expand gcols cw (tc_styles o) rs t done cur c HL HS eq_refl) as (t' & E & HL'). cbn [sl_width c] in E.
      replace (r - 1) with (Z.of_nat (List.length done)) by (unfold r; lia). rewrite (on_table_eq _ _ _ _ _ _ _ _ E). exists t'. split; [reflexivity|exact HL'].
    - assert (Ep : (match tc_merge n with
                    | None => put_tc o n w
                    | Some m => if String.eqb m "continue"
                                then s <- sget ;; match ps_row s with
                                                  | None => sraise EAttributeError
                                                  | Some r => on_table (table_expand (PTuple [PInt (ps_col s); PInt (r - 1)]) 0 1 None)
                                                  end
                                else if String.eqb m "restart" then put_tc o n w else sraise ENotImplementedError
                    end) = put_tc o n w).
      { destruct (tc_begins _ Hb) as [E|E]; rewrite E; reflexivity. }
      rewrite Ep, put_tc_eq. clear Ep. destruct (tc_styles o n) as [st|e] eqn:Es.
      + right. destruct (laid_insert gcols cw (tc_styles o) rs t done cur c st HL HS eq_refl Es) as (t' & E & HL'). cbn [sl_width c] in E. unfold shape in E. cbn [sl_cell c] in E.
        fold r in E. rewrite E. exists t'. split; [reflexivity|exact HL'].
      + left. do 2 eexists. split; [reflexivity|]. auto.
  Qed.

  Lemma more_cells done na tcs l : forall cur t, let r := Z.of_nat (List.length done) + 1 in
    wr_nature cur = na -> seated (row_width cur) tcs l -> laid t done cur -> sound done (MkWRow na (wr_slots cur ++ l)) ->
    (exists s' e, cells_run o tcs (MkPState 1 (row_width cur) r (Some r) (Some t)) = (s', Err e) /\
       exists n, In n tcs /\ begins n /\ tc_styles o n = Err e) \/
    (exists t' c, cells_run o tcs (MkPState 1 (row_width cur) r (Some r) (Some t)) = (MkPState 1 c r (Some r) (Some t'), Ok tt) /\
       laid t' done (MkWRow na (wr_slots cur ++ l))).
  Proof.
    revert l. induction tcs as [|n tcs IH]; intros l cur t r Hna Hs HL HS.
    - inversion Hs; subst. right. exists t, (row_width cur). split; [reflexivity|]. rewrite app_nil_r. destruct cur; exact HL.
    - cbn [cells_run]. unfold next_col. cbn [ps_depth ps_col ps_row_pos ps_row ps_table].
      assert (HX : exists w b l', l = MkSlot n (row_width cur + 1) w b :: l' /\ columns n w /\ (if b then continues n else begins n) /\ seated (row_width cur + w) tcs l').
      { inversion Hs; subst; [exists w, false, l0|exists w, true, l0]; auto. }
      destruct HX as (w & b & l' & -> & Hw & Hb & Hs'). set (c := MkSlot n (row_width cur + 1) w b) in *.
      assert (HSc : sound done (add_slot cur c)).
      { eapply sound_prefix; [|exact HS]. split; [cbn; congruence|]. exists l'. cbn. rewrite <- app_assoc. reflexivity. }
      assert (Ewid : row_width (add_slot cur c) = row_width cur + w).
      { rewrite (row_width_total (add_slot cur c)). cbn [add_slot wr_slots]. rewrite total_app, total_cons, total_nil, <- row_width_total. cbn [c sl_width]. lia. }
      unfold sbind. destruct (one_cell n w b done cur t Hw Hb HL HSc) as [(s' & e & E & -> & Ee)|(t' & E & HL')].
      + left. fold r in E. rewrite E. do 2 eexists. split; [reflexivity|]. exists n. split; [left; reflexivity|auto].
      + fold r in E. rewrite E. rewrite <- Ewid in *.
        destruct (IH l' (add_slot cur c) t' Hna Hs' HL') as [(s' & e & E' & x & Hx & Hbx & Ex)|(t2 & c2 & E' & HL2)].
        { cbn [add_slot wr_slots]. rewrite <- app_assoc. exact HS. }
        * left. fold r in E'. rewrite E'. do 2 eexists. split; [reflexivity|]. exists x. split; [right; exact Hx|auto].
        * right. exists t2, c2. fold r in E'. rewrite E'. split; [reflexivity|]. cbn [add_slot wr_slots] in HL2. rewrite <- app_assoc in HL2. exact HL2.
  Qed.

  Lemma tr_height_ok n st : tr_height o n = Ok st -> dict_ok st.
  Proof.
    unfold tr_height. destruct (w_first _ n); [|intros H; injection H as <-; constructor].
    destruct (lookup _ _) as [[k|]|e]; cbn [rbind]; [|intros H; injection H as <-; constructor|discriminate].
    destruct (ox_float o _) as [q|e]; cbn [rbind]; [|discriminate]. intros H. injection H as <-. constructor; [intros []|constructor].
  Qed.
  Lemma tr_ins_ok n : dict_ok (tr_ins n).
  Proof.
    unfold tr_ins. destruct (w_first _ n); [|constructor]. cbv zeta. repeat apply dict_ok_text_style. constructor; [intros []|constructor].
  Qed.

  (** The styles of a row: its height, then its revision marks *)
  Definition row_look (n : xnode) : styles :=
    match tr_height o n with Ok st => dupdate st (tr_ins n) | Err _ => tr_ins n end.

  (** Why a row cannot be read *)
  Definition row_trouble (n : xnode) (e : exn) : Prop :=
    tr_height o n = Err e \/ exists c, In c (parts n) /\ begins c /\ tc_styles o c = Err e.

  Lemma one_row n row done t rw : let r := Z.of_nat (List.length done) + 1 in
    row_reads n row -> read t done -> Forall neat done -> regular (done ++ [row]) -> rs (List.length done) = row_look n ->
    (exists s' e, row_run o n (MkPState 1 0 r rw (Some t)) = (s', Err e) /\
       (row_trouble n e \/ (e = EValueError /\ gcols = O /\ wr_slots row = []))) \/
    (exists t' c, row_run o n (MkPState 1 0 r rw (Some t)) = (MkPState 1 c r (Some r) (Some t'), Ok tt) /\ read t' (done ++ [row])).
  Proof.
    intros r [Hseat Hnat] HRd HN HReg Hrs. assert (Hr : 1 <= r) by (unfold r; lia).
    assert (HS : sound done row). { split; [exact HN|]. split; [exact (seated_tiled _ _ _ Hseat)|exact HReg]. }
    assert (Ena : tr_nature n = Ok (wr_nature row)).
    { destruct (tr_nature_spec n) as [H1 H2]. destruct Hnat as [[H ->]|[H ->]]; auto. }
    unfold row_run.
    destruct (tr_height o n) as [st1|e] eqn:Eh.
    2:{ left.
        destruct (laid_begin gcols cw (tc_styles o) rs t done (wr_nature row) [] [] HRd ltac:(constructor) ltac:(constructor)) as (t1 & t2 & t3 & t4 & E1 & E2 & _). fold r in E1, E2.
        exists (MkPState 1 0 r (Some r) (Some t2)), e. split; [|left; left; exact Eh].
        apply bind_err. unfold parse_tr. rewrite (lift_ok _ _ _ _ Ena). rewrite get_bind. cbn [ps_row_pos].
        rewrite (bind_ok _ _ _ _ _ (on_table_eq _ _ _ _ _ _ _ _ E1)). rewrite modify_bind. unfold with_row. cbn [ps_depth ps_col ps_row_pos ps_row ps_table].
        rewrite (bind_ok _ _ _ _ _ (on_table_eq _ _ _ _ _ _ _ _ E2)). apply lift_err, Eh. }
    destruct (laid_begin gcols cw (tc_styles o) rs t done (wr_nature row) st1 (tr_ins n) HRd (tr_height_ok _ _ Eh) (tr_ins_ok n)) as (t1 & t2 & t3 & t4 & E1 & E2 & E3 & E4 & HL0).
    assert (HL : laid t4 done (MkWRow (wr_nature row) [])).
    { apply HL0. intros k. rewrite Hrs. unfold row_look. rewrite Eh. apply dget_dupdate, tr_ins_ok. }
    fold r in E1, E2, E3, E4.
    assert (Etr : parse_tr o n (MkPState 1 0 r rw (Some t)) = (MkPState 1 0 r (Some r) (Some t4), Ok tt)).
    { unfold parse_tr. rewrite (lift_ok _ _ _ _ Ena). rewrite get_bind. cbn [ps_row_pos].
      rewrite (bind_ok _ _ _ _ _ (on_table_eq _ _ _ _ _ _ _ _ E1)). rewrite modify_bind. unfold with_row. cbn [ps_depth ps_col ps_row_pos ps_row ps_table].
      rewrite (bind_ok _ _ _ _ _ (on_table_eq _ _ _ _ _ _ _ _ E2)). rewrite (lift_ok _ _ _ _ Eh).
      rewrite (bind_ok _ _ _ _ _ (on_table_eq _ _ _ _ _ _ _ _ E3)). apply on_table_eq, E4. }
    rewrite (bind_ok _ _ _ _ _ Etr). clear E1 E2 E3 E4 Etr.
    destruct (more_cells done (wr_nature row) (parts n) (wr_slots row) (MkWRow (wr_nature row) []) t4 eq_refl Hseat HL) as [(s' & e & E & x & Hx & Hbx & Ex)|(t5 & c & E & HL5)].
    { destruct row; exact HS. }
    { left. change (row_width {| wr_nature := wr_nature row; wr_slots := [] |}) with 0 in E. fold r in E.
      exists s', e. split; [apply bind_err, E|]. left. right. eauto. }
    change (row_width {| wr_nature := wr_nature row; wr_slots := [] |}) with 0 in E. fold r in E. cbn [wr_slots app] in HL5.
    replace (MkWRow (wr_nature row) (wr_slots row)) with row in HL5 by (destruct row; reflexivity).
    rewrite (bind_ok _ _ _ _ _ E). clear E. unfold end_row. rewrite get_bind. cbn [ps_row ps_row_pos].
    pose proof (la_count _ _ _ _ _ _ _ HL5) as HN5. set (w := Z.max (widest cols done (Z.of_nat (List.length done))) (row_width row)) in *.
    destruct (colcount_get t5 w HN5) as (vs & Ev & En & _). rewrite (bind_ok _ _ _ _ _ (on_table_eq _ _ _ _ _ _ _ _ Ev)). rewrite <- En.
    destruct (box_new_form_ok [PInt 1; PInt r; PInt w; PInt r] 1 r w r) as [Bok Berr]; [constructor; constructor|].
    destruct (Z_le_gt_dec 1 w) as [Hw|Hw].
    - right. rewrite (lift_ok _ _ _ _ (Bok ltac:(lia))).
      assert (HR6 : treachable (fst (views_get Cols t5))).
      { rewrite <- (unit_of_state (views_get Cols)). exact (treach_step t5 (TReadViews Cols) (la_reach _ _ _ _ _ _ _ HL5)). }
      destruct (reads_exists Rows r _ HR6 Hr) as (v & Hv).
      destruct (laid_end gcols cw (tc_styles o) rs t5 done row v HL5 HS Hw Hv) as (t' & E & HRd'). fold r w in E.
      exists t', c. split; [|exact HRd']. apply on_table_eq.
      assert (Evg : view_get Rows r (fst (views_get Cols t5)) = (fst (view_get Rows r (fst (views_get Cols t5))), Ok v)).
      { unfold reads in Hv. destruct (view_get Rows r (fst (views_get Cols t5))) as [t6 q]. cbn in *. congruence. }
      rewrite (bind_ok _ _ _ _ _ Evg). exact E.
    - left. rewrite (lift_err _ _ _ _ (Berr ltac:(lia))). do 2 eexists. split; [reflexivity|]. right. split; [reflexivity|].
      pose proof (widest_ge cols done (Z.of_nat (List.length done))). split; [lia|].
      assert (Hn : neat row) by apply HS. destruct (wr_slots row) as [|c1 l1] eqn:El; [reflexivity|]. exfalso.
      unfold neat in Hn. rewrite El in Hn. inversion Hn as [|? ? ? Hs1 Hw1 Ht1]; subst. pose proof (tiled_total _ _ Ht1). unfold w in Hw. rewrite (row_width_total row), El, total_cons in Hw. lia.
  Qed.

  Lemma regular_app a b : regular (a ++ b) -> regular a.
  Proof.
    intros H r row s w [Hr1 Hr] Hc. assert (HL : (Z.to_nat (r - 1) < List.length a)%nat) by (apply nth_error_Some; congruence).
    destruct (H r row s w) as (above & c & [Ha1 Ha] & Hin & Hs); [split; [exact Hr1|rewrite nth_error_app1 by exact HL; exact Hr]|exact Hc|].
    exists above, c. split; [|auto]. split; [exact Ha1|]. rewrite nth_error_app1 in Ha by lia. exact Ha.
  Qed.

  Lemma all_rows trs rows : forall done t col rw, Forall2 row_reads trs rows -> read t done -> Forall neat done -> regular (done ++ rows) ->
    (forall i n, nth_error trs i = Some n -> rs (List.length done + i) = row_look n) ->
    (exists s' e, rows_run o trs (MkPState 1 col (Z.of_nat (List.length done)) rw (Some t)) = (s', Err e) /\
       (exists n row, In n trs /\ In row rows /\ row_reads n row /\ (row_trouble n e \/ (e = EValueError /\ gcols = O /\ wr_slots row = [])))) \/
    (exists s' t', rows_run o trs (MkPState 1 col (Z.of_nat (List.length done)) rw (Some t)) = (s', Ok tt) /\ ps_table s' = Some t' /\ read t' (done ++ rows)).
  Proof.
    intros done t col rw HF. revert done t col rw. induction HF as [|n row trs rows Hn HF IH]; intros done t col rw HRd HN HReg Hrs.
    - right. exists (MkPState 1 col (Z.of_nat (List.length done)) rw (Some t)), t. split; [reflexivity|]. split; [reflexivity|]. rewrite app_nil_r. exact HRd.
    - cbn [rows_run]. unfold next_row. cbn [ps_depth ps_row_pos ps_table].
      replace (done ++ row :: rows) with ((done ++ [row]) ++ rows) in * by (rewrite <- app_assoc; reflexivity).
      pose proof (regular_app _ _ HReg) as HReg1.
      destruct (one_row n row done t None Hn HRd HN HReg1 (eq_trans (f_equal rs (eq_sym (Nat.add_0_r _))) (Hrs O n eq_refl))) as [(s' & e & E & Hbad)|(t' & c & E & HRd')].
      + left. exists s', e. split; [apply bind_err, E|]. exists n, row. split; [left; reflexivity|]. split; [left; reflexivity|]. split; [exact Hn|exact Hbad].
      + rewrite (bind_ok _ _ _ _ _ E).
        replace (Z.of_nat (List.length done) + 1) with (Z.of_nat (List.length (done ++ [row]))) by (rewrite app_length; cbn; lia).
        assert (HN' : Forall neat (done ++ [row])).
        { apply Forall_app. split; [exact HN|]. constructor; [|constructor]. destruct Hn as [Hs _]. exact (seated_tiled _ _ _ Hs). }
        assert (Hrs' : forall i m, nth_error trs i = Some m -> rs (List.length (done ++ [row]) + i) = row_look m).
        { intros i m Hm. rewrite app_length. cbn [List.length]. rewrite <- Nat.add_assoc. exact (Hrs (S i) m Hm). }
        destruct (IH (done ++ [row]) t' c (Some (Z.of_nat (List.length (done ++ [row])))) HRd' HN' HReg Hrs') as [(s' & e & E' & n1 & row1 & H1 & H2 & H3)|H].
        * left. exists s', e. split; [exact E'|]. exists n1, row1. split; [right; exact H1|]. split; [right; exact H2|exact H3].
        * right. exact H.
  Qed.
End Run.

(** ** The columns of the grid *)

Section Grid.
  Variable o : ooxml_opts.

  Record gridded (t : table) (sts : list styles) : Prop := {
    gr_reach : treachable t;
    gr_empty : t_grid t = [];
    gr_count : colcount t (Z.of_nat (List.length sts));
    gr_cols : forall i, snd (attr Cols t i) = None /\ forall k, dget (fst (attr Cols t i)) k = dget (nth i sts []) k;
    gr_rows : forall i k, dget (fst (attr Rows t i)) k = None }.

  Lemma one_col t sts st : gridded t sts -> dict_ok st ->
    let p := Z.of_nat (List.length sts) + 1 in
    exists t', view_update_styles Cols p st t = (t', Ok tt) /\ gridded t' (sts ++ [dupdate [] st]).
  Proof.
    intros [HR HE HN HC HW] Hok p. assert (Hp : 1 <= p) by (unfold p; lia).
    set (f := fun v => with_styles (dupdate (v_styles v) st) v).
    assert (Ff : forall v, v_pos (f v) = v_pos v /\ v_owned (f v) = v_owned v /\ v_caught (f v) = v_caught v)
      by (intros; split; [|split]; reflexivity).
    destruct (modify_ok Cols p f t Ff HR Hp) as [E G]. set (t' := fst (view_modify Cols p f t)) in *.
    assert (HR' : treachable t') by exact (treach_step t (TUpdateStyles Cols p st) HR).
    exists t'. split; [exact E|]. split.
    - exact HR'.
    - rewrite G. exact HE.
    - rewrite app_length. cbn [List.length]. replace (Z.of_nat (List.length sts + 1)) with (Z.max (Z.of_nat (List.length sts)) p) by (unfold p; lia).
      apply colcount_modify_cols; assumption.
    - intros i. destruct (Nat.eq_dec i (List.length sts)) as [->|Hi].
      + rewrite app_nth2 by lia. rewrite Nat.sub_diag. cbn [nth].
        destruct (reads_exists Cols p t HR Hp) as (v & Hv). destruct (reads_exists Cols p t' HR' Hp) as (v' & Hv').
        pose proof (attr_at Cols p t v HR Hp Hv) as A. pose proof (attr_at Cols p t' v' HR' Hp Hv') as A'.
        replace (Z.to_nat (p - 1)) with (List.length sts) in A, A' by (unfold p; lia).
        destruct (HC (List.length sts)) as [HC1 HC2]. rewrite A in HC1, HC2. rewrite nth_overflow in HC2 by lia. cbn [fst snd] in HC1, HC2.
        destruct (attribute_set Cols p None None t t' v' v HR Hp Hv) as (_ & _ & B). destruct (B st Hok E Hv') as [B1 B2].
        rewrite A'. cbn [fst snd]. split; [congruence|]. intros k. rewrite B2, HC2, (dget_dupdate [] st k Hok). unfold or_opt. destruct (dget st k); reflexivity.
      + assert (EA : attr Cols t' i = attr Cols t i).
        { apply (attr_keep (TUpdateStyles Cols p st) t Cols i HR eq_refl). intros [_ [Y|Y]]; unfold p in *; lia. }
        rewrite EA.
        destruct (Nat.lt_ge_cases i (List.length sts)) as [L|L].
        * rewrite app_nth1 by exact L. apply HC.
        * rewrite app_nth2 by exact L. specialize (HC i). rewrite nth_overflow in HC by exact L.
          destruct (i - List.length sts)%nat as [|k] eqn:Ek; [lia|]. cbn. destruct k; exact HC.
    - intros i k. rewrite <- (HW i k). f_equal. f_equal. apply (attr_keep (TUpdateStyles Cols p st) t Rows i HR eq_refl). intros [X _]. discriminate.
  Qed.

  Lemma all_cols nodes : forall sts t, gridded t sts ->
    (exists s' e, cols_run o nodes (MkPState 1 (Z.of_nat (List.length sts)) 0 None (Some t)) = (s', Err e) /\ exists n, In n nodes /\ grid_col_styles o n = Err e) \/
    (exists t' more, cols_run o nodes (MkPState 1 (Z.of_nat (List.length sts)) 0 None (Some t)) =
         (MkPState 1 (Z.of_nat (List.length (sts ++ more))) 0 None (Some t'), Ok tt) /\
       Forall2 (fun n st => grid_col_styles o n = Ok st) nodes more /\ gridded t' (sts ++ more)).
  Proof.
    induction nodes as [|n nodes IH]; intros sts t HG.
    - right. exists t, []. rewrite app_nil_r. split; [reflexivity|]. split; [constructor|exact HG].
    - cbn [cols_run]. unfold next_col. cbn [ps_depth ps_col ps_row_pos ps_row ps_table].
      destruct (grid_col_styles o n) as [st|e] eqn:Es.
      + assert (Hst : exists x, st = [("width"%string, x)]).
        { unfold grid_col_styles in Es. destruct (lookup _ _) as [a|]; cbn [rbind] in Es; [|discriminate]. destruct (ox_float o a) as [q|]; cbn [rbind] in Es; [|discriminate].
          injection Es as <-. eauto. }
        destruct Hst as (x & ->).
        destruct (one_col t sts [("width"%string, x)] HG ltac:(constructor; [intros []|constructor])) as (t' & E & HG').
        change (dupdate [] [("width"%string, x)]) with [("width"%string, x)] in HG'.
        assert (Ec : parse_grid_col o n (MkPState 1 (Z.of_nat (List.length sts) + 1) 0 None (Some t)) = (MkPState 1 (Z.of_nat (List.length sts) + 1) 0 None (Some t'), Ok tt)).
        { unfold parse_grid_col. rewrite (lift_ok _ _ _ _ Es), get_bind. cbn [ps_col]. apply on_table_eq, E. }
        rewrite (bind_ok _ _ _ _ _ Ec). replace (Z.of_nat (List.length sts) + 1) with (Z.of_nat (List.length (sts ++ [[("width"%string, x)]]))) by (rewrite app_length; cbn; lia).
        destruct (IH _ t' HG') as [(s' & e & E' & n1 & Hn1 & He)|(t2 & more & E' & HF & HG2)].
        * left. exists s', e. split; [exact E'|]. exists n1. split; [right; exact Hn1|exact He].
        * right. exists t2, ([("width"%string, x)] :: more). rewrite <- app_assoc in E', HG2. split; [exact E'|]. split; [constructor; assumption|exact HG2].
      + left. exists (MkPState 1 (Z.of_nat (List.length sts) + 1) 0 None (Some t)), e. split; [|exists n; split; [left; reflexivity|exact Es]].
        apply bind_err. unfold parse_grid_col. apply lift_err, Es.
  Qed.
End Grid.
