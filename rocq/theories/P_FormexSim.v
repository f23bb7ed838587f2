(** * The Formex parser follows the layout of the specification *)
From Verif Require Import Base M_Geometry M_Xml M_Cell M_Grid M_Table M_Regex M_Str M_Units M_Cals M_CalsParser M_FormexParser M_FormexRead.
From Verif Require Import S_Geometry S_Grid S_Table S_Units S_Cals S_Int S_CalsParser S_FormexRead.
From Verif Require Import P_Geometry P_Cell P_Grid P_GridFacts P_Table P_TableStep P_TableFacts P_TableMore P_Units P_Builder P_Str P_Cals P_Int P_CalsParser P_CalsLayout P_CalsEvents P_CalsSim P_Reading P_FormexEvents.
Open Scope list_scope.
Open Scope Z_scope.

(** ** The specification has one result *)

Lemma settles_fun ns watch e g g1 g2 : settles ns watch e g g1 -> settles ns watch e g g2 -> g1 = g2.
Proof.
  intros H1 H2. destruct H1 as [e0 n bb g1 Hw He Hin Hn Hb Hf|Hno]; destruct H2 as [e0' n' bb' g2 Hw' He' Hin' Hn' Hb' Hf'|Hno'].
  - rewrite (bounds_fun _ _ _ Hb Hb') in Hf. exact (covered_fun _ _ _ _ _ Hf Hf').
  - exfalso. apply Hno'. split; [exact Hw|]. eauto.
  - exfalso. apply Hno. split; [exact Hw'|]. eauto.
  - reflexivity.
Qed.
Lemma seated_inv ns watch r q qs n g n2 g2 :
  seated ns watch r (q :: qs) n g n2 g2 ->
  exists i g1, 1 <= q_width q /\ 1 <= q_height q /\ first_free Rows r i (map snd g) /\
    (forall d, In d (map snd g) -> ~ clash (c_box d) (seat Rows r i (q_width q) (q_height q))) /\
    settles ns watch (q_elem q) ((q_look q, bare (q_content q) (q_nature q) (seat Rows r i (q_width q) (q_height q))) :: g) g1 /\
    seated ns watch r qs (Z.max n (i + q_width q - 1)) g1 n2 g2.
Proof. intros H. inversion H; subst. do 2 eexists. eauto 10. Qed.
Lemma seated_fun ns watch r qs n g n1 g1 n2 g2 :
  seated ns watch r qs n g n1 g1 -> seated ns watch r qs n g n2 g2 -> n1 = n2 /\ g1 = g2.
Proof.
  intros H. revert n2 g2. induction H as [n g|q qs n g i g1 n2 g2 Hw Hh Hf Hc Hset Hp IH]; intros n3 g3 H'; [inversion H'; auto|].
  apply seated_inv in H' as (j & g1' & _ & _ & Hf' & _ & Hset' & Hp').
  assert (i = j) by (eapply first_free_fun; eassumption). subst j.
  assert (g1 = g1') by (eapply settles_fun; eassumption). subst g1'. apply IH; assumption.
Qed.
Lemma seated_app ns watch r q1 q2 n g n1 g1 n2 g2 :
  seated ns watch r q1 n g n1 g1 -> seated ns watch r q2 n1 g1 n2 g2 -> seated ns watch r (q1 ++ q2) n g n2 g2.
Proof. intros H HX. induction H; cbn [app]; [exact HX|]. econstructor; eauto. Qed.
Lemma seated_split ns watch r q1 q2 : forall n g n2 g2, seated ns watch r (q1 ++ q2) n g n2 g2 ->
  exists n1 g1, seated ns watch r q1 n g n1 g1 /\ seated ns watch r q2 n1 g1 n2 g2.
Proof.
  induction q1 as [|q q1 IH]; intros n g n2 g2 H; cbn [app] in H; [exists n, g; split; [constructor|exact H]|].
  apply seated_inv in H as (i & g1 & Hw & Hh & Hf & Hc & Hs & H). destruct (IH _ _ _ _ H) as (n1 & g1' & A & B).
  exists n1, g1'. split; [econstructor; eauto|exact B].
Qed.

Lemma cell_request_fun ns cns row e q q' : cell_request ns cns row e q -> cell_request ns cns row e q' -> q = q'.
Proof.
  intros [w h H] [w' h' H']. destruct (fcell_span_fun (MkPFmxOpts ns cns false) e w h w' h' H H') as [-> ->]. reflexivity.
Qed.
Lemma asks_fun ns cns e qs qs' : asks ns cns e qs -> asks ns cns e qs' -> qs = qs'.
Proof.
  assert (HT : is_title ns e -> named ns "ROW" e -> False).
  { intros [H|H] H'; pose proof (named_one _ _ _ _ H H'); discriminate. }
  intros [q1 Hr HF|a b Ht Ha Hb] [q2 Hr' HF'|a' b' Ht' Ha' Hb']; try (exfalso; eauto; fail).
  - revert q2 HF'. induction HF as [|c q l ql Hq HF IH]; intros q2 HF'; inversion HF' as [|c' q' l' ql' Hq' HF'']; subst; [reflexivity|].
    rewrite (cell_request_fun _ _ _ _ _ _ Hq Hq'). f_equal. apply IH, HF''.
  - rewrite (number_or_one_fun _ _ _ Ha Ha'), (number_or_one_fun _ _ _ Hb Hb'). reflexivity.
Qed.
Lemma flays_column_inv ns cns em watch c its r k n g cs l' :
  flays ns cns em watch (FColumn c :: its) (MkFLayout r k n g cs) l' ->
  exists m, column_number cns c k m /\ flays ns cns em watch its (MkFLayout r (k + 1) (Z.max n m) g (looks_with cns m c cs)) l'.
Proof. intros H. inversion H; subst. eauto. Qed.
Lemma flays_line_inv ns cns em watch b e its r k n g cs l' :
  flays ns cns em watch (FLine b e :: its) (MkFLayout r k n g cs) l' ->
  exists qs n1 g1 g2, asks ns cns e qs /\ seated ns watch (r + 1) qs n g n1 g1 /\ 1 <= n1 /\
    covered (MkBox (Coord 1 (r + 1)) (Coord n1 (r + 1))) (Some (line_nature ns e)) g1 g2 /\
    flays ns cns em watch its (MkFLayout (r + 1) (Z.of_nat (List.length (of_name ns "CELL" (x_children e)))) n1 g2 cs) l'.
Proof. intros H. inversion H; subst. do 4 eexists. eauto. Qed.
Lemma flays_notes_inv ns cns em watch e its r k n g cs l' :
  flays ns cns em watch (FNotes e :: its) (MkFLayout r k n g cs) l' ->
  exists bb n1 g1, bounds (map snd g) bb /\
    seated ns watch (r + 1) [notes_request ns cns em e (cx (bmax bb) - cx (bmin bb) + 1)] n g n1 g1 /\
    flays ns cns em watch its (MkFLayout (r + 1) 0 n1 g1 cs) l'.
Proof. intros H. inversion H; subst. do 3 eexists. eauto. Qed.
Lemma flays_fun ns cns em watch its l l1 l2 : flays ns cns em watch its l l1 -> flays ns cns em watch its l l2 -> l1 = l2.
Proof.
  intros H. revert l2.
  induction H as [l|c its r k n g cs m l' Hm H IH|b e its r k n g cs qs n1 g1 g2 l' Ha Hp Hn Hf H IH|e its r k n g cs bb n1 g1 l' Hb Hp H IH]; intros l2 H'.
  - inversion H'. reflexivity.
  - apply flays_column_inv in H' as (m' & Hm' & H'). assert (m = m') by (eapply column_number_fun; eassumption). subst. auto.
  - apply flays_line_inv in H' as (qs' & n2 & g3 & g4 & Ha' & Hp' & _ & Hf' & H'). assert (qs = qs') by (eapply asks_fun; eassumption). subst qs'.
    destruct (seated_fun _ _ _ _ _ _ _ _ _ _ Hp Hp') as [<- <-].
    assert (g2 = g4) by (eapply covered_fun; eassumption). subst. auto.
  - apply flays_notes_inv in H' as (bb' & n2 & g3 & Hb' & Hp' & H'). assert (bb = bb') by (eapply bounds_fun; eassumption). subst bb'.
    destruct (seated_fun _ _ _ _ _ _ _ _ _ _ Hp Hp') as [<- <-]. auto.
Qed.
Lemma flays_app ns cns em watch i1 i2 l l1 l2 :
  flays ns cns em watch i1 l l1 -> flays ns cns em watch i2 l1 l2 -> flays ns cns em watch (i1 ++ i2) l l2.
Proof. intros H HX. induction H; cbn [app]; [exact HX|econstructor; eauto|econstructor; eauto|econstructor; eauto]. Qed.
Lemma flays_split ns cns em watch i1 i2 l l2 : flays ns cns em watch (i1 ++ i2) l l2 ->
  exists l1, flays ns cns em watch i1 l l1 /\ flays ns cns em watch i2 l1 l2.
Proof.
  revert l. induction i1 as [|i i1 IH]; intros l H; cbn [app] in H; [exists l; split; [constructor|exact H]|].
  destruct l as [r k n g cs], i as [c|b e|e].
  - apply flays_column_inv in H as (m & Hm & H). destruct (IH _ H) as (l1 & A & B). exists l1. split; [econstructor; eauto|exact B].
  - apply flays_line_inv in H as (qs & n1 & g1 & g2 & Ha & Hp & Hn & Hf & H). destruct (IH _ H) as (l1 & A & B). exists l1. split; [econstructor; eauto|exact B].
  - apply flays_notes_inv in H as (bb & n1 & g1 & Hb & Hp & H). destruct (IH _ H) as (l1 & A & B). exists l1. split; [econstructor; eauto|exact B].
Qed.

(** ** The steps of the parser *)

Lemma view_get_ok r t v : reads Rows r t v -> view_get Rows r t = (fst (view_get Rows r t), Ok v).
Proof. unfold reads. destruct (view_get Rows r t) as [t1 q]. cbn. congruence. Qed.

Lemma insert_sim t n g rows cs d k r ct st f na na0 lk0 lk w h :
  follows t n g rows cs -> 1 <= r -> nth_error rows (Z.to_nat (r - 1)) = Some (na, lk0) -> f (Some na) = Some na0 ->
  styled (match st with Some s => s | None => [] end) lk ->
  exists i, first_free Rows r i (map snd g) /\
    let out := insert_in_row ct st f w h (MkPState d k r (Some r) (Some t)) in
    ((exists s' x, out = (s', Err x)) /\
       (~ (1 <= w /\ 1 <= h) \/ exists c, In c (map snd g) /\ clash (c_box c) (seat Rows r i w h))) \/
    (1 <= w /\ 1 <= h /\ (forall c, In c (map snd g) -> ~ clash (c_box c) (seat Rows r i w h)) /\
     exists t', out = (MkPState d k r (Some r) (Some t'), Ok tt) /\
       follows t' (Z.max n (i + w - 1)) ((lk, bare ct (Some na0) (seat Rows r i w h)) :: g) rows cs).
Proof.
  intros H Hr Hn Hf Hst.
  destruct (reads_exists Rows r t (fo_reach _ _ _ _ _ H) Hr) as (v & Hv).
  pose proof (follows_read t n g rows cs r H) as H1.
  pose proof (view_get_ok r t v Hv) as Ev. set (t1 := fst (view_get Rows r t)) in *. clearbody t1.
  destruct (reads_exists Rows r t1 (fo_reach _ _ _ _ _ H1) Hr) as (v1 & Hv1).
  destruct (follows_insert t1 n g rows cs r ct st na0 lk w h v1 H1 Hr Hv1 Hst) as (i & Hi & HI). cbv zeta in HI.
  exists i. split; [exact Hi|]. cbv zeta. unfold insert_in_row. unfold sbind at 1 3. unfold sget. cbn [ps_row]. unfold on_table. cbn [ps_table].
  unfold sbind at 1 2. rewrite Ev. rewrite (follows_nature _ _ _ _ _ r v na lk0 H Hr Hv Hn), Hf.
  destruct HI as [[(x & t2 & E2) Hbad]|(Hw & Hh & Hno & t2 & E2 & H2)]; rewrite E2.
  - left. split; [eauto|exact Hbad].
  - right. split; [exact Hw|]. split; [exact Hh|]. split; [exact Hno|]. exists t2. split; [reflexivity|exact H2].
Qed.
Lemma enter_sim t n g rows cs d k r ro na :
  follows t n g rows cs -> Z.of_nat (List.length rows) = r - 1 ->
  exists t', enter_row (Some na) (MkPState d k r ro (Some t)) = (MkPState d k r (Some r) (Some t'), Ok tt) /\
    follows t' n g (rows ++ [(na, no_look)]) cs.
Proof.
  intros H Hr. destruct (follows_enter t n g rows cs r na H Hr) as (t1 & t2 & E1 & E2 & H2). exists t2. split; [|exact H2].
  unfold enter_row, sbind, sget, smodify, sput, on_table, sbind, sget, sput. cbn [ps_row_pos ps_table].
  rewrite E1. cbn [with_table with_row ps_depth ps_col ps_row_pos ps_row ps_table]. rewrite E2. reflexivity.
Qed.
Lemma style_sim t n g rows cs d k r ro na st lk :
  follows t n g (rows ++ [(na, no_look)]) cs -> Z.of_nat (List.length rows) = r - 1 -> styled st lk ->
  exists t', style_row st (MkPState d k r ro (Some t)) = (MkPState d k r ro (Some t'), Ok tt) /\
    follows t' n g (rows ++ [(na, lk)]) cs.
Proof.
  intros H Hr Hst. destruct (follows_style t n g rows cs r na lk st H Hr Hst) as (t2 & E2 & H2). exists t2. split; [|exact H2].
  unfold style_row, sbind, sget, on_table. cbn [ps_row_pos ps_table]. rewrite E2. reflexivity.
Qed.
Lemma end_row_sim t n g rows cs d k r na lk :
  follows t n g rows cs -> 1 <= r -> nth_error rows (Z.to_nat (r - 1)) = Some (na, lk) ->
  let out := end_row (MkPState d k r (Some r) (Some t)) in
  (n < 1 /\ exists s' x, out = (s', Err x)) \/
  (1 <= n /\ exists t' g', out = (MkPState d k r (Some r) (Some t'), Ok tt) /\
     covered (MkBox (Coord 1 r) (Coord n r)) (Some na) g g' /\ follows t' n g' rows cs).
Proof.
  intros H4 Hr Hnth. cbv zeta. unfold end_row. unfold sbind at 1 2 5 6. unfold sget. unfold on_table at 1 3. cbn [ps_table].
  destruct (follows_read_cols t n g rows cs H4) as (vs & Ev & En & H5). rewrite Ev. rewrite <- En.
  set (t5 := fst (views_get Cols t)) in *. clearbody t5. cbn [with_table ps_depth ps_col ps_row_pos ps_row ps_table].
  destruct (box_new_form_ok [PInt 1; PInt r; PInt n; PInt r] 1 r n r) as [Bok Berr]; [constructor; constructor|].
  unfold sbind at 1 3. unfold slift.
  destruct (Z_le_gt_dec 1 n) as [Hn1|Hn1].
  2:{ left. split; [lia|]. rewrite Berr by lia. do 2 eexists. reflexivity. }
  right. split; [exact Hn1|]. rewrite Bok by lia. cbn [with_table ps_depth ps_col ps_row_pos ps_row ps_table].
  destruct (reads_exists Rows r t5 (fo_reach _ _ _ _ _ H5) Hr) as (v & Hv).
  pose proof (view_get_ok r t5 v Hv) as Evg.
  pose proof (follows_nature _ _ _ _ _ r v na lk H5 Hr Hv Hnth) as Hvn.
  pose proof (follows_read t5 n g rows cs r H5) as H6. set (t6 := fst (view_get Rows r t5)) in *. clearbody t6.
  destruct (follows_fill t6 n g rows cs (MkBox (Coord 1 r) (Coord n r)) (Some na) H6) as (t7 & g2 & E7 & Hf & H7).
  { unfold valid. cbn. lia. } { cbn. lia. }
  exists t7, g2. split; [|split; [exact Hf|exact H7]].
  unfold on_table, sbind. cbn [ps_table with_table]. rewrite Evg, Hvn, E7. reflexivity.
Qed.

Section Sim.
  Variable o : pfmx_opts.
  Notation ns := (pf_ns o).
  Notation cns := (pf_cals_ns o).
  Notation em := (pf_embed o).
  Notation run := (siter (fparse_event o)).

  Lemma not_corpus name n : named ns name n -> name <> "CORPUS"%string -> ~ named ns "CORPUS" n.
  Proof. intros H1 H2 H3. apply H2. exact (named_one ns _ _ n H1 H3). Qed.

  Lemma fcontent_sim e p b s t n s0 g rows cs :
    fills ns cns e -> ps_depth s = 1 -> ps_table s = Some t -> follows t n (s0 :: g) rows cs ->
    exists t' g', run (fwalks o p b [] (x_children e)) s = (with_table (Some t') s, Ok tt) /\
      settles ns true (Some e) (s0 :: g) g' /\ follows t' n g' rows cs.
  Proof.
    intros Hh Hd Et H.
    assert (Hs : working s) by (split; [exact Hd|]; exists t; split; [exact Et|apply H]).
    destruct (fills_run o e p b s Hh Hs) as [[(c & Hc & Hn) E]|[Hno E]]; rewrite E.
    - destruct (follows_end s t n s0 g rows cs H Et) as (bb & t' & g' & Hb & Hf & E' & H').
      exists t', g'. split; [exact E'|]. split; [|exact H']. eapply settles_nested; eauto.
    - exists t, (s0 :: g). split; [f_equal; destruct s; cbn in *; subst; reflexivity|]. split; [|exact H].
      apply settles_plain. intros (_ & e0 & c & [= <-] & Hc & Hn). exact (Hno c Hc Hn).
  Qed.

  (** The cells of a row *)
  Lemma cells_sim row r rows cst :
    1 <= r -> named ns "ROW" row -> (exists lk, nth_error rows (Z.to_nat (r - 1)) = Some (line_nature ns row, lk)) ->
    forall ch t k n g b seen out,
    run (fwalks o (Some row) b seen ch) (MkPState 1 k r (Some r) (Some t)) = out ->
    (forall e, In e ch -> stranger ns cns e \/ (named ns "CELL" e /\ fills ns cns e)) ->
    0 <= k -> follows t n g rows cst ->
    (exists t' n' g' qs,
       out = (MkPState 1 (k + Z.of_nat (List.length (of_name ns "CELL" ch))) r (Some r) (Some t'), Ok tt) /\
       Forall2 (cell_request ns cns row) (of_name ns "CELL" ch) qs /\
       seated ns true r qs n g n' g' /\ follows t' n' g' rows cst) \/
    (exists s' x, out = (s', Err x) /\
       forall qs n' g', Forall2 (cell_request ns cns row) (of_name ns "CELL" ch) qs -> ~ seated ns true r qs n g n' g').
  Proof.
    intros Hr Hrow (lk0 & Hnth). induction ch as [|e ch IH]; intros t k n g b seen out Eout Hreg Hk H.
    - left. exists t, n, g, []. cbn [fwalks of_name filter List.length siter] in *. replace (k + Z.of_nat 0) with k by lia.
      split; [symmetry; exact Eout|]. split; [constructor|]. split; [constructor|exact H].
    - assert (Hreg' : forall e', In e' ch -> stranger ns cns e' \/ (named ns "CELL" e' /\ fills ns cns e'))
        by (intros; apply Hreg; right; assumption).
      cbn [fwalks of_name filter] in *. fold (of_name ns "CELL" ch).
      destruct (Hreg e (or_introl eq_refl)) as [Hfor|[He Hh]].
      { rewrite (fwalk_stranger o e Hfor) in Eout. cbn [app] in Eout.
        assert (Hno : x_has_tag e (expanded ns "CELL") = false).
        { apply no_tag. intros HC. inversion Hfor as [n' Hn _]; subst. apply Hn. left. exists "CELL"%string. split; [cbn; tauto|exact HC]. }
        rewrite Hno. apply (IH t k n g b (seen ++ [e]) out); assumption. }
      assert (Hyes : x_has_tag e (expanded ns "CELL") = true) by (apply tag_spec, He). rewrite Hyes.
      pose proof (not_corpus "CELL" e He ltac:(discriminate)) as Hnc.
      rewrite (fwalk_named o "CELL" (Some row) b seen e ltac:(cbn; tauto) He) in Eout.
      rewrite <- app_comm_cons, <- app_assoc in Eout. rewrite frun_cons in Eout. unfold sbind at 1 in Eout.
      rewrite (fevent_start o e (Some row) b seen _ Hnc) in Eout by reflexivity.
      rewrite (fon_start_eq o "CELL" e (Some row) b seen ltac:(cbn; tauto) He) in Eout. change (String.eqb "CELL" "CELL") with true in Eout. cbv iota in Eout.
      unfold sbind at 1 in Eout. rewrite smodify_eq in Eout.
      change (next_col (MkPState 1 k r (Some r) (Some t))) with (MkPState 1 (k + 1) r (Some r) (Some t)) in Eout.
      unfold parse_fmx_cell in Eout. unfold sbind at 1 in Eout. unfold slift in Eout.
      destruct (fmx_cell_spans o e) as [[w h]|x] eqn:Ew.
      2:{ right. do 2 eexists. split; [symmetry; exact Eout|]. intros qs n' g' HF _.
          inversion HF as [|e' q l ql Hq HF']; subst. destruct Hq as [w h Hs]. apply (fmx_cell_spans_spec o) in Hs. congruence. }
      apply fmx_cell_spans_spec in Ew. cbn [fst snd] in Eout.
      set (na0 := match nature_of_type (attribute ns e "TYPE") with Some n => n | None => line_nature ns row end) in *.
      destruct (insert_sim t n g rows cst 1 (k + 1) r (fmx_content o e) (Some (fmx_cell_styles o e (Some row))) (fmx_cell_nature o e)
                  (line_nature ns row) na0 lk0 (fcell_style ns cns row e) w h H Hr Hnth (fmx_cell_nature_spec o e _) (fmx_cell_styles_spec o e row))
        as (i & Hi & HI). cbv zeta in HI. rewrite fmx_content_spec in HI, Eout.
      set (q0 := Ask (Some e) (fcontent_of ns e) (Some na0) (fcell_style ns cns row e) w h).
      assert (Hq0 : cell_request ns cns row e q0) by (constructor; exact Ew).
      destruct HI as [[(s2 & x & E2) Hbad]|(Hw & Hhh & Hno & t2 & E2 & H2)]; rewrite E2 in Eout.
      { right. do 2 eexists. split; [symmetry; exact Eout|]. intros qs n' g' HF Hp.
        inversion HF as [|e' q l ql Hq HF']; subst. rewrite (cell_request_fun _ _ _ _ _ _ Hq Hq0) in Hp.
        apply seated_inv in Hp as (j & g1' & Hw' & Hh' & Hf' & Hc' & _). cbn [q0 q_width q_height] in *.
        assert (i = j) by (eapply first_free_fun; eassumption). subst j.
        destruct Hbad as [Hbad|(d & Hd & Hc)]; [tauto|]. eapply Hc'; eauto. }
      rewrite siter_app in Eout. unfold sbind at 1 in Eout.
      destruct (fcontent_sim e (Some e) (below o b e) (MkPState 1 (k + 1) r (Some r) (Some t2)) t2 _ _ g rows cst Hh eq_refl eq_refl H2)
        as (t3 & g3 & E3 & Hset & H3). rewrite E3 in Eout. cbn [with_table ps_depth ps_col ps_row_pos ps_row] in Eout.
      rewrite <- app_comm_cons in Eout. cbn [app] in Eout. rewrite frun_cons in Eout. unfold sbind at 1 in Eout.
      rewrite (fevent_end o e (Some row) b seen _ Hnc) in Eout by reflexivity.
      rewrite (fon_end_eq o "CELL" e _ _ _ He) in Eout. cbv [String.eqb Ascii.eqb Bool.eqb orb] in Eout. cbv iota in Eout.
      unfold sret at 1 in Eout.
      destruct (IH t3 (k + 1) _ g3 b (seen ++ [e]) out Eout Hreg' ltac:(lia) H3) as [(t' & n' & g' & qs & E & HF & Hp & H')|(s' & x & E & Hp)].
      + left. exists t', n', g', (q0 :: qs). split; [|split; [|split; [|exact H']]].
        * rewrite E. cbn [List.length]. do 2 f_equal. lia.
        * constructor; assumption.
        * eapply seated_cons; eauto.
      + right. exists s', x. split; [exact E|]. intros qs n' g' HF Hp'.
        inversion HF as [|e' q l ql Hq HF']; subst. rewrite (cell_request_fun _ _ _ _ _ _ Hq Hq0) in Hp'.
        apply seated_inv in Hp' as (j & g1' & Hw' & Hh' & Hf' & Hc' & Hset' & Hp'). cbn [q0 q_width q_height q_elem q_look q_content q_nature] in *.
        assert (i = j) by (eapply first_free_fun; eassumption). subst j.
        assert (g3 = g1') by (eapply settles_fun; eassumption). subst g1'. eapply Hp; eauto.
  Qed.

  (** The cells before a title *)
  Lemma blanks_sim d k r rows cst lk0 :
    1 <= r -> nth_error rows (Z.to_nat (r - 1)) = Some ("body"%string, lk0) ->
    forall (l : list Z) t n g out,
    siter (fun _ => insert_in_row CNone None (fun na => na) 1 1) l (MkPState d k r (Some r) (Some t)) = out ->
    follows t n g rows cst ->
    let qs := repeat (Ask None CNone (Some "body"%string) no_look 1 1) (List.length l) in
    (exists t' n' g', out = (MkPState d k r (Some r) (Some t'), Ok tt) /\ seated ns true r qs n g n' g' /\ follows t' n' g' rows cst) \/
    (exists s' x, out = (s', Err x) /\ forall n' g', ~ seated ns true r qs n g n' g').
  Proof.
    intros Hr Hnth. induction l as [|a l IH]; intros t n g out Eout H; cbv zeta; cbn [siter List.length repeat] in *.
    - left. exists t, n, g. split; [symmetry; exact Eout|]. split; [constructor|exact H].
    - unfold sbind at 1 in Eout.
      destruct (insert_sim t n g rows cst d k r CNone None (fun na : nature => na) "body" "body" lk0 no_look 1 1 H Hr Hnth eq_refl styled_nil) as (i & Hi & HI).
      cbv zeta in HI. destruct HI as [[(s2 & x & E2) Hbad]|(Hw & Hh & Hno & t2 & E2 & H2)]; rewrite E2 in Eout.
      { right. do 2 eexists. split; [symmetry; exact Eout|]. intros n' g' Hp.
        apply seated_inv in Hp as (j & g1' & Hw' & Hh' & Hf' & Hc' & _). cbn [q_width q_height] in *.
        assert (i = j) by (eapply first_free_fun; eassumption). subst j.
        destruct Hbad as [Hbad|(c & Hc & Hcl)]; [tauto|]. eapply Hc'; eauto. }
      assert (HS : forall g', settles ns true None g' g') by (intros g'; apply settles_plain; intros (_ & e0 & c & [=] & _)).
      destruct (IH t2 _ _ out Eout H2) as [(t' & n' & g' & E & Hp & H')|(s' & x & E & Hp)].
      + left. exists t', n', g'. split; [exact E|]. split; [|exact H']. eapply seated_cons; eauto.
      + right. exists s', x. split; [exact E|]. intros n' g' Hp'.
        apply seated_inv in Hp' as (j & g1' & Hw' & Hh' & Hf' & Hc' & Hset' & Hp'). cbn [q_width q_height q_elem q_look q_content q_nature] in *.
        assert (i = j) by (eapply first_free_fun; eassumption). subst j.
        rewrite (settles_fun _ _ _ _ _ _ Hset' (HS _)) in Hp'. eapply Hp; eauto.
  Qed.

  (** ** Chunks of events and items *)
  Definition good (d : Z) (s : pstate) (l : flayout) (rows : list (string * look)) : Prop :=
    ps_depth s = d /\ ps_col s = f_count l /\ ps_row_pos s = f_row l /\ 0 <= f_count l /\
    Z.of_nat (List.length rows) = f_row l /\
    exists t, ps_table s = Some t /\ follows t (f_cols l) (f_tiles l) rows (f_looks l).
  Definition sim (evs : list fevent) (its : list fitem) : Prop :=
    forall s l rows, good 1 s l rows ->
    (exists s' l', run evs s = (s', Ok tt) /\ flays ns cns em true its l l' /\ good 1 s' l' (rows ++ frow_items ns cns its)) \/
    (exists s' x, run evs s = (s', Err x) /\ forall l', ~ flays ns cns em true its l l').

  Lemma sim_nil : sim [] [].
  Proof.
    intros s l rows H. left. exists s, l. split; [reflexivity|]. split; [constructor|].
    cbn [frow_items flat_map]. rewrite app_nil_r. exact H.
  Qed.
  Lemma sim_app e1 i1 e2 i2 : sim e1 i1 -> sim e2 i2 -> sim (e1 ++ e2) (i1 ++ i2).
  Proof.
    intros H1 H2 s l rows H. rewrite siter_app. unfold sbind.
    destruct (H1 s l rows H) as [(s1 & l1 & E1 & L1 & G1)|(s1 & x & E1 & L1)]; rewrite E1.
    - destruct (H2 s1 l1 _ G1) as [(s2 & l2 & E2 & L2 & G2)|(s2 & x & E2 & L2)]; rewrite E2.
      + left. exists s2, l2. split; [reflexivity|]. split; [eapply flays_app; eassumption|].
        unfold frow_items in *. rewrite flat_map_app, app_assoc. exact G2.
      + right. exists s2, x. split; [reflexivity|]. intros l' HL. apply flays_split in HL as (l1' & A & B).
        rewrite (flays_fun _ _ _ _ _ _ _ _ A L1) in B. exact (L2 l' B).
    - right. exists s1, x. split; [reflexivity|]. intros l' HL. apply flays_split in HL as (l1' & A & B). exact (L1 l1' A).
  Qed.
  Lemma sim_walks p b (h : xnode -> list fitem) cs : forall seen,
    (forall c, In c cs -> forall bef, sim (fwalk o p b bef c) (h c)) -> sim (fwalks o p b seen cs) (flat_map h cs).
  Proof.
    induction cs as [|c cs IH]; intros seen H; cbn [fwalks flat_map]; [apply sim_nil|].
    apply sim_app; [apply H; left; reflexivity|]. apply IH. intros d Hd. apply H. right. exact Hd.
  Qed.
  Lemma sim_silent ev : (forall s l rows, good 1 s l rows -> exists s', fparse_event o ev s = (s', Ok tt) /\ good 1 s' l rows) -> sim [ev] [].
  Proof.
    intros H s l rows G. left. destruct (H s l rows G) as (s' & E & G'). exists s', l.
    split; [cbn [siter]; unfold sbind; rewrite E; reflexivity|]. split; [constructor|].
    cbn [frow_items flat_map]. rewrite app_nil_r. exact G'.
  Qed.
  Lemma sim_wrap a evs b its : sim [a] [] -> sim evs its -> sim [b] [] -> sim (a :: evs ++ [b]) its.
  Proof.
    intros Ha He Hb. change (a :: evs ++ [b]) with ([a] ++ (evs ++ [b])).
    replace its with ([] ++ (its ++ [])) by (cbn; apply app_nil_r). apply sim_app; [exact Ha|]. apply sim_app; assumption.
  Qed.

  (** ** Columns *)
  Lemma fcolspec_number c k m : 0 <= k -> proper_colspec cns c ->
    ((if truthy (cget o c "colnum") then py_int (ostr (cget o c "colnum")) else Ok (k + 1)) = Ok m <-> column_number cns c k m) /\
    (column_number cns c k m -> 1 <= m).
  Proof.
    intros Hk Hreg. rewrite cget_attribute. unfold column_number. destruct (attribute cns c "colnum") as [[|x s]|] eqn:Ea; cbn [truthy ostr].
    - split; [split; congruence|lia].
    - split; [apply py_int_spec|]. apply Hreg. exact Ea.
    - split; [split; congruence|lia].
  Qed.
  Lemma colspec_not_corpus c : named cns "colspec" c -> ~ named ns "CORPUS" c.
  Proof. intros Hc H. eapply (colspec_apart ns cns "CORPUS" c); try exact H; try exact Hc; discriminate. Qed.

  Lemma sim_colspec c p b bef : named cns "colspec" c -> (forall n, In n (x_children c) -> stranger ns cns n) -> proper_colspec cns c ->
    sim (fwalk o p b bef c) [FColumn c].
  Proof.
    intros Hc Hch Hreg. rewrite (fwalk_colspec o p b bef c Hc).
    rewrite (fwalks_nil o) by (intros d Hd p' b' bef'; apply fwalk_stranger, Hch, Hd). cbn [app].
    pose proof (colspec_not_corpus c Hc) as Hnc.
    intros s [r k n g cs] rows (Hd & Hcol & Hpos & Hk & Hlen & t & Et & H). cbn [f_row f_count f_cols f_tiles f_looks] in *.
    destruct s as [d0 c0 r0 ro t0]. cbn in Hd, Hcol, Hpos, Et. subst d0 c0 r0 t0.
    remember (run _ _) as out eqn:Eout. symmetry in Eout.
    rewrite frun_cons in Eout. unfold sbind at 1 in Eout.
    rewrite (fevent_start o c p b bef _ Hnc) in Eout by reflexivity.
    rewrite (fon_start_colspec o c p b bef Hc) in Eout.
    unfold sbind at 1 in Eout. rewrite smodify_eq in Eout.
    change (next_col (MkPState 1 k r ro (Some t))) with (MkPState 1 (k + 1) r ro (Some t)) in Eout.
    unfold parse_fmx_colspec in Eout.
    unfold sbind at 1 2 in Eout. unfold slift, sget in Eout. cbn [ps_col] in Eout.
    pose proof (fcolspec_number c k) as HN.
    destruct (if truthy (cget o c "colnum") then py_int (ostr (cget o c "colnum")) else Ok (k + 1)) as [m|x] eqn:Em.
    - destruct (HN m Hk Hreg) as [HN1 HN2]. assert (Hm : column_number cns c k m) by (apply HN1; reflexivity). specialize (HN2 Hm).
      destruct (fmx_colspec_styles_spec o c) as [Hst Hok].
      destruct (follows_column cns t n g rows cs m c (fmx_colspec_styles o c) H HN2 Hst Hok) as (t' & E & H').
      unfold on_table in Eout. cbn [ps_table] in Eout. rewrite E in Eout. cbn [with_table ps_depth ps_col ps_row_pos ps_row] in Eout.
      cbn [siter] in Eout. unfold sbind in Eout. rewrite (fevent_end o c p b bef _ Hnc) in Eout by reflexivity.
      rewrite (fon_end_colspec o c p b bef Hc) in Eout. unfold sret in Eout.
      left. exists (MkPState 1 (k + 1) r ro (Some t')), (MkFLayout r (k + 1) (Z.max n m) g (looks_with cns m c cs)).
      split; [symmetry; exact Eout|]. split; [econstructor; [exact Hm|constructor]|].
      cbn [frow_items flat_map app]. rewrite app_nil_r. split; [reflexivity|]. split; [reflexivity|]. split; [reflexivity|].
      split; [cbn; lia|]. split; [exact Hlen|]. exists t'. split; [reflexivity|exact H'].
    - right. do 2 eexists. split; [symmetry; exact Eout|]. intros l' HL. apply flays_column_inv in HL as (m & Hm & _).
      destruct (HN m Hk Hreg) as [HN1 _]. apply HN1 in Hm. discriminate.
  Qed.

  (** ** Rows *)
  Lemma sim_row row p b bef : named ns "ROW" row -> proper_row ns cns row -> sim (fwalk o p b bef row) [FLine b row].
  Proof.
    intros Hrow Hreg. rewrite (fwalk_named o "ROW" p b bef row ltac:(cbn; tauto) Hrow).
    pose proof (not_corpus "ROW" row Hrow ltac:(discriminate)) as Hnc.
    intros s [r k n g cs] rows (Hd & Hcol & Hpos & Hk & Hlen & t & Et & H). cbn [f_row f_count f_cols f_tiles f_looks] in *.
    destruct s as [d0 c0 r0 ro t0]. cbn in Hd, Hcol, Hpos, Et. subst d0 c0 r0 t0.
    remember (run _ _) as out eqn:Eout. symmetry in Eout.
    rewrite frun_cons in Eout. unfold sbind at 1 in Eout.
    rewrite (fevent_start o row p b bef _ Hnc) in Eout by reflexivity.
    rewrite (fon_start_eq o "ROW" row p b bef ltac:(cbn; tauto) Hrow) in Eout. cbv [String.eqb Ascii.eqb Bool.eqb] in Eout. cbv iota in Eout.
    unfold sbind at 1 in Eout. rewrite smodify_eq in Eout.
    change (next_row (MkPState 1 k r ro (Some t))) with (MkPState 1 0 (r + 1) None (Some t)) in Eout.
    unfold parse_fmx_row in Eout. unfold sbind at 1 in Eout. rewrite fmx_row_nature_spec in Eout by exact Hrow.
    destruct (enter_sim t n g rows cs 1 0 (r + 1) None (line_nature ns row) H ltac:(lia)) as (t1 & E1 & H1). rewrite E1 in Eout.
    destruct (style_sim t1 n g rows cs 1 0 (r + 1) (Some (r + 1)) (line_nature ns row) (fmx_row_styles o row b) (line_look ns cns b row) H1 ltac:(lia)
                (fmx_row_styles_spec o row b Hrow)) as (t3 & E3 & H3). rewrite E3 in Eout.
    rewrite siter_app in Eout. unfold sbind at 1 in Eout.
    remember (run (fwalks o (Some row) (below o b row) [] (x_children row)) (MkPState 1 0 (r + 1) (Some (r + 1)) (Some t3))) as out1 eqn:Eo1. symmetry in Eo1.
    set (rows' := rows ++ [(line_nature ns row, line_look ns cns b row)]) in *.
    assert (Hnth : nth_error rows' (Z.to_nat (r + 1 - 1)) = Some (line_nature ns row, line_look ns cns b row)).
    { unfold rows'. rewrite nth_error_app2 by lia. replace (Z.to_nat (r + 1 - 1) - List.length rows)%nat with 0%nat by lia. reflexivity. }
    destruct (cells_sim row (r + 1) rows' cs ltac:(lia) Hrow (ex_intro _ _ Hnth) (x_children row) t3 0 n g _ _ out1 Eo1 Hreg ltac:(lia) H3)
      as [(t4 & n1 & g1 & qs & E4 & HF & Hp & H4)|(s' & x & E4 & Hp)]; rewrite E4 in Eout; clear Eo1 E4.
    2:{ right. do 2 eexists. split; [symmetry; exact Eout|]. intros l' HL. apply flays_line_inv in HL as (qs & n1 & g1 & g2 & Ha & Hp' & _).
        destruct Ha as [qs _ HF|a b' Ht _ _]; [exact (Hp qs n1 g1 HF Hp')|].
        destruct Ht as [Ht|Ht]; pose proof (named_one _ _ _ _ Hrow Ht); discriminate. }
    assert (Ha : asks ns cns row qs) by (apply asks_cells; assumption).
    cbn [siter] in Eout. unfold sbind at 1 in Eout.
    rewrite (fevent_end o row p b bef _ Hnc) in Eout by reflexivity.
    rewrite (fon_end_eq o "ROW" row _ _ _ Hrow) in Eout. cbv [String.eqb Ascii.eqb Bool.eqb orb] in Eout. cbv iota in Eout.
    set (kk := 0 + Z.of_nat (List.length (of_name ns "CELL" (x_children row)))) in *.
    destruct (end_row_sim t4 n1 g1 rows' cs 1 kk (r + 1) _ _ H4 ltac:(lia) Hnth) as [[Hn1 (s' & x & E5)]|(Hn1 & t7 & g2 & E5 & Hf & H7)]; rewrite E5 in Eout.
    { right. do 2 eexists. split; [symmetry; exact Eout|].
      intros l' HL. apply flays_line_inv in HL as (qs' & n1' & g1' & g2 & Ha' & Hp' & Hn' & _). rewrite <- (asks_fun _ _ _ _ _ Ha Ha') in Hp'.
      destruct (seated_fun _ _ _ _ _ _ _ _ _ _ Hp Hp') as [<- _]. lia. }
    unfold sret in Eout.
    left. exists (MkPState 1 kk (r + 1) (Some (r + 1)) (Some t7)), (MkFLayout (r + 1) kk n1 g2 cs).
    split; [symmetry; exact Eout|]. split.
    - econstructor; eauto. replace (Z.of_nat (List.length (of_name ns "CELL" (x_children row)))) with kk by (unfold kk; lia). constructor.
    - cbn [frow_items flat_map app]. split; [reflexivity|]. split; [reflexivity|]. split; [reflexivity|].
      split; [cbn; unfold kk; lia|]. split; [cbn; rewrite app_length; cbn; lia|]. exists t7. split; [reflexivity|exact H7].
  Qed.

  (** ** Titles *)
  Lemma title_no_cell e : fills ns cns e -> of_name ns "CELL" (x_children e) = [].
  Proof.
    intros [_ HF]. induction (x_children e) as [|c l IH]; [reflexivity|]. cbn [of_name filter].
    assert (Hno : x_has_tag c (expanded ns "CELL") = false).
    { apply no_tag. intros HC. destruct (HF c (or_introl eq_refl)) as [n Hn|n Hn _ _].
      - pose proof (named_one _ _ _ _ HC Hn). discriminate.
      - apply Hn. left. exists "CELL"%string. split; [cbn; tauto|exact HC]. }
    rewrite Hno. apply IH. intros d Hd. apply HF. right. exact Hd.
  Qed.
  Lemma sim_title tag e p b bef : (tag = "TI.BLK" \/ tag = "STI.BLK")%string -> named ns tag e -> fills ns cns e ->
    sim (fwalk o p b bef e) [FLine b e].
  Proof.
    intros Htag He Hfill.
    assert (Hin : In tag fmx_names) by (destruct Htag as [->| ->]; cbn; tauto).
    assert (Hit : is_title ns e) by (destruct Htag as [->| ->]; [left|right]; exact He).
    assert (Hnc : ~ named ns "CORPUS" e) by (apply (not_corpus tag e He); destruct Htag as [->| ->]; discriminate).
    rewrite (fwalk_named o tag p b bef e Hin He).
    intros s [r k n g cs] rows (Hd & Hcol & Hpos & Hk & Hlen & t & Et & H). cbn [f_row f_count f_cols f_tiles f_looks] in *.
    destruct s as [d0 c0 r0 ro t0]. cbn in Hd, Hcol, Hpos, Et. subst d0 c0 r0 t0.
    remember (run _ _) as out eqn:Eout. symmetry in Eout.
    rewrite frun_cons in Eout. unfold sbind at 1 in Eout.
    rewrite (fevent_start o e p b bef _ Hnc) in Eout by reflexivity.
    assert (Es : fon_start o (MkFEvent true e p b bef) = (smodify next_row ;;; parse_fmx_title o tag e b)).
    { rewrite (fon_start_eq o tag e p b bef Hin He). destruct Htag as [->| ->]; reflexivity. }
    rewrite Es in Eout. clear Es.
    unfold sbind at 1 in Eout. rewrite smodify_eq in Eout.
    change (next_row (MkPState 1 k r ro (Some t))) with (MkPState 1 0 (r + 1) None (Some t)) in Eout.
    assert (Hln : line_nature ns e = "body"%string).
    { unfold line_nature. rewrite (tag_named ns e tag "ROW" He). destruct Htag as [->| ->]; reflexivity. }
    unfold parse_fmx_title, insert_title in Eout. unfold sbind at 1 in Eout.
    destruct (enter_sim t n g rows cs 1 0 (r + 1) None "body" H ltac:(lia)) as (t1 & E1 & H1). rewrite E1 in Eout.
    unfold sbind at 1 in Eout.
    destruct (style_sim t1 n g rows cs 1 0 (r + 1) (Some (r + 1)) "body" (title_styles o tag e b) (line_look ns cns b e) H1 ltac:(lia)
                (title_styles_spec o tag e b Htag He)) as (t3 & E3 & H3). rewrite E3 in Eout.
    set (rows' := rows ++ [("body"%string, line_look ns cns b e)]) in *.
    assert (Hnth : nth_error rows' (Z.to_nat (r + 1 - 1)) = Some ("body"%string, line_look ns cns b e)).
    { unfold rows'. rewrite nth_error_app2 by lia. replace (Z.to_nat (r + 1 - 1) - List.length rows)%nat with 0%nat by lia. reflexivity. }
    assert (Hinv : forall l', flays ns cns em true [FLine b e] (MkFLayout r k n g cs) l' ->
              exists x y n1 g1, number_or_one (attribute ns e "COL.START") x /\ number_or_one (attribute ns e "COL.END") y /\ 1 <= n1 /\
                seated ns true (r + 1) (repeat (Ask None CNone (Some "body"%string) no_look 1 1) (Z.to_nat (x - 1)) ++
                   [Ask (Some e) (fcontent_of ns e) (Some "body"%string) no_look (y - x + 1) 1]) n g n1 g1).
    { intros l' HL. apply flays_line_inv in HL as (qs & n1 & g1 & g2 & Ha & Hp' & Hn1 & _). destruct Ha as [qs Hr _|x y _ Hx Hy].
      - exfalso. pose proof (named_one _ _ _ _ He Hr). destruct Htag; subst; discriminate.
      - exists x, y, n1, g1. auto. }
    unfold sbind at 1 in Eout. unfold slift at 1 in Eout. rewrite fget_attribute in Eout.
    destruct (int_or_one (attribute ns e "COL.START")) as [x|er] eqn:Ex.
    2:{ right. do 2 eexists. split; [symmetry; exact Eout|]. intros l' HL. apply Hinv in HL as (x & y & n1 & g1 & Hx & _).
        apply int_or_one_spec in Hx. congruence. }
    apply int_or_one_spec in Ex.
    unfold sbind at 1 in Eout. unfold slift at 1 in Eout. rewrite fget_attribute in Eout.
    destruct (int_or_one (attribute ns e "COL.END")) as [y|er] eqn:Ey.
    2:{ right. do 2 eexists. split; [symmetry; exact Eout|]. intros l' HL. apply Hinv in HL as (x' & y & n1 & g1 & _ & Hy & _).
        apply int_or_one_spec in Hy. congruence. }
    apply int_or_one_spec in Ey.
    assert (Hinv' : forall l', flays ns cns em true [FLine b e] (MkFLayout r k n g cs) l' ->
              exists n1 g1, 1 <= n1 /\ seated ns true (r + 1) (repeat (Ask None CNone (Some "body"%string) no_look 1 1) (Z.to_nat (x - 1)) ++
                   [Ask (Some e) (fcontent_of ns e) (Some "body"%string) no_look (y - x + 1) 1]) n g n1 g1).
    { intros l' HL. apply Hinv in HL as (x' & y' & n1 & g1 & Hx & Hy & Hn1 & Hp). rewrite (number_or_one_fun _ _ _ Hx Ex), (number_or_one_fun _ _ _ Hy Ey) in Hp. eauto. }
    clear Hinv.
    unfold sbind at 1 in Eout.
    remember (siter (fun _ : Z => insert_in_row CNone None (fun na : nature => na) 1 1) (zrange 1 x) (MkPState 1 0 (r + 1) (Some (r + 1)) (Some t3))) as out1 eqn:Eo1.
    symmetry in Eo1.
    pose proof (blanks_sim 1 0 (r + 1) rows' cs _ ltac:(lia) Hnth (zrange 1 x) t3 n g out1 Eo1 H3) as HB. cbv zeta in HB.
    assert (Elen : List.length (zrange 1 x) = Z.to_nat (x - 1)) by apply zrange_length.
    rewrite Elen in HB.
    destruct HB as [(t4 & n4 & g4 & E4 & Hp4 & H4)|(s' & er & E4 & Hp4)]; rewrite E4 in Eout; clear Eo1 E4.
    2:{ right. do 2 eexists. split; [symmetry; exact Eout|]. intros l' HL. apply Hinv' in HL as (n1 & g1 & _ & Hp).
        apply seated_split in Hp as (n2 & g2 & Hp & _). exact (Hp4 _ _ Hp). }
    rewrite fmx_content_spec in Eout.
    destruct (insert_sim t4 n4 g4 rows' cs 1 0 (r + 1) (fcontent_of ns e) None (fun na : nature => na) "body" "body" _ no_look (y - x + 1) 1 H4 ltac:(lia) Hnth eq_refl styled_nil)
      as (i & Hi & HI). cbv zeta in HI.
    set (q0 := Ask (Some e) (fcontent_of ns e) (Some "body"%string) no_look (y - x + 1) 1) in *.
    destruct HI as [[(s2 & er & E5) Hbad]|(Hw & Hh & Hno & t5 & E5 & H5)]; rewrite E5 in Eout.
    { right. do 2 eexists. split; [symmetry; exact Eout|]. intros l' HL. apply Hinv' in HL as (n1 & g1 & _ & Hp).
      apply seated_split in Hp as (n2 & g2 & Hp & Hp2). destruct (seated_fun _ _ _ _ _ _ _ _ _ _ Hp4 Hp) as [<- <-].
      apply seated_inv in Hp2 as (j & g1' & Hw' & Hh' & Hf' & Hc' & _). cbn [q0 q_width q_height] in *.
      assert (i = j) by (eapply first_free_fun; eassumption). subst j.
      destruct Hbad as [Hbad|(c & Hc & Hcl)]; [tauto|]. eapply Hc'; eauto. }
    rewrite siter_app in Eout. unfold sbind at 1 in Eout.
    destruct (fcontent_sim e (Some e) (below o b e) (MkPState 1 0 (r + 1) (Some (r + 1)) (Some t5)) t5 _ _ g4 rows' cs Hfill eq_refl eq_refl H5)
      as (t6 & g6 & E6 & Hset & H6). rewrite E6 in Eout. cbn [with_table ps_depth ps_col ps_row_pos ps_row] in Eout.
    cbn [siter] in Eout. unfold sbind at 1 in Eout.
    rewrite (fevent_end o e p b bef _ Hnc) in Eout by reflexivity.
    assert (Ee : fon_end o (MkFEvent false e p b bef) = end_row).
    { rewrite (fon_end_eq o tag e _ _ _ He). destruct Htag as [->| ->]; reflexivity. }
    rewrite Ee in Eout. clear Ee. cbv beta delta [with_table] in Eout. cbn [ps_depth ps_col ps_row_pos ps_row] in Eout.
    set (n6 := Z.max n4 (i + (y - x + 1) - 1)) in *.
    assert (Hp6 : seated ns true (r + 1) (repeat (Ask None CNone (Some "body"%string) no_look 1 1) (Z.to_nat (x - 1)) ++ [q0]) n g n6 g6).
    { eapply seated_app; [exact Hp4|]. eapply (seated_cons ns true (r + 1) q0 [] n4 g4 i g6 n6 g6); auto. constructor. }
    destruct (end_row_sim t6 n6 g6 rows' cs 1 0 (r + 1) _ _ H6 ltac:(lia) Hnth) as [[Hn1 (s' & er & E7)]|(Hn1 & t7 & g2 & E7 & Hf & H7)]; rewrite E7 in Eout.
    { right. do 2 eexists. split; [symmetry; exact Eout|].
      intros l' HL. apply Hinv' in HL as (n1' & g1' & Hn' & Hp'). destruct (seated_fun _ _ _ _ _ _ _ _ _ _ Hp6 Hp') as [<- _]. lia. }
    unfold sret in Eout.
    left. exists (MkPState 1 0 (r + 1) (Some (r + 1)) (Some t7)), (MkFLayout (r + 1) 0 n6 g2 cs).
    split; [symmetry; exact Eout|]. split.
    - econstructor; [eapply asks_title; eassumption|exact Hp6|exact Hn1| |].
      + rewrite Hln. exact Hf.
      + rewrite (title_no_cell e Hfill). constructor.
    - cbn [frow_items flat_map app]. rewrite Hln. split; [reflexivity|]. split; [reflexivity|]. split; [reflexivity|].
      split; [cbn; lia|]. split; [cbn; rewrite app_length; cbn; lia|]. exists t7. split; [reflexivity|exact H7].
  Qed.

  (** ** The parts of a CORPUS *)
  Lemma apart name n : In name fmx_names -> named ns name n -> has_name cns "colspec" n = false.
  Proof.
    intros Hin Hn. apply no_tag. intros Hc. eapply (colspec_apart ns cns name n); try exact Hn; try exact Hc;
      cbn in Hin; repeat (destruct Hin as [<-|Hin]; [discriminate|]); destruct Hin.
  Qed.
  Lemma fparts_eq b n : fparts ns cns b n =
    if has_name cns "colspec" n then [FColumn n]
    else if (has_name ns "ROW" n || has_name ns "TI.BLK" n || has_name ns "STI.BLK" n)%bool then [FLine b n]
    else if has_name ns "BLK" n then flat_map (fparts ns cns (b + 1)) (x_children n) else [].
  Proof. destruct n; reflexivity. Qed.
  Lemma fparts_named b n name : In name fmx_names -> named ns name n -> fparts ns cns b n =
    if (String.eqb name "ROW" || String.eqb name "TI.BLK" || String.eqb name "STI.BLK")%bool then [FLine b n]
    else if String.eqb name "BLK" then flat_map (fparts ns cns (b + 1)) (x_children n) else [].
  Proof.
    intros Hin Hn. rewrite fparts_eq, (apart name n Hin Hn).
    rewrite (tag_named ns n name "ROW" Hn), (tag_named ns n name "TI.BLK" Hn), (tag_named ns n name "STI.BLK" Hn), (tag_named ns n name "BLK" Hn). reflexivity.
  Qed.
  Lemma sim_part n : proper_part ns cns n -> forall p b bef, sim (fwalk o p b bef n) (fparts ns cns b n).
  Proof.
    induction 1 as [n Hs|c Hc Hch Hreg|r Hr Hrow|e Ht Hf|k Hk _ IH]; intros p b bef.
    - rewrite (fwalk_stranger o n Hs). assert (E : fparts ns cns b n = []); [|rewrite E; apply sim_nil].
      inversion Hs as [n' Hn _]; subst n'.
      assert (HF : forall name, In name fmx_names -> has_name ns name n = false).
      { intros name Hin. apply no_tag. intros HC. apply Hn. left. exists name. auto. }
      rewrite fparts_eq, !HF by (cbn; tauto). assert (HF2 : has_name cns "colspec" n = false) by (apply no_tag; intros HC; apply Hn; right; exact HC). rewrite HF2. reflexivity.
    - assert (E : fparts ns cns b c = [FColumn c]).
      { rewrite fparts_eq. rewrite (tag_named cns c "colspec" "colspec" Hc). reflexivity. }
      rewrite E. apply sim_colspec; assumption.
    - assert (E : fparts ns cns b r = [FLine b r]).
      { apply (fparts_named b r "ROW"); [cbn; tauto|exact Hr]. }
      rewrite E. apply sim_row; assumption.
    - assert (E : fparts ns cns b e = [FLine b e]).
      { destruct Ht as [Ht|Ht]; [apply (fparts_named b e "TI.BLK")|apply (fparts_named b e "STI.BLK")]; first [exact Ht|cbn; tauto]. }
      rewrite E. destruct Ht as [Ht|Ht]; [apply (sim_title "TI.BLK")|apply (sim_title "STI.BLK")]; auto.
    - rewrite (fwalk_named o "BLK" p b bef k ltac:(cbn; tauto) Hk).
      pose proof (not_corpus "BLK" k Hk ltac:(discriminate)) as Hnc.
      assert (E : fparts ns cns b k = flat_map (fparts ns cns (b + 1)) (x_children k)).
      { apply (fparts_named b k "BLK"); [cbn; tauto|exact Hk]. }
      rewrite E. unfold below. rewrite (tag_named ns k "BLK" "BLK" Hk). change (String.eqb "BLK" "BLK") with true. cbv iota.
      apply sim_wrap.
      + apply sim_silent. intros s l rows G. exists s. split; [|exact G].
        rewrite (fevent_start o k p b bef s Hnc) by apply G. rewrite (fon_start_eq o "BLK" k p b bef ltac:(cbn; tauto) Hk). reflexivity.
      + apply sim_walks. intros c Hc bef'. apply IH, Hc.
      + apply sim_silent. intros s l rows G. exists s. split; [|exact G].
        rewrite (fevent_end o k p b bef s Hnc) by apply G. rewrite (fon_end_eq o "BLK" k p b bef Hk). reflexivity.
  Qed.

  (** ** The notes *)
  Lemma follows_box t n g rows cs :
    follows t n g rows cs ->
    (table_bounding_box t = Ok None /\ g = []) \/ exists bb, table_bounding_box t = Ok (Some bb) /\ bounds (map snd g) bb.
  Proof.
    intros H. destruct (treachable_tinv t (fo_reach _ _ _ _ _ H)) as (og & HS & HM).
    assert (HV : all_valid (t_grid t)) by apply HM. unfold table_bounding_box.
    destruct (bounding_box_spec (t_grid t) HV) as [[Eg Eb]|(Hne & bb & Eb & Vb & _)]; rewrite Eb.
    - left. split; [reflexivity|]. apply (mosaic_nil _ _ (fo_cells _ _ _ _ _ H)). unfold table_iter, grid_iter. exact Eg.
    - right. exists bb. split; [reflexivity|]. apply (mosaic_bounds _ _ _ (fo_cells _ _ _ _ _ H)). apply grid_bounds; assumption.
  Qed.
  Lemma notes_sim l : forall s ly rows, good 0 s ly rows ->
    let out := siter (fun notes => smodify next_row ;;; parse_gr_notes o notes) l s in
    (exists s' ly', out = (s', Ok tt) /\ flays ns cns em true (map FNotes l) ly ly' /\ good 0 s' ly' (rows ++ frow_items ns cns (map FNotes l))) \/
    (exists s' x, out = (s', Err x) /\ forall ly', ~ flays ns cns em true (map FNotes l) ly ly').
  Proof.
    induction l as [|e l IH]; intros s ly rows G; cbv zeta; cbn [siter map].
    - left. exists s, ly. split; [reflexivity|]. split; [constructor|]. cbn [frow_items flat_map]. rewrite app_nil_r. exact G.
    - destruct G as (Hd & Hcol & Hpos & Hk & Hlen & t & Et & H). destruct ly as [r k n g cs]. cbn [f_row f_count f_cols f_tiles f_looks] in *.
      destruct s as [d0 c0 r0 ro t0]. cbn in Hd, Hcol, Hpos, Et. subst d0 c0 r0 t0.
      match goal with |- context [?x = (_, Ok tt)] => remember x as out eqn:Eout; symmetry in Eout end.
      unfold sbind at 1 in Eout. unfold sbind at 1 in Eout. rewrite smodify_eq in Eout.
      change (next_row (MkPState 0 k r ro (Some t))) with (MkPState 0 0 (r + 1) None (Some t)) in Eout.
      unfold parse_gr_notes in Eout. unfold sbind at 1 in Eout.
      destruct (enter_sim t n g rows cs 0 0 (r + 1) None "footer" H ltac:(lia)) as (t1 & E1 & H1). rewrite E1 in Eout.
      unfold sbind at 1 in Eout. unfold on_table at 1 in Eout. cbn [ps_table] in Eout. unfold sbind at 1 in Eout. unfold sget, slift in Eout.
      destruct (follows_box _ _ _ _ _ H1) as [[Eb Eg]|(bb & Eb & Hb)]; rewrite Eb in Eout.
      { right. do 2 eexists. split; [symmetry; exact Eout|]. intros l' HL. apply flays_notes_inv in HL as (bb & n1 & g1 & Hb & _).
        rewrite Eg in Hb. exact (bounds_nil bb Hb). }
      cbn [with_table ps_depth ps_col ps_row_pos ps_row] in Eout.
      set (rows' := rows ++ [("footer"%string, no_look)]) in *.
      assert (Hnth : nth_error rows' (Z.to_nat (r + 1 - 1)) = Some ("footer"%string, no_look)).
      { unfold rows'. rewrite nth_error_app2 by lia. replace (Z.to_nat (r + 1 - 1) - List.length rows)%nat with 0%nat by lia. reflexivity. }
      assert (Ec : notes_content o e = if em then CList [CNode e] else fcontent_of ns e) by (unfold notes_content; rewrite fmx_content_spec; reflexivity).
      rewrite Ec in Eout. clear Ec.
      assert (Ew : box_width bb = cx (bmax bb) - cx (bmin bb) + 1) by reflexivity. rewrite Ew in Eout.
      set (q0 := notes_request ns cns em e (cx (bmax bb) - cx (bmin bb) + 1)) in *.
      destruct (insert_sim t1 n g rows' cs 0 0 (r + 1) (if em then CList [CNode e] else fcontent_of ns e) (Some (cals_row_styles o e)) (fun na : nature => na) "footer" "footer"
                  no_look (fun k => text_look (given cns e k)) (cx (bmax bb) - cx (bmin bb) + 1) 1 H1 ltac:(lia) Hnth eq_refl (proj1 (cals_row_styles_spec o e)))
        as (i & Hi & HI). cbv zeta in HI.
      change (with_table (Some t1) (MkPState 0 0 (r + 1) (Some (r + 1)) (Some t1))) with (MkPState 0 0 (r + 1) (Some (r + 1)) (Some t1)) in Eout.
      destruct HI as [[(s2 & er & E5) Hbad]|(Hw & Hh & Hno & t5 & E5 & H5)]; rewrite E5 in Eout.
      { right. do 2 eexists. split; [symmetry; exact Eout|]. intros l' HL. apply flays_notes_inv in HL as (bb' & n1 & g1 & Hb' & Hp & _).
        rewrite (bounds_fun _ _ _ Hb' Hb) in Hp. fold q0 in Hp.
        apply seated_inv in Hp as (j & g1' & Hw' & Hh' & Hf' & Hc' & _). cbn [q0 notes_request q_width q_height] in *.
        assert (i = j) by (eapply first_free_fun; eassumption). subst j.
        destruct Hbad as [Hbad|(c & Hc & Hcl)]; [tauto|]. eapply Hc'; eauto. }
      set (n1 := Z.max n (i + (cx (bmax bb) - cx (bmin bb) + 1) - 1)) in *.
      set (g1 := (fun k => text_look (given cns e k), bare (if em then CList [CNode e] else fcontent_of ns e) (Some "footer"%string)
               (seat Rows (r + 1) i (cx (bmax bb) - cx (bmin bb) + 1) 1)) :: g) in *.
      assert (Hp1 : seated ns true (r + 1) [q0] n g n1 g1).
      { eapply (seated_cons ns true (r + 1) q0 [] n g i g1 n1 g1); auto; [|constructor]. apply settles_plain. intros (_ & e0 & c & [=] & _). }
      assert (G1 : good 0 (MkPState 0 0 (r + 1) (Some (r + 1)) (Some t5)) (MkFLayout (r + 1) 0 n1 g1 cs) rows').
      { split; [reflexivity|]. split; [reflexivity|]. split; [reflexivity|]. split; [cbn; lia|].
        split; [unfold rows'; rewrite app_length; cbn; lia|]. exists t5. split; [reflexivity|exact H5]. }
      pose proof (IH _ _ _ G1) as HR. cbv zeta in HR.
      change (siter (fun notes => smodify next_row ;;; parse_gr_notes o notes) l (MkPState 0 0 (r + 1) (Some (r + 1)) (Some t5)) = out) in Eout.
      rewrite Eout in HR.
      destruct HR as [(s' & ly' & E & HL & G')|(s' & x & E & HL)].
      + left. exists s', ly'. split; [exact E|]. split; [econstructor; eauto|].
        cbn [frow_items flat_map] in *. unfold rows' in G'. rewrite <- app_assoc in G'. exact G'.
      + right. exists s', x. split; [exact E|]. intros l' HL'. apply flays_notes_inv in HL' as (bb' & n1' & g1' & Hb' & Hp & HL').
        rewrite (bounds_fun _ _ _ Hb' Hb) in Hp. fold q0 in Hp. destruct (seated_fun _ _ _ _ _ _ _ _ _ _ Hp1 Hp) as [<- <-]. exact (HL l' HL').
  Qed.

  (** ** The whole table *)
  Lemma follows_empty s na : follows (MkTable [] None None s na) 0 [] [] (fun _ => no_look).
  Proof.
    split.
    - apply (treach_new [] (Some s) na). reflexivity.
    - exists []. split; [reflexivity|constructor].
    - split; reflexivity.
    - intros i. cbn. destruct i; reflexivity.
    - intros i. split; [reflexivity|]. intros k. reflexivity.
  Qed.

  (** The row the parser has come to at the end *)
  Definition fends_at (parent : option xnode) (b : Z) (bef : list xnode) (e : xnode) (t : table) (k : Z) : Prop :=
    exists s, siter (fparse_event o) (fwalk o parent b bef e) pstate_reset = (s, Ok tt) /\ ps_table s = Some t /\ ps_row_pos s = k.
  Theorem parse_formex_sim parent b bef e : proper_corpus ns cns e ->
    match parse_formex o parent b bef e with
    | Ok t => exists l g, flaid_out ns cns em true b bef e l g /\ follows t (f_cols l) g (frow_items ns cns (fitems ns cns b bef e)) (f_looks l) /\
        fends_at parent b bef e t (f_row l)
    | Err _ => (exists x, corpus_style_attrs o e parent = Err x) \/ forall l g, ~ flaid_out ns cns em true b bef e l g
    end.
  Proof.
    intros [He Hreg]. unfold parse_formex.
    destruct (siter (fparse_event o) _ pstate_reset) as [sf rf] eqn:Eout. pose proof Eout as Erun.
    rewrite (fwalk_named o "CORPUS" parent b bef e ltac:(cbn; tauto) He) in Eout.
    rewrite frun_cons in Eout. unfold sbind at 1 in Eout.
    assert (Est : fparse_event o (MkFEvent true e parent b bef) pstate_reset = parse_fmx_corpus o e parent (MkPState 1 0 0 None None)).
    { unfold fparse_event, smodify, sbind, sget, sput. rewrite (fdepth_corpus o _ _ _ _ _ _ He).
      cbn [ps_depth pstate_reset with_depth ps_col ps_row_pos ps_row ps_table fe_start]. change (1 <? 0 + 1) with false. cbv iota.
      rewrite (fon_start_eq o "CORPUS" e parent b bef ltac:(cbn; tauto) He). reflexivity. }
    assert (Ep : parse_fmx_corpus o e parent (MkPState 1 0 0 None None) =
                 match corpus_style_attrs o e parent with
                 | Ok a => (MkPState 1 0 0 None (Some (MkTable [] None None (fst a) (snd a))), Ok tt)
                 | Err x => (MkPState 1 0 0 None None, Err x)
                 end).
    { unfold parse_fmx_corpus, sbind, slift. destruct (corpus_style_attrs o e parent) as [[st na]|x]; reflexivity. }
    rewrite Est, Ep in Eout. destruct (corpus_style_attrs o e parent) as [[st na]|x] eqn:Ea.
    2:{ injection Eout as <- <-. cbn [rbind]. left. eauto. }
    cbn [fst snd] in Eout.
    rewrite siter_app in Eout. unfold sbind at 1 in Eout.
    assert (G0 : good 1 (MkPState 1 0 0 None (Some (MkTable [] None None st na))) no_layout []).
    { split; [reflexivity|]. split; [reflexivity|]. split; [reflexivity|]. split; [cbn; lia|]. split; [reflexivity|].
      eexists. split; [reflexivity|]. apply follows_empty. }
    assert (Hb : below o b e = b) by (unfold below; rewrite (tag_named ns e _ "BLK" He); reflexivity). rewrite Hb in Eout. clear Hb.
    destruct (sim_walks (Some e) b (fparts ns cns b) (x_children e) [] (fun c Hc bef' => sim_part c (Hreg c Hc) (Some e) b bef') _ _ _ G0)
      as [(s1 & l1 & E1 & L1 & G1)|(s1 & x & E1 & L1)]; rewrite E1 in Eout.
    2:{ injection Eout as <- <-. cbn [rbind]. right. intros l g [HL _]. unfold fitems in HL. apply flays_split in HL as (l1 & HL & _). exact (L1 l1 HL). }
    cbn [app] in G1. destruct G1 as (Hd & Hcol & Hpos & Hk & Hlen & t1 & Et & H1).
    cbn [siter] in Eout. unfold sbind at 1 in Eout.
    assert (Een : fparse_event o (MkFEvent false e parent b bef) s1 = end_corpus o bef (with_depth 0 s1)).
    { unfold fparse_event, smodify, sbind, sget, sput. rewrite (fdepth_corpus o _ _ _ _ _ _ He). rewrite Hd.
      cbn [ps_depth with_depth fe_start]. change (1 <? 1 - 1) with false. cbv iota.
      rewrite (fon_end_eq o "CORPUS" e _ _ _ He). reflexivity. }
    rewrite Een in Eout. unfold end_corpus in Eout.
    assert (En : filter (fun n => x_has_tag n (fmx o "GR.NOTES")) bef = of_name ns "GR.NOTES" bef)
      by (unfold of_name; rewrite fmx_expanded; reflexivity).
    rewrite En in Eout. clear En. unfold sbind at 1 in Eout.
    assert (G1 : good 0 (with_depth 0 s1) l1 (frow_items ns cns (flat_map (fparts ns cns b) (x_children e)))).
    { split; [reflexivity|]. split; [exact Hcol|]. split; [exact Hpos|]. split; [exact Hk|]. split; [exact Hlen|]. exists t1. split; [exact Et|exact H1]. }
    pose proof (notes_sim (of_name ns "GR.NOTES" bef) _ _ _ G1) as HN. cbv zeta in HN.
    destruct HN as [(s2 & l2 & E2 & L2 & G2)|(s2 & x & E2 & L2)]; rewrite E2 in Eout.
    2:{ injection Eout as <- <-. cbn [rbind]. right. intros l g [HL _]. unfold fitems in HL. apply flays_split in HL as (l1' & HL & HL2).
        rewrite (flays_fun _ _ _ _ _ _ _ _ HL L1) in HL2. exact (L2 l HL2). }
    assert (L3 : flays ns cns em true (fitems ns cns b bef e) no_layout l2) by (eapply flays_app; eassumption).
    unfold frow_items in G2. rewrite <- flat_map_app in G2. fold (fitems ns cns b bef e) in G2. fold (frow_items ns cns (fitems ns cns b bef e)) in G2.
    clear Et H1 Hd Hcol Hpos Hk Hlen G1.
    destruct G2 as (Hd & Hcol & Hpos & Hk & Hlen & t2 & Et & H2).
    destruct (f_tiles l2) as [|s0 g0] eqn:Es.
    - destruct (end_table_cases s2 t2 Et (fo_reach _ _ _ _ _ H2)) as [[_ E3]|(bb & Hb & E3)].
      + rewrite E3 in Eout. injection Eout as <- <-. cbn [rbind]. right. intros l g (HL & bb & Hb & _).
        rewrite (flays_fun _ _ _ _ _ _ _ _ HL L3), Es in Hb. exact (bounds_nil bb Hb).
      + exfalso. assert (Hg : table_iter t2 = []) by (apply (mosaic_nil _ _ (fo_cells _ _ _ _ _ H2)); reflexivity). rewrite Hg in Hb.
        exact (bounds_nil bb Hb).
    - destruct (follows_end s2 t2 _ s0 g0 _ _ H2 Et) as (bb & t3 & g3 & Hb & Hf & E3 & H3).
      rewrite E3 in Eout. injection Eout as <- <-. cbn [rbind with_table ps_table].
      exists l2, g3. split; [|split; [exact H3|]].
      + split; [exact L3|]. exists bb. rewrite Es. auto.
      + eexists. split; [exact Erun|]. split; [reflexivity|exact Hpos].
  Qed.
End Sim.
