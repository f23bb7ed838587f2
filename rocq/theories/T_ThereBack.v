(** * Theorems about documents which are converted to Formex and back (C81) *)
From Coq Require Import QArith.
From Verif Require Import Base M_Geometry M_Xml M_Cell M_Grid M_Table M_Str M_Units M_Builder M_Cals M_CalsParser M_Formex M_FormexFinal M_FormexFinish M_FormexParser M_FormexRead M_Ooxml M_Transform M_Convert M_ConvertDoc.
From Verif Require Import S_Geometry S_Grid S_Table S_Units S_Builder S_Cals S_Int S_CalsParser S_RoundTrip S_Formex S_FormexFinal S_FormexRead S_FormexTrip S_FormexFinished S_Attrs S_Axes S_Transform S_Convert S_ConvertDoc S_ThereBack.
From Verif Require Import P_Table P_TableFacts P_TableMore P_Cals P_Formex P_FormexFinished P_FormexFinishedMain P_CalsParser P_CalsTable P_RoundTripAttrs P_FormexTripMain P_RoundTripMain P_Parsed P_Transform P_ConvertDoc P_ConvertFinish P_ConvertFormex P_NoneLeft P_Rect P_ThereBack.
From Verif Require P_FormexEvents P_Grid.
From Verif Require Import T_Table T_Cals T_Formex T_CalsParser T_FormexRead T_RoundTrip T_FormexTrip T_FormexFinished T_Convert T_ConvertBack T_ConvertDoc T_ConvertFormex.
Open Scope string_scope.
Open Scope list_scope.
Open Scope Z_scope.

Lemma says_name use_cals ns rows r v tag type level : row_attributes ns rows r v ->
  (row_says use_cals v tag type level <-> name_says (row_name use_cals ns rows r) tag type level).
Proof.
  unfold row_attributes, row_says, row_name. destruct use_cals; [|intros _; cbn; tauto]. destruct (nth_error rows (Z.to_nat (r - 1))) as [[[na sec] row]|].
  - intros [_ H]. rewrite (H "rowstyle"). unfold row_style. cbn [String.eqb Ascii.eqb Bool.eqb]. destruct (not_empty (attribute ns row "rowstyle")); reflexivity.
  - intros [_ ->]. reflexivity.
Qed.
Lemma nature_cases type : nature_or_body type = "header" \/ nature_or_body type = "body".
Proof.
  unfold nature_or_body, nature_of_type. destruct type as [s|]; [|auto]. destruct (existsb _ _); [auto|]. destruct (existsb _ _); auto.
Qed.
Lemma nature_kept type : kept_nature (Some (nature_or_body type)) = nature_or_body type.
Proof. destruct (nature_cases type) as [-> | ->]; reflexivity. Qed.
Lemma kept_text_twice v : kept_text (kept_text v) = kept_text v.
Proof. destruct v as [[[|a s]|b|x y|]|]; reflexivity. Qed.
Lemma kept_valign_twice v : kept_valign (kept_valign v) = kept_valign v.
Proof.
  destruct v as [[s|b|x y|]|]; try reflexivity. unfold kept_valign. destruct (existsb (String.eqb s) ["top"; "middle"]) eqn:E; [rewrite E; reflexivity|reflexivity].
Qed.
Lemma table_kept_trans t2 t1 t : S_RoundTrip.table_kept t2 t1 -> S_RoundTrip.table_kept t1 t -> S_RoundTrip.table_kept t2 t.
Proof.
  intros (A1 & A2 & A3 & A4 & A5 & A6 & A7) (B1 & B2 & B3 & B4 & B5 & B6 & B7). split; [|split; [|split; [|split; [|split; [|split]]]]].
  - intros f Hf Hs s. rewrite (A1 f Hf) by (intros s'; rewrite (Hs s'); symmetry; apply (B1 f Hf Hs)). apply (B1 f Hf Hs).
  - rewrite A2, B2. destruct (t_nature t) as [[|a s]|]; reflexivity.
  - congruence.
  - rewrite A4, B4. destruct (dget (t_styles t) "x-sect-cols") as [[s|b|x y|]|]; try reflexivity.
    destruct (String.eqb_spec s "1") as [->|Hs]; [reflexivity|].
    assert (E : match s with "1" => Some (SStr "1") | _ => Some (SStr "2") end = Some (SStr "2")).
    { destruct s as [|[[] [] [] [] [] [] [] []] [|]]; try reflexivity. congruence. }
    rewrite E. reflexivity.
  - rewrite A5, B5. apply kept_text_twice.
  - intros style w Hst Hw. pose proof (B6 style w Hst Hw) as H. unfold kept_line in H. destruct (line_in (t_styles t1) style) as [L1 L2]. destruct (String.eqb_spec w "none") as [->|Hn].
    + rewrite (A6 style "none" Hst (L2 H)). reflexivity.
    + rewrite (A6 style "black" Hst (L1 H)). unfold kept_line. destruct (String.eqb_spec w "none"); [contradiction|reflexivity].
  - auto.
Qed.

(** ** A table *)
Section OneTable.
  Variables kw1 kw2 : kwargs.
  Variable o2 : cals_opts.
  Variable p : pcals_opts.
  Let ns := cals_space kw1.
  Let cns := cals_space kw2.
  Hypothesis Hb1 : no_brace ns.
  Hypothesis Hb2 : no_brace cns.
  Hypothesis Hfx : formex_space kw2 = None.
  Hypothesis Hem : kw_embed kw2 = false.
  Hypothesis Hcs : kw_use_cals kw1 = true -> formex_cals_space kw1 = cns.
  Hypothesis Hti : kw_titles kw1 = false.
  Hypothesis Ho2 : cals_builder kw2 = Ok o2.
  Hypothesis Hpn : pc_ns p = cns.
  Hypothesis Hpu : In (pc_unit p) unit_names.
  Hypothesis Hfm : forall q, exists c, In c (list_ascii_of_string (kw_fmt kw2 q)) /\ digit c.

  Lemma table_returns e l g m e0 : can_travel (kw_use_cals kw1) ns cns (order_of kw2) e l g m -> cals2formex kw1 1 e = Ok e0 ->
    exists e1 before corpus t1, finalize_tree (formex_cals_space kw1) e0 = Ok e1 /\ finished_shape (formex_parser kw2) e1 before corpus /\
      parse_formex (formex_parser kw2) (Some e1) 0 before corpus = Ok t1 /\
      forall e2, generate_table_tree o2 t1 = Ok e2 -> exists t', parse_table p e2 = Ok t' /\ came_back (kw_use_cals kw1) ns e l g m t'.
  Proof.
    intros (Hreg & HL & HT & HPn & HPc & HNT & HFt & HTb & HG) H. unfold cals2formex in H. bind H as t Et.
    assert (Ens : pc_ns (cals_parser kw1) = ns) by apply cals_parser_space.
    destruct (cals_well_read (cals_parser kw1) e t l g m) as [[HR HO HTt HC HW] (cs & Pc & Fc)]; try (rewrite Ens); try assumption. rewrite Ens in Fc.
    destruct (C55_layout (cals_parser kw1) e t) as (l0 & g0 & HL0 & _ & _ & HRows & _); try (rewrite Ens); try assumption. rewrite Ens in HL0, HRows.
    destruct (C55_one_layout _ _ _ _ _ _ _ HL HL0) as [<- <-]. clear HL0.
    pose proof (C54_table_attributes (cals_parser kw1) e t) as HA. rewrite Ens in HA. specialize (HA Hreg Et).
    assert (HIn : forall c, In c (table_iter t) -> exists s, In s g /\ shows ns c s).
    { intros c Hc. apply (Permutation_in _ (Permutation_sym Pc)) in Hc. exact (Forall2_in_l _ _ _ Fc c Hc). }
    assert (HPt : plain_nodes (pf_cals_ns (formex_parser kw2)) (table_iter t)).
    { rewrite formex_parser_cals. intros c n Hc Hn. destruct (HIn c Hc) as (s & Hs & HX). apply (HPn (snd s) n); [apply in_map, Hs|]. rewrite <- (spot_pieces _ _ _ HX). exact Hn. }
    assert (HNt : no_tables (table_iter t)).
    { intros c n Hc Hn. destruct (HIn c Hc) as (s & Hs & HX). apply (HNT (snd s) n); [apply in_map, Hs|]. rewrite <- (spot_pieces _ _ _ HX). exact Hn. }
    assert (Hm : 1 <= m) by (destruct HT as (_ & Hm & _); lia).
    set (rows := row_items (items ns e)) in *.
    assert (HFo : footers_after m t (l_cols l) m).
    { split; [lia|]. split; [|intros r Hr; lia]. intros r v Hr Hv. split; [|lia]. intros E. exfalso. specialize (HRows r v ltac:(lia) Hv). unfold row_attributes in HRows. fold rows in HRows.
      destruct (nth_error rows (Z.to_nat (r - 1))) as [[[na sec] row]|] eqn:En; destruct HRows as [K _]; rewrite K in E; [|discriminate E].
      injection E as ->. exact (HFt _ _ _ (nth_error_In _ _ En) eq_refl). }
    assert (HBT : no_block_titles (fo_use_cals (formex_builder kw1)) t m).
    { intros r v tag type level Hr Hv HS. apply (says_name _ ns rows r) in HS; [|apply HRows; [lia|exact Hv]]. exact (HTb r tag type level Hr HS). }
    destruct (finished_trip (formex_builder kw1) (formex_parser kw2) 1 t (l_cols l) m m e0) as (e1 & before & corpus & t1 & EF & HSh & Ep1 & (lk1 & P1 & F1) & HC1 & HK1 & HTK1 & _);
      try assumption; try (rewrite formex_parser_space; exact Hfx); try (rewrite formex_builder_space, formex_parser_cals; exact Hcs); try (cbn; congruence).
    rewrite formex_builder_space in EF. exists e1, before, corpus, t1. split; [exact EF|]. split; [exact HSh|]. split; [exact Ep1|]. intros e2 E2.
    destruct (C70_formex _ _ _ _ _ _ Ep1) as (R1 & _ & O1).
    assert (Hprop : proper_corpus (pf_ns (formex_parser kw2)) (pf_cals_ns (formex_parser kw2)) corpus) by (rewrite formex_parser_space, Hfx; apply HSh).
    assert (T1 : tiles (table_iter t1) (l_cols l) m).
    { refine (tiles_alike (fcell_finished (fo_use_cals (formex_builder kw1)) m t t1 (l_cols l) m) (fun c => c) lk1 (table_iter t1) (table_iter t) _ _ (Permutation_sym P1) F1 _ _); [intros c a HX; apply HX|rewrite map_id; exact HTt]. }
    assert (W1 : view_count Rows t1 m).
    { destruct (C62_layout _ _ _ _ _ _ Hprop Ep1) as (l1 & g1 & HL1 & (cs1 & Pc1 & Fc1) & HC1' & _). pose proof (view_count_fun _ _ _ _ HC1' HC1) as El.
      assert (Tc : tiles cs1 (l_cols l) m).
      { refine (tiles_alike eq (fun c => c) (table_iter t1) cs1 (table_iter t1) _ _ (Permutation_sym Pc1) _ _ _); [clear; induction (table_iter t1); constructor; auto|intros; congruence|rewrite map_id; exact T1]. }
      assert (Tg : tiles (map snd g1) (f_cols l1) m).
      { rewrite El. refine (tiles_alike (fun a b => c_box a = c_box b) (fun c => c) (map snd g1) (map snd g1) cs1 _ _ (Permutation_refl _) _ _ _); [|intros c a HX; exact HX|rewrite map_id; exact Tc].
        clear - Fc1. induction Fc1 as [|c s l g HX F IH]; cbn; constructor; [symmetry; apply HX|exact IH]. }
      apply (formex_well_read _ _ _ _ _ _ _ _ _ Hprop HL1 Tg Ep1). }
    assert (HN1 : forall r v, 1 <= r <= m -> reads Rows r t1 v -> exists type, row_type (kw_use_cals kw1) ns rows r type /\ v_nature v = Some (nature_or_body type)).
    { intros r v Hr Hv. destruct (reads_exists Rows r t HR ltac:(lia)) as (v0 & Hv0). destruct (proj1 (HK1 r v0 v Hr Hv0 Hv) ltac:(lia)) as (type & level & HS & EN & _).
      exists type. split; [|exact EN]. exists level. apply (says_name _ ns rows r v0); [apply HRows; [lia|exact Hv0]|exact HS]. }
    destruct (builder_of kw2 o2 Ho2) as [Hns Hs]. assert (Eo : co_ns o2 = cns) by (rewrite Hns; apply or_nothing_space).
    assert (HG1 : rows_grouped (co_sorting o2) t1).
    { intros n a b u v j k Hn Ha Hb Hu Hv Hj Hk. rewrite (view_count_fun _ _ _ _ Hn W1) in Hb.
      destruct (HN1 a u ltac:(lia) Hu) as (ta & Ta & Ea). destruct (HN1 b v ltac:(lia) Hv) as (tb & Tb & Eb). rewrite Ea in Hj. rewrite Eb in Hk.
      rewrite (sorting_order _ _ Hs) in Hj, Hk. exact (HG a b ta tb j k Ha Hb Ta Tb Hj Hk). }
    assert (HP1 : plain_contents (co_ns o2) (table_iter t1)).
    { rewrite Eo. intros c n Hc Hn. apply (Permutation_in _ P1) in Hc. destruct (Forall2_in_l _ _ _ F1 c Hc) as (c0 & Hc0 & (_ & (K1 & K2) & _)).
      destruct (empty_dec c0) as [HD|HD]; [rewrite (K1 HD) in Hn; destruct Hn|]. rewrite (K2 HD) in Hn. destruct (HIn c0 Hc0) as (s & Hs0 & HX).
      apply (HPc (snd s) n); [apply in_map, Hs0|]. rewrite <- (spot_pieces _ _ _ HX). exact Hn. }
    destruct (cals_builder_unit kw2 o2 Ho2) as [_ Efm].
    destruct (C42_round_trip_partial o2 p (kw_sorting kw2) t1 (l_cols l) m e2) as (t' & Ep & (lk & Pk & Fk) & HC' & HK & HTK & _); try assumption; try (rewrite Hpn; assumption); try (rewrite Efm; assumption); try congruence.
    exists t'. split; [exact Ep|]. split; [|split; [exact HC'|split]].
    - destruct (Forall2_perm_r _ _ _ lk1 Fk P1) as (lk' & Pk' & Fk').
      destruct (Forall2_perm_r _ _ _ cs F1 (Permutation_sym Pc)) as (lk1' & Pk1' & F1').
      destruct (Forall2_perm_r _ _ _ lk1' Fk' Pk1') as (lk2 & Pk2 & Fk2).
      exists lk2. split; [etransitivity; [apply Permutation_sym, Pk2|etransitivity; [apply Permutation_sym, Pk'|apply Permutation_sym, Pk]]|].
      pose proof (Forall2_in_r _ _ _ Fc) as Fc'. pose proof (laid_content _ _ _ _ _ HL) as HX. 
      assert (Hy : forall s, In s g -> 1 <= cy (bmin (c_box (snd s))) <= m).
      { intros s Hin. destruct HT as (_ & _ & HV & _ & HS & _). unfold all_valid in HV. rewrite Forall_forall in HV. specialize (HV (snd s) (in_map snd _ _ Hin)). unfold valid in HV.
        pose proof (HS (snd s) (in_map snd _ _ Hin) (bmin (c_box (snd s)))) as H1. unfold covers in H1. cbn in H1. lia. }
      clear - Fc' F1' Fk2 HX HN1 Hy. revert lk1' lk2 F1' Fk2. induction Fc' as [|c s l0 g0 [S1 Hin] F IH]; intros lk1 lk2 F1 F2; [inversion F1; subst; inversion F2; subst; constructor|].
      inversion F1 as [|c1 ? lr1 ? K1 F1r]; subst. inversion F2 as [|c2 ? lr2 ? K2 F2r]; subst. constructor; [|apply (IH lr1); assumption].
      pose proof S1 as (Sc & _ & Sb & Ss). destruct K1 as (B1 & (Ce & Cn) & v & Hv & KS & _). destruct K2 as [(B2 & Cp & v1 & Hv1 & EN) [(A2 & V2 & G2 & _) _]].
      assert (Er : cy (bmin (c_box c1)) = cy (bmin (c_box (snd s)))) by (rewrite B1, Sb; reflexivity).
      split; [congruence|]. split; [|split].
      + rewrite Cp. destruct (empty_dec c) as [HD|HD]; [rewrite (Ce HD), (empty_spot ns c s S1 (fun x => HX s x Hin) HD); reflexivity|rewrite (Cn HD), Sc; reflexivity].
      + rewrite Er in Hv1. destruct (HN1 _ v1 (Hy s Hin) Hv1) as (type & HTy & ENv). exists type. split; [exact HTy|]. rewrite EN, ENv, nature_kept. reflexivity.
      + assert (Hq : cy (bmin (c_box c)) <= m) by (rewrite Sb; apply (Hy s Hin)). destruct (KS Hq) as [_ KS'].
        change (fo_use_cals (formex_builder kw1)) with (kw_use_cals kw1) in KS'. destruct (kw_use_cals kw1).
        * destruct KS' as (A1 & V1 & G1 & _). destruct (fst s) as [x|].
          -- pose proof (spot_styles ns c x Ss) as SS. intros k [<-|[<-|[<-|[]]]].
             ++ rewrite A2, A1. apply SS.
             ++ rewrite V2, V1, kept_valign_twice, SS. apply valign_kept.
             ++ rewrite G2, G1, kept_text_twice, SS. apply text_not_empty.
          -- rewrite Ss in *. intros k [<-|[<-|[<-|[]]]]; [rewrite A2, A1|rewrite V2, V1|rewrite G2, G1]; reflexivity.
        * intros k [<-|[<-|[<-|[]]]]; [rewrite A2|rewrite V2|rewrite G2]; rewrite KS' by discriminate; reflexivity.
    - intros r v Hr Hv. destruct (reads_exists Rows r t1 R1 ltac:(lia)) as (v1 & Hv1). destruct (HN1 r v1 Hr Hv1) as (type & HTy & EN). exists type. split; [exact HTy|].
      rewrite (HK r v1 v Hr Hv1 Hv), EN, nature_kept. reflexivity.
    - intros Hu. change (fo_use_cals (formex_builder kw1)) with (kw_use_cals kw1) in HTK1. rewrite Hu in HTK1. exact (table_back _ _ _ _ _ _ HA (table_kept_trans _ _ _ HTK HTK1)).
  Qed.
End OneTable.

Lemma table_tail o t e : generate_table_tree o t = Ok e -> x_set_tail e None = e.
Proof.
  unfold generate_table_tree. intros H.
  repeat match type of H with
  | rbind _ _ = Ok _ => let x := fresh "x" in let E := fresh "E" in bind H as x E
  | (let (_, _) := ?x in _) = Ok _ => destruct x
  end. injection H as <-. reflexivity.
Qed.

(** ** C81: a document converted to Formex and back

    The document is the same up to its tables; each one is now a CALS table alone in a [TBL] (the way back replaces the
    [CORPUS]), and is read as the table of the source: cells, contents, columns, and the natures which the names of the
    rows say; with the CALS attributes also the styles of the cells which CALS keeps and those of the table. *)

Theorem C81_there_and_back : forall kw1 kw2 o2 p doc doc1 doc2, let ns := cals_space kw1 in let cns := cals_space kw2 in let table := has_name ns "table" in
  no_brace ns -> no_brace cns -> formex_space kw2 = None -> kw_embed kw2 = false -> (kw_use_cals kw1 = true -> formex_cals_space kw1 = cns) ->
  kw_titles kw1 = false -> cals_builder kw2 = Ok o2 -> pc_ns p = cns -> In (pc_unit p) unit_names ->
  (forall q, exists c, In c (list_ascii_of_string (kw_fmt kw2 q)) /\ digit c) ->
  table doc = false -> not_nested table doc -> lacks ["TBL"; "ROW"; "CORPUS"; "BLK"] doc ->
  (forall n, inside doc n -> table n = true -> exists l g m, can_travel (kw_use_cals kw1) ns cns (order_of kw2) n l g m) ->
  convert_cals2formex kw1 doc = Ok doc1 -> convert_formex2cals kw2 doc1 = Ok doc2 ->
  converted table (fun _ _ n e => x_tag e = Some "TBL" /\ x_text e = None /\ exists e2 t' l g m, x_children e = [e2] /\ parse_table p e2 = Ok t' /\
    laid_out ns true n l g /\ tiles (map snd g) (l_cols l) m /\ came_back (kw_use_cals kw1) ns n l g m t') [] [] doc doc2.
Proof.
  intros kw1 kw2 o2 p doc doc1 doc2 ns cns table Hb1 Hb2 Hfx Hem Hcs Hti Ho2 Hpn Hpu Hfm Hr Hn HL HG H1 H2.
  set (names := ["TBL"; "ROW"; "CORPUS"; "BLK"]) in *.
  apply C76_cals_to_formex in H1; [|exact Hr|exact Hn|apply (lacks_weaken names); [exact HL|intros x Hx; cbn in *; tauto]].
  set (good := fun n => exists l g m, can_travel (kw_use_cals kw1) ns cns (order_of kw2) n l g m).
  set (is_c := formex kw2 "CORPUS") in *.
  assert (Hc : forall n, is_c n = has_name None "CORPUS" n) by (intros n; unfold is_c, formex; rewrite Hfx; reflexivity).
  assert (Hbk : forall n, formex kw2 "BLK" n = has_name None "BLK" n) by (intros n; unfold formex; rewrite Hfx; reflexivity).
  assert (Hnt : forall n, formex kw2 "GR.NOTES" n = has_name None "GR.NOTES" n) by (intros n; unfold formex; rewrite Hfx; reflexivity).
  assert (Hlack : forall n, lacks ["CORPUS"] n -> forall m, m = n \/ inside n m -> is_c m = false).
  { intros n Hl m Hm. apply (lacks_has None "CORPUS") in Hl as [K1 K2]. rewrite Hc. destruct Hm as [->|Hm]; [exact K1|exact (K2 m Hm)]. }
  assert (name_c : forall tag attrs text ch tail, ~ In tag names -> is_c (XElem tag attrs text ch tail) = false).
  { intros tag attrs text ch tail Ht. rewrite Hc. destruct (has_name None "CORPUS" (XElem tag attrs text ch tail)) eqn:E; [|reflexivity]. unfold has_name in E. apply P_FormexEvents.tag_spec in E. injection E as ->. exfalso. apply Ht. cbn. tauto. }
  assert (name_b : forall tag attrs text ch tail, ~ In tag names -> formex kw2 "BLK" (XElem tag attrs text ch tail) = false).
  { intros tag attrs text ch tail Ht. rewrite Hbk. destruct (has_name None "BLK" (XElem tag attrs text ch tail)) eqn:E; [|reflexivity]. unfold has_name in E. apply P_FormexEvents.tag_spec in E. injection E as ->. exfalso. apply Ht. cbn. tauto. }
  assert (pi_c : forall a b c, is_c (XPI a b c) = false) by (intros; rewrite Hc; reflexivity).
  assert (comment_c : forall a b, is_c (XComment a b) = false) by (intros; rewrite Hc; reflexivity).
  match type of H1 with converted _ ?R _ _ _ _ => set (R1 := R) in * end.
  assert (HS : forall b a n e, R1 b a n e -> good n -> exists attrs attrs0 before corpus t1 l g m, e = XElem "TBL" attrs None (before ++ [corpus]) None /\
    can_travel (kw_use_cals kw1) ns cns (order_of kw2) n l g m /\
    finished_shape (formex_parser kw2) (XElem "TBL" attrs0 None (before ++ [corpus]) None) before corpus /\
    (forall tl, parse_formex (formex_parser kw2) (Some (XElem "TBL" attrs None (before ++ [corpus]) tl)) 0 before corpus = Ok t1) /\
    forall e2, generate_table_tree o2 t1 = Ok e2 -> exists t', parse_table p e2 = Ok t' /\ came_back (kw_use_cals kw1) ns n l g m t').
  { intros b a n e (k & s & e0 & e1 & _ & _ & E0 & E1 & ->) (l & g & m & HT).
    destruct (table_returns kw1 kw2 o2 p Hb1 Hb2 Hfx Hem Hcs Hti Ho2 Hpn Hpu Hfm n l g m e0 HT E0) as (e1' & before & corpus & t1 & EF & HSh & Ep & HB).
    assert (e1' = e1) as -> by congruence. pose proof HSh as ((attrs & ->) & _). exists (dset attrs "NO.SEQ" s), attrs, before, corpus, t1, l, g, m.
    split; [reflexivity|]. split; [exact HT|]. split; [exact HSh|]. split; [|exact HB]. intros tl. rewrite <- Ep. apply parse_alike. intros name Hname.
    unfold fget, x_get. cbn [x_attrs]. unfold fmx. rewrite formex_parser_space, Hfx.
    assert (name <> "NO.SEQ") by (intros ->; cbn in Hname; intuition discriminate). cbn. apply P_Grid.dget_dset_other. congruence. }
  assert (HF : forall attrs0 before corpus tl, finished_shape (formex_parser kw2) (XElem "TBL" attrs0 None (before ++ [corpus]) None) before corpus ->
    (forall c, In c before -> forall m, m = c \/ inside c m -> is_c m = false) /\ is_c corpus = true /\ (forall m, inside corpus m -> is_c m = false) /\
    filter (fun n => negb (formex kw2 "GR.NOTES" n)) before = [] /\ x_tail corpus = None /\ forall attrs, flat is_c (XElem "TBL" attrs None (before ++ [corpus]) tl)).
  { intros attrs0 before corpus tl (_ & HBf & HCh & Htl & (HCn & _)). rewrite Forall_forall in HBf, HCh.
    assert (K1 : forall c, In c before -> forall m, m = c \/ inside c m -> is_c m = false) by (intros c Hin; apply Hlack, (HBf c Hin)).
    assert (K2 : forall m, inside corpus m -> is_c m = false).
    { intros m Hm. inversion Hm as [? c Hin|? c ? Hin Hin']; subst; [apply (Hlack m (HCh m Hin)); left; reflexivity|apply (Hlack c (HCh c Hin)); right; exact Hin']. }
    split; [exact K1|]. split; [rewrite Hc; unfold has_name; apply P_FormexEvents.tag_spec; exact HCn|]. split; [exact K2|]. split; [|split; [exact Htl|]].
    - clear - HBf Hnt. induction before as [|x l IH]; [reflexivity|]. cbn [filter]. rewrite Hnt. unfold has_name. rewrite (proj2 (P_FormexEvents.tag_spec None x "GR.NOTES") (proj1 (HBf x (or_introl eq_refl)))). cbn. apply IH. intros y Hy. apply HBf. right. exact Hy.
    - intros attrs. apply flat_intro; [rewrite Hc; reflexivity|]. cbn [x_children]. intros c Hin. apply in_app_iff in Hin as [Hin|[<-|[]]]; [apply free_flat, K1, Hin|].
      split; [intros _; exact K2|]. intros x m [Hx Ex] _. rewrite (K2 x Hx) in Ex. discriminate Ex. }
  assert (Hfine : fine table names good doc).
  { split; [exact HL|]. intros m [->|Hm] Em; [congruence|]. exact (HG m Hm Em). }
  assert (Hflat : flat is_c doc1).
  { refine (converted_flat table is_c R1 names name_c pi_c comment_c good _ doc [] [] doc1 Hfine H1).
    intros b a n e _ _ Hg HR1 tl. destruct (HS b a n e HR1 Hg) as (attrs & attrs0 & before & corpus & t1 & l & g & m & -> & _ & HSh & _). apply (HF attrs0 before corpus tl HSh). }
  assert (Hroot : is_c doc1 = false).
  { inversion H1 as [? ? ? e Et Re|? ? ? ? ? ? ch' ? Et Hl| |]; subst; [change (table doc = true) in Et; congruence|apply name_c|apply pi_c|apply comment_c]. apply (proj1 (lacks_inv _ _ _ _ _ _ HL)). }
  apply (C78_formex_to_cals kw2 doc1 o2 doc2 Ho2 Hroot (proj2 Hflat)) in H2.
  refine (composed table is_c (formex kw2 "GR.NOTES") (formex kw2 "BLK") R1 _ names _ name_c name_b pi_c comment_c good _ doc [] [] doc1 doc2 Hfine H1 H2).
  intros b a n e _ _ Hg HR1 tl. destruct (HS b a n e HR1 Hg) as (attrs & attrs0 & before & corpus & t1 & l & g & m & -> & HT & HSh & Ep & HB).
  destruct (HF attrs0 before corpus tl HSh) as (K1 & K2 & K3 & K4 & K5 & _). split; [rewrite Hc; reflexivity|]. cbn [x_set_tail]. intros d Hd.
  inversion Hd as [? ? ? ? ? ch' ? E Hch| |]; subst. rewrite Hbk in Hch. cbn in Hch.
  apply among_app in Hch; [|intros c m0 Hin; exact (K1 c Hin m0)]. cbn [app] in Hch.
  inversion Hch as [|? ? ? ? e2 ? ? E3 (tx & Ex & E2) Hend|? ? ? ? ? ? ? E3 _ _]; subst; [|congruence]. inversion Hend; subst. rewrite K4, K5, (table_tail _ _ _ E2).
  rewrite (Ep tl) in Ex. injection Ex as <-. destruct (HB e2 E2) as (t' & Et' & HCB).
  exists (XElem "TBL" attrs None [e2] None). split; [reflexivity|]. split; [reflexivity|]. split; [reflexivity|]. exists e2, t', l, g, m.
  split; [reflexivity|]. split; [exact Et'|]. split; [apply HT|]. split; [apply HT|exact HCB].
Qed.

(** ** Examples *)

Lemma says_guess name tag type level : name_says name tag type level -> guess_row_info name = MkRowInfo tag type level.
Proof.
  destruct name as [s|]; cbn [name_says]; [|intros (-> & -> & ->); reflexivity].
  intros [(lv & H & ->)|(H & -> & -> & ->)]; [exact (C45_decoded _ _ _ _ H)|exact (C45_others _ H)].
Qed.
Definition rows_check (use_cals : bool) (ns : option string) (order : list string) (rows : list (string * xnode * xnode)) (m : Z) : bool :=
  let info r := guess_row_info (row_name use_cals ns rows r) in
  let key r := sorting_key order (Some (nature_or_body (ri_type (info r)))) in
  forallb (fun x => negb (String.eqb (fst (fst x)) "footer")) rows &&
  forallb (fun r => String.eqb (ri_tag (info r)) "ROW") (zrange 1 (m + 1)) &&
  forallb (fun b => forallb (fun a => (b <? a) || (key a <=? key b)) (zrange 1 (m + 1))) (zrange 1 (m + 1)).
Lemma travel_check use_cals ns cns order o e t (n m : Z) : pc_ns o = ns -> no_brace ns -> In "body" order ->
  regular ns e -> parse_table o e = Ok t -> view_count Cols t n -> tilesb (table_iter t) n m = true ->
  (forall c x, In c (table_iter t) -> In (Node x) (content_pieces (c_content c)) -> False) ->
  rows_check use_cals ns order (row_items (items ns e)) m = true ->
  exists l g, can_travel use_cals ns cns order e l g m.
Proof.
  intros <- Hb Ho HR Et Hn HT HP HC. destruct (C55_layout o e t Hb HR Et) as (l & g & HL & (cs & HPm & HX) & Hc & _).
  assert (En : l_cols l = n) by (eapply view_count_fun; eassumption).
  assert (HN : forall c x, In c (map snd g) -> In (Node x) (content_pieces (c_content c)) -> False) by exact (plain_back _ _ _ _ (fun _ => False) HPm HX HP).
  apply andb_prop in HC as [HC H3]. apply andb_prop in HC as [H1 H2]. rewrite forallb_forall in H1, H2, H3.
  exists l, g. unfold can_travel. cbn zeta. split; [exact HR|]. split; [exact HL|]. split.
  { rewrite En. refine (tiles_back (shows (pc_ns o)) snd cs _ g n m HPm HX _ (tilesb_tiles _ _ _ HT)). intros c s H. apply H. }
  split; [intros c x Hc0 Hx; destruct (HN c x Hc0 Hx)|]. split; [intros c x Hc0 Hx; destruct (HN c x Hc0 Hx)|]. split; [intros c x Hc0 Hx; destruct (HN c x Hc0 Hx)|].
  split; [|split].
  - intros na sec row Hin. specialize (H1 _ Hin). cbn in H1. intros ->. discriminate H1.
  - intros r tag type level Hr Hs. specialize (H2 r ltac:(apply P_Geometry.in_zrange; lia)). cbn beta in H2. rewrite (says_guess _ _ _ _ Hs) in H2. apply String.eqb_eq in H2. exact H2.
  - intros a b ta tb j k Ha Hbm (la & Hla) (lb & Hlb) Hj Hk. specialize (H3 b ltac:(apply P_Geometry.in_zrange; lia)). rewrite forallb_forall in H3.
    specialize (H3 a ltac:(apply P_Geometry.in_zrange; lia)). rewrite (says_guess _ _ _ _ Hla), (says_guess _ _ _ _ Hlb) in H3. cbn [ri_type] in H3.
    apply sorting_key_spec in Hj, Hk; try exact Ho. apply orb_true_iff in H3 as [H3|H3]; [apply Z.ltb_lt in H3; lia|apply Z.leb_le in H3; lia].
Qed.
Definition doc_named : xnode :=
  el "table" [("frame", "topbot"); ("tabstyle", "my table")] [
    el "tgroup" [("colsep", "1")] [
      el "colspec" [("colnum", "1"); ("colwidth", "20mm")] []; el "colspec" [("colnum", "2"); ("align", "char")] [];
      el "thead" [("valign", "top")] [
        el "row" [("rowstyle", "ROW-HEADER")] [entry_ [("namest", "c1"); ("nameend", "c2"); ("align", "center"); ("colsep", "0")] "a"; entry_ [("rowsep", "0")] "b"]];
      el "tbody" [] [
        el "row" [("rowstyle", "ROW-TOTAL"); ("bgcolor", "red")] [entry_ [("morerows", "1")] "c"; el "entry" [] []];
        el "row" [] [entry_ [("colsep", "0")] "d"; entry_ [] "e"]]]].
Definition doc_trip : xnode :=
  XElem "doc" [("id", "x")] (Some "begin") [after "between" doc_named; XElem "p" [] (Some "text") [after "end" doc_conv] None; XComment "last" None] None.
(** the options of the way back: the name space which the first conversion gives to the CALS attributes *)
Definition kw_home : kwargs := MkKwargs (Some (Some CALS_NS)) None None false [] true false None false (fun _ => "0").
Definition pc_home : pcals_opts := MkPCalsOpts (Some CALS_NS) "mm" (fun _ => "0").
Ltac travel_tac e := intros use_cals;
  assert (HR : regular None e) by T_CalsParser.regular_tac;
  assert (HX : exists t, parse_table o0 e = Ok t) by (eexists; vm_compute; reflexivity); destruct HX as (t & Et);
  assert (H1 : no_brace None) by (intros u H; discriminate); assert (H2 : In "body" (order_of kw_home)) by (cbn; tauto);
  assert (H3 : view_count Cols t 3) by (clear - Et; vm_compute in Et; injection Et as <-; eexists; split; vm_compute; reflexivity);
  assert (H4 : tilesb (table_iter t) 3 3 = true) by (clear - Et; vm_compute in Et; injection Et as <-; reflexivity);
  assert (H5 : forall c x, In c (table_iter t) -> In (Node x) (content_pieces (c_content c)) -> False);
    [clear - Et; vm_compute in Et; injection Et as <-; intros c n Hc Hn; vm_compute in Hc; repeat (destruct Hc as [<-|Hc]; [no_node Hn|]); destruct Hc|];
  destruct (travel_check use_cals None (cals_space kw_home) (order_of kw_home) o0 e t 3 3 eq_refl H1 H2 HR Et H3 H4 H5) as (l & g & H);
    [destruct use_cals; vm_compute; reflexivity|exists l, g, 3; exact H].
Definition travelling (use_cals : bool) (n : xnode) : Prop :=
  exists l g m, can_travel use_cals (cals_space kw_conv) (cals_space kw_home) (order_of kw_home) n l g m.
Lemma travels_1 : forall use_cals, travelling use_cals (after "between" doc_named).
Proof. travel_tac (after "between" doc_named). Qed.
Lemma travels_2 : forall use_cals, travelling use_cals (after "end" doc_conv).
Proof. travel_tac (after "end" doc_conv). Qed.
Lemma travels_3 : forall use_cals, travelling use_cals doc_conv.
Proof. travel_tac doc_conv. Qed.
Lemma trip_tables n : inside doc_trip n -> has_name None "table" n = true -> In n [after "between" doc_named; after "end" doc_conv].
Proof.
  intros Hi Hn. apply inside_nodes in Hi. assert (H : In n (filter (has_name None "table") (flat_map tree_nodes (x_children doc_trip)))) by (apply filter_In; auto).
  vm_compute in H. destruct H as [<-|[<-|[]]]; [left|right; left]; reflexivity.
Qed.
Example C81_ex : exists doc1 doc2 o2 e1 e2 t1 t2,
  no_brace (cals_space kw_conv) /\ no_brace (cals_space kw_home) /\ formex_space kw_home = None /\ kw_embed kw_home = false /\
  (kw_use_cals kw_conv = true -> formex_cals_space kw_conv = cals_space kw_home) /\ kw_titles kw_conv = false /\ cals_builder kw_home = Ok o2 /\
  pc_ns pc_home = cals_space kw_home /\ In (pc_unit pc_home) unit_names /\
  (forall q, exists c, In c (list_ascii_of_string (kw_fmt kw_home q)) /\ digit c) /\
  has_name (cals_space kw_conv) "table" doc_trip = false /\ not_nested (has_name (cals_space kw_conv) "table") doc_trip /\
  lacks ["TBL"; "ROW"; "CORPUS"; "BLK"] doc_trip /\
  (forall n, inside doc_trip n -> has_name (cals_space kw_conv) "table" n = true ->
     exists l g m, can_travel (kw_use_cals kw_conv) (cals_space kw_conv) (cals_space kw_home) (order_of kw_home) n l g m) /\
  convert_cals2formex kw_conv doc_trip = Ok doc1 /\ convert_formex2cals kw_home doc1 = Ok doc2 /\
  doc2 = XElem "doc" [("id", "x")] (Some "begin")
           [XElem "TBL" [("NO.SEQ", "0001"); ("COLS", "3")] None [e1] (Some "between");
            XElem "p" [] (Some "text") [XElem "TBL" [("NO.SEQ", "0002"); ("COLS", "3")] None [e2] (Some "end")] None; XComment "last" None] None /\
  parse_table pc_home e1 = Ok t1 /\ parse_table pc_home e2 = Ok t2 /\
  map (fun c => (c_box c, content_pieces (c_content c), c_nature c)) (table_iter t1) =
      [(MkBox (Coord 1 1) (Coord 2 1), [Char "a"%char], Some "header"); (MkBox (Coord 3 1) (Coord 3 1), [Char "b"%char], Some "header"); (MkBox (Coord 1 2) (Coord 1 3), [Char "c"%char], Some "body");
       (MkBox (Coord 2 2) (Coord 2 2), [], Some "body"); (MkBox (Coord 3 2) (Coord 3 2), [], Some "body"); (MkBox (Coord 2 3) (Coord 2 3), [Char "d"%char], Some "body"); (MkBox (Coord 3 3) (Coord 3 3), [Char "e"%char], Some "body")].
Proof.
  do 7 eexists. split; [intros u H; discriminate|]. split; [intros u [= <-] H; vm_compute in H; repeat (destruct H as [H|H]; [discriminate H|]); destruct H|].
  split; [reflexivity|]. split; [reflexivity|]. split; [reflexivity|]. split; [reflexivity|]. split; [vm_compute; reflexivity|]. split; [reflexivity|].
  split; [cbn; tauto|]. split; [intros q; exists "0"%char; vm_compute; tauto|].
  split; [reflexivity|]. split; [apply apart_not_nested; vm_compute; reflexivity|]. split; [apply lacksb_lacks; vm_compute; reflexivity|].
  split; [intros n Hi Hn; destruct (trip_tables n Hi Hn) as [<-|[<-|[]]]; [apply travels_1|apply travels_2]|].
  split; [vm_compute; reflexivity|]. split; [vm_compute; reflexivity|]. split; [reflexivity|]. split; [vm_compute; reflexivity|]. split; vm_compute; reflexivity.
Qed.

(** *** What does not come back *)

Lemma nodes_inside n : forall m, In m (flat_map tree_nodes (x_children n)) -> inside n m.
Proof.
  induction n as [tag attrs text children tail IH| |] using xnode_ind'; intros m H; [|destruct H|destruct H]. cbn [x_children] in H.
  apply in_flat_map in H as (c & Hc & Hm). rewrite Forall_forall in IH. specialize (IH c Hc m).
  destruct c; cbn [tree_nodes x_children] in *; destruct Hm as [<-|Hm]; try (apply in_child; exact Hc); try (destruct Hm; fail). eapply in_deep; [exact Hc|apply IH, Hm].
Qed.
Lemma named_inside ns name n m : inside n m -> has_name ns name m = true -> In m (filter (has_name ns name) (flat_map tree_nodes (x_children n))).
Proof. intros H1 H2. apply filter_In. split; [apply inside_nodes, H1|exact H2]. Qed.

(** The lines of a cell, the colour of a row, and the head of a table whose rows have no name are lost, even with the CALS
    attributes. *)
Definition doc_bare : xnode := XElem "doc" [] None [doc_conv] None.
Theorem C81_lines_refuted : exists doc1 doc2, convert_cals2formex kw_conv doc_bare = Ok doc1 /\ convert_formex2cals kw_home doc1 = Ok doc2 /\
  (forall x, inside doc_bare x -> has_name (cals_space kw_conv) "table" x = true ->
     exists l g m, can_travel (kw_use_cals kw_conv) (cals_space kw_conv) (cals_space kw_home) (order_of kw_home) x l g m) /\
  (exists x, inside doc_bare x /\ has_name (cals_space kw_conv) "entry" x = true /\ attribute (cals_space kw_conv) x "colsep" = Some "0") /\
  (forall x, inside doc2 x -> has_name (cals_space kw_home) "entry" x = true -> attribute (cals_space kw_home) x "colsep" = None) /\
  (exists x, inside doc_bare x /\ has_name (cals_space kw_conv) "row" x = true /\ attribute (cals_space kw_conv) x "bgcolor" = Some "red") /\
  (forall x, inside doc2 x -> has_name (cals_space kw_home) "row" x = true -> attribute (cals_space kw_home) x "bgcolor" = None) /\
  (exists x, inside doc_bare x /\ has_name (cals_space kw_conv) "thead" x = true) /\
  (forall x, inside doc2 x -> has_name (cals_space kw_home) "thead" x = false).
Proof.
  do 2 eexists. split; [vm_compute; reflexivity|]. split; [vm_compute; reflexivity|]. split; [|split; [|split; [|split; [|split; [|split]]]]].
  - intros x Hx Hn. apply (named_inside _ _ _ _ Hx) in Hn. vm_compute in Hn. destruct Hn as [<-|[]]. apply travels_3.
  - exists (entry_ [("namest", "c1"); ("nameend", "c2"); ("align", "center"); ("colsep", "0")] "a"). split; [|split; reflexivity]. apply nodes_inside. vm_compute. tauto.
  - intros x Hx Hn. apply (named_inside _ _ _ _ Hx) in Hn. vm_compute in Hn. repeat (destruct Hn as [<-|Hn]; [reflexivity|]). destruct Hn.
  - exists (el "row" [("bgcolor", "red")] [entry_ [("morerows", "1")] "c"; el "entry" [] []]). split; [|split; reflexivity]. apply nodes_inside. vm_compute. tauto.
  - intros x Hx Hn. apply (named_inside _ _ _ _ Hx) in Hn. vm_compute in Hn. repeat (destruct Hn as [<-|Hn]; [reflexivity|]). destruct Hn.
  - eexists (el "thead" [("valign", "top")] [el "row" [] [entry_ [("namest", "c1"); ("nameend", "c2"); ("align", "center"); ("colsep", "0")] "a"; entry_ [("rowsep", "0")] "b"]]).
    split; [|reflexivity]. apply nodes_inside. vm_compute. tauto.
  - intros x Hx. destruct (has_name (cals_space kw_home) "thead" x) eqn:Hn; [|reflexivity]. apply (named_inside _ _ _ _ Hx) in Hn. vm_compute in Hn. destruct Hn.
Qed.

Print Assumptions C81_there_and_back.
Print Assumptions C81_lines_refuted.
