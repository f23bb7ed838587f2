(** * Theorems about CALS tables which are written through Formex or directly (C98) *)
From Coq Require Import Permutation.
From Verif Require Import Base M_Geometry M_Xml M_Cell M_Grid M_Table M_Str M_Units M_Builder M_Cals M_CalsParser M_Formex M_FormexParser M_FormexRead M_Ooxml M_Convert.
From Verif Require Import S_Geometry S_Grid S_Table S_Units S_Builder S_Cals S_Int S_CalsParser S_RoundTrip S_Formex S_Attrs S_FormexRead S_FormexTrip S_Axes S_Convert S_Through S_Again S_ThroughFormex.
From Verif Require S_Ooxml S_ConvertWord T_Ooxml T_Pictures P_Grid P_OoxmlRegions P_OoxmlPath P_OoxmlStyle P_OoxmlCell P_OoxmlLayout.
From Verif Require Import P_Table P_TableFacts P_TableMore P_Cals P_Formex P_RoundTrip P_RoundTripMain P_FormexTripRead P_FormexTripMain P_Parsed.
From Verif Require Import T_Table T_Cals T_Formex T_CalsParser T_RoundTrip T_FormexRead T_FormexTrip T_Convert T_ConvertBack T_Options T_Through T_Again T_FormexAgain.
Open Scope string_scope.
Open Scope list_scope.
Open Scope Z_scope.

Lemma entry_but (blank : list piece -> Prop) ns' ns c' c x y : c_box c' = c_box c -> fcontent_kept c' c -> (shown_empty c -> blank (content_pieces (c_content c))) ->
  describes_cell ns' c' x -> describes_cell ns c y -> same_entry_but blank ns' ns x y.
Proof.
  intros Hb (K1 & K2) HBl D1 D2. destruct (empty_dec c) as [Hc|Hc].
  - pose proof D1 as (T1 & _ & _ & E1). pose proof D2 as (T2 & _ & _ & E2). split; [exact T1|]. split; [exact T2|]. split; [|right; rewrite E1, E2, (K1 Hc); split; [reflexivity|apply HBl, Hc]].
    destruct D1 as (_ & _ & P1 & _), D2 as (_ & _ & P2 & _). rewrite Hb in P1. destruct (c_box c) as [[x1 y1] [x2 y2]]. destruct P1 as (A1 & A2 & A3 & A4), P2 as (B1 & B2 & B3 & B4).
    intros k [<-|[<-|[<-|[]]]].
    + destruct (Z_lt_le_dec x1 x2) as [H|H]; [destruct (A1 H), (B1 H)|destruct (A2 H), (B2 H)]; congruence.
    + destruct (Z_lt_le_dec x1 x2) as [H|H]; [destruct (A1 H), (B1 H)|destruct (A2 H), (B2 H)]; congruence.
    + destruct (Z_lt_le_dec y1 y2) as [H|H]; [rewrite (A3 H), (B3 H)|rewrite (A4 H), (B4 H)]; reflexivity.
  - destruct (entry_same ns' ns c' c x y Hb (K2 Hc) D1 D2) as (T1 & T2 & T3 & T4). split; [exact T1|]. split; [exact T2|]. split; [exact T3|left; exact T4].
Qed.
Lemma no_footer_kept n : n <> Some "footer" -> header_or_body n = kept_nature n.
Proof.
  intros H. unfold header_or_body, kept_nature. destruct n as [s|]; [|reflexivity]. destruct (String.eqb_spec s "header") as [->|_]; [reflexivity|].
  destruct (String.eqb_spec s "footer") as [->|_]; [congruence|reflexivity].
Qed.

(** A table without footers is written in Formex, read and written in CALS ([e2]), or written in CALS directly ([e3]):
    the same columns, rows, sections and entries; the entry of a cell which Formex shows as empty has no content. *)
Theorem C98_through_formex : forall (blank : list piece -> Prop) o p o2 o3 k t n m e corpus t' e2 e3,
    well_read t n m -> pf_ns p = None -> (fo_use_cals o = true -> co_ns (fo_cals o) = pf_cals_ns p) ->
    (fo_titles o = true -> ~ has_title t) -> plain_nodes (pf_cals_ns p) (table_iter t) ->
    (forall r v, 1 <= r <= m -> reads Rows r t v -> v_nature v <> Some "footer") ->
    (forall c, In c (table_iter t) -> shown_empty c -> blank (content_pieces (c_content c))) ->
    In "body" (co_sorting o2) -> In "body" (co_sorting o3) -> kept_grouped (co_sorting o2) t -> rows_grouped (co_sorting o3) t ->
    generate_tbl o k t = Ok e -> x_children e = [corpus] -> parse_formex p (Some e) 0 [] corpus = Ok t' ->
    generate_table_tree o2 t' = Ok e2 -> generate_table_tree o3 t = Ok e3 ->
    Z.of_nat (List.length (rows_in_sections (co_ns o3) e3)) = m /\ same_columns (co_ns o2) (co_ns o3) n e2 e3 /\
    Forall2 (same_row_but blank (co_ns o2) (co_ns o3)) (rows_in_sections (co_ns o2) e2) (rows_in_sections (co_ns o3) e3).
Proof.
  intros blank o p o2 o3 k t n m e corpus t' e2 e3 HWR Epns Ens Hti HP HFo HBl HB2 HB3 HG2 HG3 HE Ech Ep E2 E3.
  destruct (through_formex o p k t n m e corpus t' HWR Epns Ens Hti HP HE Ech Ep) as (HWR' & (lk & Pk & Fk) & HK & _).
  destruct HWR as [HR HO HT HC HW], HWR' as [HR' HO' HT' HC' HW'].
  destruct (generate_spec o2 t' e2 HR' HB2 E2) as (cols2 & rows2 & Ec2 & Er2 & HD2). destruct (generate_spec o3 t e3 HR HB3 E3) as (cols3 & rows3 & Ec3 & Er3 & HD3).
  destruct (table_views_spec _ _ _ HR' Er2) as [_ Hr2]. destruct (table_views_spec _ _ _ HR Er3) as [_ Hr3].
  assert (L2 : Z.of_nat (List.length rows2) = m) by (destruct HW' as (vs & Ev & ->); unfold table_views in Er2; congruence).
  assert (L3 : Z.of_nat (List.length rows3) = m) by (destruct HW as (vs & Ev & ->); unfold table_views in Er3; congruence).
  assert (N2 : Z.of_nat (List.length cols2) = n) by (destruct HC' as (vs & Ev & ->); unfold table_views in Ec2; congruence).
  assert (N3 : Z.of_nat (List.length cols3) = n) by (destruct HC as (vs & Ev & ->); unfold table_views in Ec3; congruence).
  rewrite N2 in HD2. rewrite N3 in HD3.
  assert (HKn : forall r v v', 1 <= r <= m -> reads Rows r t v -> reads Rows r t' v' -> v_nature v' = Some (kept_nature (v_nature v))).
  { intros r v v' Hr Hv Hv'. rewrite (HK r v v' Hr Hv Hv'), no_footer_kept; [reflexivity|exact (HFo r v Hr Hv)]. }
  assert (HGt' : rows_grouped (co_sorting o2) t').
  { intros n0 q1 q2 u' v' j k0 Hn0 Hp Hq Hu' Hv' Hj Hk. rewrite (view_count_fun _ _ _ _ Hn0 HW') in Hq. clear n0 Hn0.
    assert (X : forall r, 1 <= r <= m -> exists v, reads Rows r t v).
    { intros r Hr. destruct (nth_error rows3 (Z.to_nat (r - 1))) as [v|] eqn:Ev; [|apply nth_error_None in Ev; lia]. exists v. specialize (Hr3 _ _ Ev). rewrite Z2Nat.id in Hr3 by lia. replace (r - 1 + 1) with r in Hr3 by lia. exact Hr3. }
    destruct (X q1 ltac:(lia)) as (u & Hu0). destruct (X q2 ltac:(lia)) as (v & Hv0).
    rewrite (HKn q1 u u' ltac:(lia) Hu0 Hu') in Hj. rewrite (HKn q2 v v' ltac:(lia) Hv0 Hv') in Hk. exact (HG2 m q1 q2 u v j k0 HW Hp Hq Hu0 Hv0 Hj Hk). }
  apply table_rows in HD2 as (F2 & tg2 & C2). apply table_rows in HD3 as (F3 & tg3 & C3).
  rewrite (sections_stay o2 t' rows2 HR' HB2 Er2 HGt') in F2. rewrite (sections_stay o3 t rows3 HR HB3 Er3 HG3) in F3.
  split; [rewrite <- (Forall2_len _ _ _ F3); exact L3|].
  assert (LZ : List.length (zrange 1 (n + 1)) = Z.to_nat n) by (unfold zrange; rewrite map_length, seq_length; f_equal; lia). rewrite LZ in C2, C3.
  split; [exists tg2, tg3; tauto|].
  refine (Forall2_join (paired t' t m) (row_of _) (row_of _) (same_row_but _ _ _) rows2 rows3 _ _ _ (rows_paired _ _ _ _ _ Hr2 Hr3 L2 L3) F2 F3).
  intros v' v x y _ _ (r & Hrm & Hv' & Hv) (X1 & X2) (Y1 & Y2). rewrite (HKn r v v' Hrm Hv Hv'), kept_section in X1. split.
  - exists (section_of (v_nature v)). split; [|split; assumption]. specialize (HFo r v Hrm Hv). unfold section_of.
    destruct (v_nature v) as [s|]; [destruct (String.eqb_spec s "header") as [_|_]; [|destruct (String.eqb_spec s "footer") as [->|_]; [congruence|]]|]; cbn; tauto.
  - destruct (view_membership Rows r t' v' HR' ltac:(lia) Hv') as (_ & M' & _). destruct (view_membership Rows r t v HR ltac:(lia) Hv) as (_ & M & _).
    destruct (Forall2_in_both _ _ _ Fk) as [Fl Fr].
    refine (Forall2_join (fcell_kept (fo_use_cals o) t t' n m) (describes_cell _) (describes_cell _) (same_entry_but _ _ _) (v_owned v') (v_owned v) _ _ _ _ X2 Y2).
    + intros c' c x' y' _ Hin (K1 & K2 & _). apply entry_but; [exact K1|exact K2|]. apply HBl. apply M, Hin.
    + apply sorted_places; [intros a b H; apply H|exact (HO' r v' ltac:(lia) Hv')|exact (HO r v ltac:(lia) Hv)| |].
      * intros a Ha. apply M' in Ha as [Ha Hs]. apply (Permutation_in _ Pk) in Ha. destruct (Fl a Ha) as (b & Hb' & Kab). exists b. split; [|exact Kab].
        apply M. split; [exact Hb'|]. cbn [starts_at] in *. rewrite <- (proj1 Kab). exact Hs.
      * intros b Hb'. apply M in Hb' as [Hb' Hs]. destruct (Fr b Hb') as (a & Ha & Kab). exists a. split; [|exact Kab].
        apply M'. split; [apply (Permutation_in _ (Permutation_sym Pk)), Ha|]. cbn [starts_at] in *. rewrite (proj1 Kab). exact Hs.
Qed.

(** A Word table converted to Formex and the CORPUS of the result to CALS, or converted to CALS directly.

    What is missing: that both conversions succeed and that the contents are equal, which is false (C98_header and
    C98_equal_refuted); the attributes other than the place; titles. *)
Theorem C98_word_partial : forall kw1 kw2 kw3 ox sect k tbl cols trs rows e corpus e2 e3,
    S_Ooxml.word_table tbl cols trs -> Forall2 S_Ooxml.row_reads trs rows -> S_Ooxml.regular rows -> S_ConvertWord.word_rectangle cols rows ->
    (forall ct na b n, S_Ooxml.displayed (Z.of_nat (List.length cols)) rows ct na b -> In (Node n) (content_pieces ct) -> stranger None (cals_space kw2) n /\ x_tag n <> Some "IE") ->
    formex_space kw2 = None -> (kw_use_cals kw1 = true -> formex_cals_space kw1 = cals_space kw2) -> kw_titles kw1 = false ->
    natures_grouped (order_of kw2) (fun r => Some (kept_nature (S_ConvertWord.word_nature rows r))) (Z.of_nat (List.length rows)) ->
    natures_grouped (order_of kw3) (S_ConvertWord.word_nature rows) (Z.of_nat (List.length rows)) ->
    ooxml2formex kw1 ox sect k tbl = Ok e -> x_children e = [corpus] -> formex2cals kw2 (Some e) 0 [] corpus = Ok e2 -> ooxml2cals kw3 ox sect tbl = Ok e3 ->
    List.length (rows_in_sections (cals_space kw3) e3) = List.length rows /\
    same_columns (cals_space kw2) (cals_space kw3) (Z.of_nat (List.length cols)) e2 e3 /\
    Forall2 (same_row_but shows_nothing (cals_space kw2) (cals_space kw3)) (rows_in_sections (cals_space kw2) e2) (rows_in_sections (cals_space kw3) e3).
Proof.
  intros kw1 kw2 kw3 ox sect k tbl cols trs rows e corpus e2 e3 HW HF HR (Hc & Hr & Hwid) HP Hfs Ens Hti HG2 HG3 H1 Ech H2 H3.
  unfold ooxml2formex in H1. bind H1 as t Et. unfold formex2cals in H2. bind H2 as o2 Eo2. bind H2 as t' Et'. unfold ooxml2cals in H3. bind H3 as o3 Eo3. rewrite Et in H3. cbn [rbind] in H3.
  pose proof (word_well_read _ _ _ _ _ _ _ HW HF HR Hwid Hc Hr Et) as HWR.
  pose proof (word_natures _ _ _ _ _ _ _ HW HF HR Et) as HN. pose proof (T_Ooxml.C49_layout _ _ _ _ _ _ _ HW HF HR Et) as HL.
  destruct (builder_of kw2 o2 Eo2) as [Hcn2 Hs2]. rewrite cals_builder_space in Hcn2. destruct (builder_of kw3 o3 Eo3) as [Hcn3 Hs3]. rewrite cals_builder_space in Hcn3.
  destruct (C98_through_formex shows_nothing (formex_builder kw1) (formex_parser kw2) o2 o3 k t (Z.of_nat (List.length cols)) (Z.of_nat (List.length rows)) e corpus t' e2 e3) as (L & C & F); try assumption.
  - rewrite formex_parser_space. exact Hfs.
  - intros Hu. rewrite formex_builder_space, formex_parser_cals. apply Ens, Hu.
  - intros X. cbn in X. congruence.
  - rewrite formex_parser_cals. intros c n Hin Hn. apply (HP (c_content c) (c_nature c) (c_box c)); [|exact Hn]. apply HL. exists (c_styles c). destruct c; exact Hin.
  - intros r v Hrm Hv. rewrite (HN r v Hrm Hv). unfold S_ConvertWord.word_nature. destruct (nth_error rows (Z.to_nat (r - 1))) as [row|] eqn:En; [|discriminate].
    apply nth_error_In in En. destruct (proj2 (Forall2_in_both _ _ _ HF) row En) as (tr & _ & _ & [[_ X]|[_ X]]); cbn; rewrite X; discriminate.
  - intros c Hin He. exact (word_blank _ _ _ _ _ _ _ c HW HF HR Et Hin He).
  - apply (sorting_ok _ _ Hs2). cbn; tauto.
  - apply (sorting_ok _ _ Hs3). cbn; tauto.
  - intros n q1 q2 u v j k0 Hn Hp Hq Hu' Hv Hj Hk. rewrite (view_count_fun _ _ _ _ Hn (wr_rows _ _ _ HWR)) in Hq.
    rewrite (HN q1 u ltac:(lia) Hu') in Hj. rewrite (HN q2 v ltac:(lia) Hv) in Hk. rewrite (sorting_order _ _ Hs2) in Hj, Hk. exact (HG2 q1 q2 j k0 Hp Hq Hj Hk).
  - intros n q1 q2 u v j k0 Hn Hp Hq Hu' Hv Hj Hk. rewrite (view_count_fun _ _ _ _ Hn (wr_rows _ _ _ HWR)) in Hq.
    rewrite (HN q1 u ltac:(lia) Hu') in Hj. rewrite (HN q2 v ltac:(lia) Hv) in Hk. rewrite (sorting_order _ _ Hs3) in Hj, Hk. exact (HG3 q1 q2 j k0 Hp Hq Hj Hk).
  - rewrite Hcn2, Hcn3 in *. split; [lia|]. split; assumption.
Qed.

(** ** Header rows: the second conversion raises an error *)

Lemma make_attrs_none a attrs k : make_attrs a = Ok attrs -> dget a k <> Some SNone.
Proof.
  revert attrs. induction a as [|[k' v] a IH]; intros attrs H; cbn [make_attrs] in H; [discriminate|].
  destruct v as [s| | |]; try discriminate. bind H as r Er. cbn [dget]. destruct (String.eqb k k'); [discriminate|exact (IH _ eq_refl)].
Qed.
Lemma build_cell_none o b cs rs c x : build_cell o b cs rs c = Ok x -> dget (c_styles c) "cellstyle" <> Some SNone.
Proof.
  intros H E. unfold build_cell in H. destruct b as [b|]; [|discriminate]. cbv zeta in H. bind H as a1 E1. bind H as a2 E2. bind H as a3 E3. bind H as a4 E4. bind H as attrs Em.
  apply (make_attrs_none _ _ (cals o "cellstyle") Em). unfold copy_style at 1. rewrite E. apply P_Grid.dget_dset_same.
Qed.
Lemma generate_none o t e : treachable t -> In "body" (co_sorting o) -> generate_table_tree o t = Ok e ->
  forall r v c, reads Rows r t v -> 1 <= r -> In c (v_owned v) -> (exists n, view_count Rows t n /\ r <= n) -> dget (c_styles c) "cellstyle" <> Some SNone.
Proof.
  intros HR HB H r v c Hv Hr Hc (n & Hn & Hrn). destruct (generate_built o t e HR HB H) as (cols & rows & cs & rs & _ & Er & (_ & tg & specs & bodies & _ & _ & _ & _ & _ & FS) & _).
  destruct (table_views_spec _ _ _ HR Er) as [_ Hrows].
  assert (Ln : Z.of_nat (List.length rows) = n) by (destruct Hn as (vs & Ev & ->); unfold table_views in Er; congruence).
  assert (Hin : In v rows).
  { destruct (nth_error rows (Z.to_nat (r - 1))) as [w|] eqn:Ew; [|apply nth_error_None in Ew; lia]. pose proof (Hrows _ _ Ew) as Hw. rewrite Z2Nat.id in Hw by lia. replace (r - 1 + 1) with r in Hw by lia.
    unfold reads in *. assert (v = w) as -> by congruence. exact (nth_error_In _ _ Ew). }
  destruct (arrangement (co_sorting o) rows HB) as (HP & _). apply (Permutation_in _ (Permutation_sym HP)) in Hin. apply in_concat in Hin as (vs & Hvs & Hin).
  apply in_map_iff in Hvs as (s & <- & Hs). destruct (Forall2_in_both _ _ _ FS) as [FS1 _]. destruct (FS1 s Hs) as (b & _ & Hb). destruct s as [na vs]. destruct Hb as (_ & _ & _ & _ & _ & items & HF & _).
  destruct (proj1 (Forall2_in_both _ _ _ HF) v Hin) as (its & _ & row & _ & _ & _ & HFc & _).
  destruct (proj1 (Forall2_in_both _ _ _ HFc) c Hc) as (x & _ & b0 & _ & Hx). exact (build_cell_none _ _ _ _ _ _ Hx).
Qed.

(** A table with a header cell, written in Formex and read, cannot be written in CALS: the cell has the style None.
    ([c_nature]: the cell has no nature or the one of its row.) *)
Theorem C98_header : forall o p o2 k t n m e corpus t' r v c,
    well_read t n m -> pf_ns p = None -> (fo_use_cals o = true -> co_ns (fo_cals o) = pf_cals_ns p) ->
    (fo_titles o = true -> ~ has_title t) -> plain_nodes (pf_cals_ns p) (table_iter t) -> In "body" (co_sorting o2) ->
    1 <= r <= m -> reads Rows r t v -> v_nature v = Some "header" -> In c (v_owned v) -> (c_nature c = None \/ c_nature c = Some "header") ->
    (fo_use_cals o = true -> dget (c_styles c) "cellstyle" = None) ->
    generate_tbl o k t = Ok e -> x_children e = [corpus] -> parse_formex p (Some e) 0 [] corpus = Ok t' ->
    forall e2, generate_table_tree o2 t' <> Ok e2.
Proof.
  intros o p o2 k t n m e corpus t' r v c HWR Epns Ens Hti HP HB Hrm Hv Hh Hc Hcn Hcs HE Ech Ep e2 E2.
  destruct (through_formex o p k t n m e corpus t' HWR Epns Ens Hti HP HE Ech Ep) as (HWR' & (lk & Pk & Fk) & _ & _).
  destruct HWR as [HR HO HT HC HW], HWR' as [HR' HO' HT' HC' HW'].
  destruct (view_membership Rows r t v HR ltac:(lia) Hv) as (_ & M & _). apply M in Hc as [Hin Hs]. cbn [starts_at] in Hs.
  destruct (proj2 (Forall2_in_both _ _ _ Fk) c Hin) as (c' & Hc' & K1 & _ & (w & type & Hw & Hty & _ & Hst) & _). apply (Permutation_in _ (Permutation_sym Pk)) in Hc'.
  assert (w = v) as -> by (rewrite Hs in Hw; unfold reads in *; congruence).
  assert (type = None) as ->.
  { unfold cell_type in Hty. rewrite Hh in Hty. destruct (fo_use_cals o); [rewrite (Hcs eq_refl) in Hty|]; destruct Hcn as [Hcn|Hcn]; rewrite Hcn in Hty; exact Hty. }
  rewrite Hh in Hst. cbn in Hst.
  assert (X : exists v', reads Rows r t' v').
  { destruct (generate_spec o2 t' e2 HR' HB E2) as (_ & rows2 & _ & Er2 & _). destruct (table_views_spec _ _ _ HR' Er2) as [_ Hr2].
    assert (L2 : Z.of_nat (List.length rows2) = m) by (destruct HW' as (vs & Ev & ->); unfold table_views in Er2; congruence).
    destruct (nth_error rows2 (Z.to_nat (r - 1))) as [w|] eqn:Ew; [|apply nth_error_None in Ew; lia]. exists w. specialize (Hr2 _ _ Ew). rewrite Z2Nat.id in Hr2 by lia. replace (r - 1 + 1) with r in Hr2 by lia. exact Hr2. }
  destruct X as (v' & Hv'). destruct (view_membership Rows r t' v' HR' ltac:(lia) Hv') as (_ & M' & _).
  refine (generate_none o2 t' e2 HR' HB E2 r v' c' Hv' ltac:(lia) _ _ Hst); [|exists m; split; [exact HW'|lia]].
  apply M'. split; [exact Hc'|]. cbn [starts_at]. rewrite K1. exact Hs.
Qed.

(** The Word parser gives no cell a "cellstyle". *)
Lemma put_borders_other o k props acc : ~ In k (map fst props) -> dget (fold_left (P_OoxmlStyle.put_border o) props acc) k = dget acc k.
Proof.
  revert acc. induction props as [|[x q] props IH]; intros acc H; [reflexivity|]. cbn [map fst In] in H. cbn [fold_left]. rewrite IH by tauto.
  unfold P_OoxmlStyle.put_border. cbn [fst snd]. destruct (border_text o q); [reflexivity|]. apply P_Grid.dget_dset_other. intros ->. tauto.
Qed.
Lemma border_names o n mapping props : border_properties o n mapping = Ok props -> map fst props = map fst mapping.
Proof.
  unfold border_properties. revert props. induction mapping as [|m mapping IH]; intros props H; cbn [rmap] in H; [injection H as <-; reflexivity|].
  bind H as x Ex. bind Ex as q Eq. injection Ex as <-. bind H as l El. injection H as <-. cbn [map fst]. f_equal. apply IH. reflexivity.
Qed.
Lemma tc_no_cellstyle o tc st : tc_styles o tc = Ok st -> dget st "cellstyle" = None.
Proof.
  unfold tc_styles. cbv zeta. intros H. bind H as va Ev. bind H as al Ea. bind H as bo Eb.
  destruct (P_OoxmlCell.shd_spec tc) as [O1 S1]. destruct (P_OoxmlCell.valign_spec tc va Ev) as [O2 S2]. destruct (P_OoxmlCell.align_spec tc al Ea) as [O3 S3]. destruct (P_OoxmlCell.borders_spec o tc bo Eb) as [O4 _].
  assert (X : forall d : styles, (forall v, dget d "cellstyle" = Some v -> False) -> dget d "cellstyle" = None) by (intros d Hd; destruct (dget d "cellstyle") as [v|]; [destruct (Hd v eq_refl)|reflexivity]).
  assert (N4 : dget (svals bo) "cellstyle" = None).
  { apply X. intros v Hv. apply P_OoxmlCell.svals_get in Hv as (u & _ & Hu). unfold get_table_borders, get_borders in Eb. destruct (w_first ["tcPr"; "tcBorders"] tc) as [b|]; [|injection Eb as <-; discriminate].
    bind Eb as props Ep. rewrite (P_OoxmlStyle.to_styles_get o props bo "cellstyle" Eb), put_borders_other in Hu; [discriminate| |].
    - rewrite (border_names _ _ _ _ Ep). cbn. intuition discriminate.
    - cbn. intuition discriminate. }
  assert (E : dget (dupdate (dupdate (dupdate (shd_styles (w_first ["tcPr"; "shd"] tc)) va) al) (svals bo)) "cellstyle" = None).
  { rewrite (P_Grid.dget_dupdate _ _ _ O4), N4, (P_Grid.dget_dupdate _ _ _ O3), (P_Grid.dget_dupdate _ _ _ O2). cbn.
    rewrite (X al), (X va), (X (shd_styles (w_first ["tcPr"; "shd"] tc))); [reflexivity| | |]; intros v Hv; [apply S1 in Hv as [Hv _]|apply S2 in Hv as [Hv _]|apply S3 in Hv as [Hv _]]; discriminate. }
  destruct (tc_empty tc); injection H as <-; [rewrite P_Grid.dget_dset_other by discriminate|]; exact E.
Qed.

(** For Word: as soon as a header row has a cell of its own (one which does not continue the cell above), the
    conversion of the result to CALS fails. *)
Theorem C98_word_header : forall kw1 kw2 ox sect k tbl cols trs rows e corpus r row s,
    S_Ooxml.word_table tbl cols trs -> Forall2 S_Ooxml.row_reads trs rows -> S_Ooxml.regular rows -> S_ConvertWord.word_rectangle cols rows ->
    (forall ct na b n, S_Ooxml.displayed (Z.of_nat (List.length cols)) rows ct na b -> In (Node n) (content_pieces ct) -> stranger None (cals_space kw2) n /\ x_tag n <> Some "IE") ->
    formex_space kw2 = None -> (kw_use_cals kw1 = true -> formex_cals_space kw1 = cals_space kw2) -> kw_titles kw1 = false ->
    S_Ooxml.row_at rows r row -> S_Ooxml.wr_nature row = "header" -> In s (S_Ooxml.wr_slots row) -> S_Ooxml.sl_continues s = false ->
    ooxml2formex kw1 ox sect k tbl = Ok e -> x_children e = [corpus] -> forall e2, formex2cals kw2 (Some e) 0 [] corpus <> Ok e2.
Proof.
  intros kw1 kw2 ox sect k tbl cols trs rows e corpus r row s HW HF HR (Hc & Hr & Hwid) HP Hfs Hu Hti Hrow Hna Hs Hk H1 Ech e2 H2.
  unfold ooxml2formex in H1. bind H1 as t Et. unfold formex2cals in H2. bind H2 as o2 Eo2. bind H2 as t' Et'.
  pose proof (word_well_read _ _ _ _ _ _ _ HW HF HR Hwid Hc Hr Et) as HWR.
  pose proof (T_Ooxml.C49_layout _ _ _ _ _ _ _ HW HF HR Et) as HL. destruct (builder_of kw2 o2 Eo2) as [_ Hs2].
  assert (Hrm : 1 <= r <= Z.of_nat (List.length rows)).
  { destruct Hrow as [H1r Hn]. split; [exact H1r|]. assert (X : (Z.to_nat (r - 1) < List.length rows)%nat) by (apply nth_error_Some; congruence). lia. }
  assert (HX : exists d, In d (table_iter t) /\ cy (bmin (c_box d)) = r).
  { destruct (P_OoxmlRegions.goes_to_ex rows r (S_Ooxml.sl_start s) (S_Ooxml.sl_width s) ltac:(lia)) as (z & Hz).
    destruct (proj2 (HL _ _ _) (S_Ooxml.shown (Z.of_nat (List.length cols)) rows r row s z _ Hrow Hs Hk Hz (P_OoxmlPath.tc_content_spec (S_Ooxml.sl_cell s)))) as (st & Hin).
    eexists. split; [exact Hin|reflexivity]. }
  destruct HX as (d & Hd & Hy).
  assert (HV : exists v, reads Rows r t v).
  { pose proof (wr_rows _ _ _ HWR) as (vs & Ev & Ln). destruct (table_views_spec Rows t vs (wr_reach _ _ _ HWR) Ev) as [_ Hvs].
    destruct (nth_error vs (Z.to_nat (r - 1))) as [w|] eqn:Ew; [|apply nth_error_None in Ew; lia]. exists w. specialize (Hvs _ _ Ew). rewrite Z2Nat.id in Hvs by lia. replace (r - 1 + 1) with r in Hvs by lia. exact Hvs. }
  destruct HV as (v & Hv). pose proof (T_Ooxml.C49_rows _ _ _ _ _ _ _ HW HF HR Et r row v Hrow Hv) as Hvn. rewrite Hna in Hvn.
  assert (Hdn : c_nature d = Some "header").
  { assert (HD : S_Ooxml.displayed (Z.of_nat (List.length cols)) rows (c_content d) (c_nature d) (c_box d)) by (apply HL; exists (c_styles d); destruct d; exact Hd).
    destruct HD as [r2 row2 c2 e0 l Hr2 _ _ _ _|r2 row2 x Hr2 _]; cbn in Hy; subst r2; destruct Hr2 as [_ Hr2], Hrow as [_ Hrow]; rewrite Hr2 in Hrow; injection Hrow as ->; rewrite Hna; reflexivity. }
  refine (C98_header (formex_builder kw1) (formex_parser kw2) o2 k t (Z.of_nat (List.length cols)) (Z.of_nat (List.length rows)) e corpus t' r v d HWR _ _ _ _ _ Hrm Hv Hvn _ (or_intror Hdn) _ H1 Ech Et' e2 H2).
  - rewrite formex_parser_space. exact Hfs.
  - intros X. rewrite formex_builder_space, formex_parser_cals. apply Hu, X.
  - intros X. cbn in X. congruence.
  - rewrite formex_parser_cals. intros c n Hin Hn. apply (HP (c_content c) (c_nature c) (c_box c)); [|exact Hn]. apply HL. exists (c_styles c). destruct c; exact Hin.
  - apply (sorting_ok _ _ Hs2). cbn; tauto.
  - destruct (view_membership Rows r t v (wr_reach _ _ _ HWR) ltac:(lia) Hv) as (_ & M & _). apply M. split; [exact Hd|exact Hy].
  - intros _. destruct (T_Ooxml.word_read _ _ _ _ _ _ _ HW HF HR Et) as (st & sts & cw & _ & _ & _ & _ & _ & HD).
    destruct (P_OoxmlLayout.rd_looks _ _ _ _ _ _ HD d Hd) as [[_ Hst]|(r' & row' & c' & _ & _ & _ & _ & Hl)]; [rewrite Hst; reflexivity|exact (tc_no_cellstyle _ _ _ Hl)].
Qed.

(** The Word table of C49 has a header row: a case of C98_word_header. *)
Theorem C98_header_refuted : exists kw ox tbl cols trs rows e corpus e3,
    S_Ooxml.word_table tbl cols trs /\ Forall2 S_Ooxml.row_reads trs rows /\ S_Ooxml.regular rows /\ S_ConvertWord.word_rectangle cols rows /\ kw_titles kw = false /\
    ooxml2formex kw ox None 1 tbl = Ok e /\ x_children e = [corpus] /\ formex2cals kw (Some e) 0 [] corpus = Err ETypeError /\ ooxml2cals kw ox None tbl = Ok e3.
Proof.
  exists kw0, (T_Ooxml.opts (Some T_Ooxml.ex_sheet)), T_Ooxml.ex_tbl, ex_cols, T_Ooxml.ex_trs, T_Ooxml.ex_rows. do 3 eexists.
  split; [exact T_Ooxml.ex_word|]. split; [exact T_Ooxml.ex_reads|]. split; [exact T_Ooxml.ex_regular|].
  split; [split; [discriminate|]; split; [discriminate|]; repeat (apply Forall_cons; [vm_compute; discriminate|]); apply Forall_nil|]. split; [reflexivity|].
  split; [vm_compute; reflexivity|]. split; [reflexivity|]. split; vm_compute; reflexivity.
Qed.

(** The table of C68: the hypotheses of C98_header hold *)
Example C98_header_ex : exists e corpus t' v c, well_read t_ex 3 3 /\ plain_nodes (Some "urn:cals") (table_iter t_ex) /\ reads Rows 1 t_ex v /\ v_nature v = Some "header" /\
    In c (v_owned v) /\ c_nature c = Some "header" /\ generate_tbl fplain 1 t_ex = Ok e /\ x_children e = [corpus] /\ parse_formex of_cals (Some e) 0 [] corpus = Ok t' /\
    generate_table_tree plain t' = Err ETypeError.
Proof.
  do 5 eexists. split; [destruct t_ex_counts; constructor; auto using t_ex_reachable, t_ex_ordered, t_ex_tiles|]. split; [exact t_ex_plain_nodes|].
  split; [vm_compute; reflexivity|]. split; [reflexivity|]. split; [left; reflexivity|]. split; [reflexivity|]. split; [vm_compute; reflexivity|]. split; [reflexivity|]. split; vm_compute; reflexivity.
Qed.

(** A form with a tick (w:sym), an object and a picture, without header: the hypotheses of C98_word_partial hold, and
    the tick and the object, which are in the CALS table converted directly, are lost through Formex. *)
Definition tick_cols : list xnode := repeat (T_Ooxml.w "gridCol" [("w", "400")] []) 3.
Theorem C98_equal_refuted : exists e corpus e2 e3, let ox := T_Ooxml.opts None in
    S_Ooxml.word_table T_Pictures.tick_tbl tick_cols T_Pictures.tick_trs /\ Forall2 S_Ooxml.row_reads T_Pictures.tick_trs T_Pictures.tick_rows /\ S_Ooxml.regular T_Pictures.tick_rows /\
    S_ConvertWord.word_rectangle tick_cols T_Pictures.tick_rows /\
    (forall ct na b n, S_Ooxml.displayed (Z.of_nat (List.length tick_cols)) T_Pictures.tick_rows ct na b -> In (Node n) (content_pieces ct) -> stranger None (cals_space kw0) n /\ x_tag n <> Some "IE") /\
    natures_grouped (order_of kw0) (fun r => Some (kept_nature (S_ConvertWord.word_nature T_Pictures.tick_rows r))) 1 /\
    natures_grouped (order_of kw0) (S_ConvertWord.word_nature T_Pictures.tick_rows) 1 /\
    ooxml2formex kw0 ox None 1 T_Pictures.tick_tbl = Ok e /\ x_children e = [corpus] /\ formex2cals kw0 (Some e) 0 [] corpus = Ok e2 /\ ooxml2cals kw0 ox None T_Pictures.tick_tbl = Ok e3 /\
    map (fun x => map x_tag (x_children x)) (entries None e2) = [[]; []; [Some (S_Ooxml.word "p")]] /\
    map (fun x => map x_tag (x_children x)) (entries None e3) = [[Some (S_Ooxml.word "p")]; [Some (S_Ooxml.word "p")]; [Some (S_Ooxml.word "p")]].
Proof.
  do 4 eexists. cbn zeta. split; [exact T_Pictures.tick_word|]. split; [exact T_Pictures.tick_reads|]. split; [exact T_Pictures.tick_regular|].
  split; [split; [discriminate|]; split; [discriminate|]; repeat (apply Forall_cons; [vm_compute; discriminate|]); apply Forall_nil|].
  split.
  { intros ct na b n HD Hn.
    assert (HX : exists t, ox_parse_table (T_Ooxml.opts None) None T_Pictures.tick_tbl = Ok t) by (eexists; vm_compute; reflexivity). destruct HX as (t & Et).
    apply (T_Ooxml.C49_layout _ _ _ _ _ _ _ T_Pictures.tick_word T_Pictures.tick_reads T_Pictures.tick_regular Et) in HD as (st & Hin).
    vm_compute in Et. injection Et as <-. vm_compute in Hin.
    repeat (destruct Hin as [Hin|Hin]; [injection Hin as <- _ _ _; cbn in Hn; destruct Hn as [Hn|[]]; injection Hn as <-; split; [stranger_tac|discriminate]|]). destruct Hin. }
  split; [apply grouped_check; [cbn; tauto|vm_compute; reflexivity]|]. split; [apply grouped_check; [cbn; tauto|vm_compute; reflexivity]|].
  split; [vm_compute; reflexivity|]. split; [reflexivity|]. split; [vm_compute; reflexivity|]. split; [vm_compute; reflexivity|]. split; vm_compute; reflexivity.
Qed.
Print Assumptions C98_through_formex.
Print Assumptions C98_word_partial.
Print Assumptions C98_header.
Print Assumptions C98_header_refuted.
Print Assumptions C98_equal_refuted.
Print Assumptions C98_word_header.
