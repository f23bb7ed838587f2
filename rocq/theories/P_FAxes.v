(** * The columns of a Formex table written and read back *)
From Coq Require Import QArith.
From Verif Require Import Base M_Geometry M_Xml M_Cell M_Grid M_Table M_Str M_Units M_Builder M_Cals M_Formex M_FormexParser M_FormexRead.
From Verif Require Import S_Geometry S_Grid S_Table S_Units S_Builder S_Cals S_Int S_CalsParser S_RoundTrip S_Formex S_Attrs S_FormexRead S_Axes.
From Verif Require Import P_Geometry P_Grid P_GridFacts P_Table P_TableFacts P_TableMore P_Int P_Str P_Builder P_Cals P_CalsParser P_CalsLayout P_CalsTable P_CalsMore P_RoundTrip P_RoundTripAttrs P_Attrs P_Formex P_Axes.
Open Scope list_scope.
Open Scope Z_scope.

Section Layout.
  Variables ns cns : option string.
  Variables embed watch : bool.

  Lemma flays_rows_looks its l l' : (forall c, ~ In (FColumn c) its) -> flays ns cns embed watch its l l' -> f_looks l' = f_looks l.
  Proof.
    intros HN HL. induction HL as [l|c its r k n g cs m l' Hm HL IH|b e its r k n g cs qs n1 g1 g2 l' Ha Hp Hn Hf HL IH|e its r k n g cs bb n1 g1 l' Hb Hs HL IH].
    - reflexivity.
    - destruct (HN c). left. reflexivity.
    - rewrite IH; [reflexivity|]. intros c Hc. apply (HN c). right. exact Hc.
    - rewrite IH; [reflexivity|]. intros c Hc. apply (HN c). right. exact Hc.
  Qed.

  Lemma flays_columns_looks its (HN : forall c, ~ In (FColumn c) its) : forall specs i l l', 1 <= i ->
    Forall2 (describes_column cns) (zrange i (i + Z.of_nat (List.length specs))) specs ->
    (forall j k, i <= j -> f_looks l j k = None) ->
    flays ns cns embed watch (map FColumn specs ++ its) l l' ->
    (forall j k, j < i -> f_looks l' j k = f_looks l j k) /\
    forall a c, nth_error specs a = Some c -> forall k, f_looks l' (i + Z.of_nat a) k = text_look (column_style cns c k).
  Proof.
    induction specs as [|e specs IH]; intros i l l' Hi H H0 HL; cbn [List.length map app] in *.
    - rewrite (flays_rows_looks _ _ _ HN HL). split; [reflexivity|]. intros [|a] c Ha; discriminate Ha.
    - rewrite zrange_cons in H by lia. replace (i + Z.of_nat (S (List.length specs))) with (i + 1 + Z.of_nat (List.length specs)) in H by lia.
      inversion H as [|? ? ? ? H1 H2]; subst. inversion HL as [|c its' r k n g cs m l1 Hm HL'| |]; subst. cbn [f_looks] in *.
      assert (m = i) as ->.
      { pose proof (number_given cns e i k H1) as Hg. unfold column_number in Hm. destruct H1 as (_ & E & _). rewrite E in Hm.
        unfold column_number in Hg. rewrite E in Hg. destruct (py_str_int i); [congruence|]. exact (int_text_fun _ _ _ Hm Hg). }
      assert (H3 : forall j q, i + 1 <= j -> looks_with cns i e cs j q = None).
      { intros j q Hj. unfold looks_with. destruct (Z.eqb_spec j i); [lia|]. apply H0. lia. }
      destruct (IH (i + 1) (MkFLayout r (k + 1) (Z.max n i) g (looks_with cns i e cs)) l' ltac:(lia) H2 H3 HL') as [IH1 IH2].
      cbn [f_looks] in IH1. split.
      + intros j q Hj. rewrite IH1 by lia. unfold looks_with. destruct (Z.eqb_spec j i); [lia|reflexivity].
      + intros [|a] c Ha q.
        * injection Ha as <-. replace (i + Z.of_nat 0) with i by lia. rewrite IH1 by lia. unfold looks_with. rewrite Z.eqb_refl, H0 by lia.
          unfold text_look. destruct (column_style cns e q); reflexivity.
        * cbn [nth_error] in Ha. replace (i + Z.of_nat (S a)) with (i + 1 + Z.of_nat a) by lia. apply IH2, Ha.
  Qed.
End Layout.

(** The columns of the tree of the builder *)
Lemma tbl_columns o k t e corpus specs rest n : treachable t -> fo_use_cals o = true -> generate_tbl o k t = Ok e -> x_children e = [corpus] ->
  view_count Cols t n -> x_children corpus = specs ++ rest -> Forall2 (describes_column (co_ns (fo_cals o))) (zrange 1 (n + 1)) specs ->
  exists cols cs rs, table_views Cols t = Ok cols /\ attribute (co_ns (fo_cals o)) corpus "colsep" = Some cs /\ attribute (co_ns (fo_cals o)) corpus "rowsep" = Some rs /\
    separators_of t cs rs /\
    Forall2 (column_look (co_ns (fo_cals o)) (co_unit (fo_cals o)) (co_fmt (fo_cals o)) cs rs) cols specs.
Proof.
  intros HR HU H Ech HCn Esp Hsp. unfold generate_tbl in H. bind H as cols0 Ec0. bind H as a Ea. bind H as attrs Em. bind H as ch Eh. injection H as <-. cbn [x_children] in Ech.
  assert (HBb : exists bb, table_iter t <> [] -> bounds (table_iter t) bb).
  { destruct (treachable_tinv t HR) as (og & _ & HM). assert (HV : all_valid (table_iter t)) by apply HM.
    destruct (table_iter t) as [|x l] eqn:El; [exists (MkBox (Coord 1 1) (Coord 1 1)); congruence|].
    destruct (bounds_exist (x :: l) HV ltac:(discriminate)) as (bb & Hb). exists bb. auto. }
  destruct HBb as (bb & HBb).
  destruct (corpus_looks o HU t bb ch HR HBb Eh) as (corpus' & cols & rows & tr & cs & rs & specs' & R1 & R2 & R3 & R4 & R5 & R6 & R7 & R8 & R9 & HC & items & E1 & _).
  rewrite Ech in R4. assert (corpus' = corpus) as ->.
  { destruct (fst tr) as [|x l]; cbn [app] in R4; [congruence|]. injection R4 as _ R4. destruct l; discriminate R4. }
  exists cols, cs, rs. split; [congruence|]. split; [exact R7|]. split; [exact R8|]. split; [exact R9|].
  assert (En : Z.of_nat (List.length cols) = n) by (destruct HCn as (vs & Ev & ->); unfold table_views in R2; congruence).
  pose proof (Forall2_len _ _ _ HC) as L1. pose proof (Forall2_len _ _ _ Hsp) as L2.
  assert (L3 : List.length (zrange 1 (n + 1)) = List.length cols) by (rewrite zrange_length; lia).
  rewrite Esp in E1. assert (specs' = specs) as ->; [|exact HC].
  apply (f_equal (firstn (List.length specs))) in E1. rewrite firstn_app, Nat.sub_diag, firstn_all, app_nil_r in E1.
  replace (List.length specs) with (List.length specs') in E1 by congruence. rewrite firstn_app, Nat.sub_diag, firstn_all, app_nil_r in E1. cbn [firstn] in E1. congruence.
Qed.

Lemma fcolumns_kept p t t' n l its specs cols cs rs unit fmt : let cns := pf_cals_ns p in
  (forall c, ~ In (FColumn c) its) -> flays (pf_ns p) cns (pf_embed p) true (map FColumn specs ++ its) no_layout l ->
  table_views Cols t = Ok cols -> treachable t -> view_count Cols t n ->
  Forall2 (column_look cns unit fmt cs rs) cols specs -> separators_of t cs rs ->
  dget (t_styles t') "x-cell-border-right" = text_look (separator_line (Some cs)) ->
  dget (t_styles t') "x-cell-border-bottom" = text_look (separator_line (Some rs)) ->
  (forall j v, 1 <= j -> reads Cols j t' v -> column_described (f_looks l) j v) ->
  forall j v v', 1 <= j <= n -> reads Cols j t v -> reads Cols j t' v' -> column_kept unit fmt t' v' v.
Proof.
  intros cns HN HL Ec HR HCn HC [Lc Lr] Tcs Trs HX j v v' Hj Hv Hv'.
  assert (K : forall style d, table_line (t_styles t) style d -> d = "0"%string \/ d = "1"%string).
  { intros style d [H1 H2]. pose proof (border_spec (t_styles t) style) as HB. destruct (get_border_style (t_styles t) style) as [[w|]|x].
    - rewrite (H1 w (proj1 HB)). unfold shown. destruct (String.eqb w "none"); auto.
    - left. apply H2. exact HB.
    - left. apply H2. intros w Hw. destruct HB as [_ HB]. apply HB. destruct Hw as (s & a & b & E & _). unfold text_or_absent. rewrite E. exact I. }
  assert (Ev : Z.of_nat (List.length cols) = n) by (destruct HCn as (vs & Ev & ->); unfold table_views in Ec; congruence).
  destruct (table_views_spec _ _ _ HR Ec) as [Hpos Hcd].
  destruct (nth_error cols (Z.to_nat (j - 1))) as [w|] eqn:Ew; [|apply nth_error_None in Ew; lia].
  pose proof (Hcd _ _ Ew) as Hw. replace (Z.of_nat (Z.to_nat (j - 1)) + 1) with j in Hw by lia. assert (w = v) as -> by (unfold reads in Hw, Hv; congruence).
  destruct (Forall2_nth _ _ _ HC _ _ Ew) as (c & Hc & HLk).
  apply (column_back cns unit fmt cs rs t' (K _ _ Lc) (K _ _ Lr) Tcs Trs v v' c HLk).
  assert (HD : Forall2 (describes_column cns) (zrange 1 (1 + Z.of_nat (List.length specs))) specs).
  { rewrite <- (Forall2_len _ _ _ HC), Z.add_comm. apply Forall2_positions; [exact Hpos|]. eapply Forall2_impl_l; [|exact HC]. intros x y _ Hx. apply Hx. }
  destruct (flays_columns_looks (pf_ns p) cns (pf_embed p) true its HN specs 1 no_layout l ltac:(lia) HD (fun _ _ _ => eq_refl) HL) as [_ HK].
  destruct (HX j v' ltac:(lia) Hv') as [_ HS]. intros k. rewrite HS. pose proof (HK _ _ Hc k) as E. replace (1 + Z.of_nat (Z.to_nat (j - 1))) with j in E by lia.
  rewrite E. symmetry. apply map_some.
Qed.
Lemma fcolumns_bare p t' l its :  
  (forall c, ~ In (FColumn c) its) -> flays (pf_ns p) (pf_cals_ns p) (pf_embed p) true its no_layout l ->
  (forall j v, 1 <= j -> reads Cols j t' v -> column_described (f_looks l) j v) ->
  forall j v', 1 <= j -> reads Cols j t' v' -> forall k, dget (v_styles v') k = None.
Proof.
  intros HN HL HX j v' Hj Hv' k. destruct (HX j v' Hj Hv') as [_ HS]. rewrite HS, (flays_rows_looks _ _ _ _ _ _ _ HN HL). reflexivity.
Qed.
