(** * The page of the Word tables (C73) and the options of the converters (C74) *)
From Coq Require Import QArith Permutation.
From Verif Require Import Base M_Geometry M_Xml M_Cell M_Grid M_Table M_Str M_Units M_Builder M_Cals M_CalsParser M_Formex M_FormexParser M_FormexRead M_Ooxml M_Convert.
From Verif Require Import S_Geometry S_Grid S_Table S_Units S_Builder S_Cals S_Int S_CalsParser S_RoundTrip S_Formex S_FormexRead S_Attrs S_FormexTrip S_FormexFinal S_Convert.
From Verif Require S_Ooxml S_OoxmlStyle S_ConvertWord.
From Verif Require Import P_Grid P_Table P_TableFacts P_TableMore P_Cals P_Formex P_FormexNumber P_OoxmlPath P_OoxmlStyle.
From Verif Require Import T_Table T_Cals T_Formex T_CalsParser T_FormexRead T_Attrs T_Convert.
From Verif Require P_CalsMore T_Ooxml T_FormexFinal.
Open Scope string_scope.
Open Scope list_scope.
Open Scope Z_scope.

(** ** C73 *)

Definition not_border (k : string) : Prop :=
  ~ In k (map fst TABLE_BORDERS) /\ ~ In k EXTRA /\ forall s, k <> ("x-cell-" ++ s)%string.
Lemma table_borders_keys o b d k : get_table_borders o b = Ok d -> not_border k -> dict_ok d /\ dget d k = None.
Proof.
  intros H (H1 & H2 & H3). destruct b as [b|]; [|injection H as <-; split; [constructor|reflexivity]].
  destruct (get_borders_line o TABLE_BORDERS b d H (proj1 keys_outer) (proj2 keys_outer)) as (O1 & _ & N1). auto.
Qed.
Lemma style_borders_keys o k : not_border k -> forall fuel sheet id d, get_style_borders o fuel sheet id = Ok d -> dget d k = None.
Proof.
  intros Hk. induction fuel as [|fuel IH]; intros sheet id d H; cbn [get_style_borders] in H; [discriminate|].
  destruct sheet as [sheet|]; [|injection H as <-; reflexivity]. destruct id as [id|]; [|injection H as <-; reflexivity].
  destruct (find_style sheet id) as [st|]; [|injection H as <-; reflexivity].
  bind H as d0 E0. bind H as b1 E1. bind H as b2 E2. injection H as <-.
  destruct (own_borders o st b1 b2 E1 E2) as (OB & _). rewrite (dget_dupdate _ _ _ OB), (IH _ _ _ E0).
  destruct (table_borders_keys o _ _ k E1 Hk) as [_ N1].
  assert (O2 : dict_ok b2).
  { destruct (w_first ["tblPr"; "tblBorders"] st) as [b|]; [|injection E2 as <-; constructor].
    apply (get_borders_line o CELL_BORDERS b b2 E2 (proj1 keys_inner) (proj2 keys_inner)). }
  rewrite (dget_dupdate _ _ _ (x_cell_ok _ O2)), N1, x_cell_other; [reflexivity|apply Hk].
Qed.
Lemma svals_none d k : dget d k = None -> dget (svals d) k = None.
Proof. unfold svals. induction d as [|[a b] d IH]; cbn; [reflexivity|]. destruct (String.eqb k a); [discriminate|exact IH]. Qed.
Lemma border_names_plain k : In k ["background-color"; "x-sect-orient"; "x-sect-cols"; "x-sect-size"] -> not_border k.
Proof.
  intros Hk. split; [|split].
  - cbn in *. intuition (subst; discriminate).
  - cbn in *. intuition (subst; discriminate).
  - intros s ->. cbn in Hk. intuition discriminate.
Qed.

Lemma page_styles o pg st : pg_styles o pg = Ok st -> dict_ok st /\
  dget st "background-color" = None /\
  dget st "x-sect-orient" = option_map SStr (on_node (fun n => x_get n (wq "orient")) pg) /\
  dget st "x-sect-size" = match on_node (fun n => x_get n (wq "w")) pg, on_node (fun n => x_get n (wq "h")) pg with
                          | Some w, Some h => match ox_page o w h with Ok p => Some p | Err _ => None end
                          | _, _ => None
                          end /\
  (forall w h, on_node (fun n => x_get n (wq "w")) pg = Some w -> on_node (fun n => x_get n (wq "h")) pg = Some h -> exists p, ox_page o w h = Ok p).
Proof.
  unfold pg_styles. cbv zeta. intros H. bind H as sz Es. injection H as <-.
  destruct (on_node (fun n => x_get n (wq "w")) pg) as [w|], (on_node (fun n => x_get n (wq "h")) pg) as [h|].
  1: { bind Es as p Ep. injection Es as <-. destruct (on_node (fun n => x_get n (wq "orient")) pg) as [v|]; (split; [apply distinct_NoDup; reflexivity|]);
       (split; [reflexivity|]; split; [reflexivity|]; split; [reflexivity|]); intros w' h' [= <-] [= <-]; eauto. }
  1, 2: bind Es as p Ep.
  all: injection Es as <-; destruct (on_node (fun n => x_get n (wq "orient")) pg) as [v|]; (split; [apply distinct_NoDup; reflexivity|]);
       (split; [reflexivity|]; split; [reflexivity|]; split; [reflexivity|]); discriminate.
Qed.

(** The styles of the page: the background is the one of the table, the others are those of the section
    after the table; [ox_page] reads the size of the page. *)
Theorem C73_page : forall o sect tbl cols trs rows t,
    S_Ooxml.word_table tbl cols trs -> Forall2 S_Ooxml.row_reads trs rows -> S_Ooxml.regular rows -> ox_parse_table o sect tbl = Ok t ->
    (forall v, dget (t_styles t) "background-color" = Some v <-> exists s, S_ConvertWord.table_background tbl s /\ v = SStr s) /\
    (forall v, dget (t_styles t) "x-sect-orient" = Some v <-> exists s, S_ConvertWord.page_value "orient" sect s /\ v = SStr s) /\
    (forall v, dget (t_styles t) "x-sect-size" = Some v <->
       exists w h, S_ConvertWord.page_value "w" sect w /\ S_ConvertWord.page_value "h" sect h /\ ox_page o w h = Ok v) /\
    (exists v, S_ConvertWord.page_columns sect v /\ dget (t_styles t) "x-sect-cols" = Some (SStr v)).
Proof.
  intros o sect tbl cols trs rows t HW HF HR H. destruct (T_Ooxml.word_read _ _ _ _ _ _ _ HW HF HR H) as (st & sts & cw & Est & -> & _). clear - Est.
  unfold tbl_styles in Est. bind Est as d Ed. bind Est as b1 E1. bind Est as pg Epg. injection Est as <-.
  destruct (page_styles _ _ _ Epg) as (Opg & Hbg & Hor & Hsz & Hpg).
  assert (Hshd : dict_ok (shd_styles (w_first ["tblPr"; "shd"] tbl))).
  { unfold shd_styles. destruct (on_node (fun n => x_get n (wq "fill")) _) as [f|]; [|constructor]. destruct (String.eqb f "auto"); [constructor|]. apply distinct_NoDup; reflexivity. }
  assert (Hno : forall k, In k ["background-color"; "x-sect-orient"; "x-sect-cols"; "x-sect-size"] -> dget (svals (dupdate d b1)) k = None).
  { intros k Hk. apply svals_none. destruct (table_borders_keys _ _ _ _ E1 (border_names_plain k Hk)) as [O1 N1].
    rewrite (dget_dupdate _ _ _ O1), N1, (style_borders_keys _ _ (border_names_plain k Hk) _ _ _ _ Ed). reflexivity. }
  assert (Hget : forall a v, on_node (fun n => x_get n (wq a)) (on_node (w_first ["pgSz"]) sect) = Some v <-> S_ConvertWord.page_value a sect v).
  { intros a v. unfold S_ConvertWord.page_value. destruct sect as [s|]; cbn [on_node].
    - destruct (w_first ["pgSz"] s) as [e|] eqn:Ee; cbn [on_node].
      + split; [intros Hv; exists s, e; split; [reflexivity|]; split; [apply w_first_spec, Ee|exact Hv]|].
        intros (s' & e' & [= <-] & He & Hv). apply w_first_spec in He. assert (e' = e) by congruence. subst. exact Hv.
      + split; [discriminate|]. intros (s' & e' & [= <-] & He & Hv). apply w_first_spec in He. congruence.
    - split; [discriminate|]. intros (s' & e' & [=] & _). }
  split; [|split; [|split]].
  - intros v. rewrite dget_dset_other by discriminate. rewrite (dget_dupdate _ _ _ Opg), Hbg. cbn [or_opt]. rewrite (dget_dupdate _ _ _ Hshd), Hno by (cbn; auto).
    unfold S_ConvertWord.table_background, shd_styles. destruct (w_first ["tblPr"; "shd"] tbl) as [e|] eqn:Ee; cbn [on_node].
    + pose proof (proj1 (w_first_spec _ _ _) Ee) as He.
      assert (HU : forall e', S_OoxmlStyle.element_at ["tblPr"; "shd"] tbl e' -> e' = e) by (intros e' H; apply w_first_spec in H; congruence).
      unfold x_get. change (wq "fill") with (S_Ooxml.word "fill"). destruct (dget (x_attrs e) (S_Ooxml.word "fill")) as [f|] eqn:Ef.
      * destruct (String.eqb_spec f "auto") as [->|Hne].
        -- split; [discriminate|]. intros (s & (e' & f & H & Hf & Hn & _) & _). apply HU in H. subst. congruence.
        -- cbn [dget or_opt]. rewrite String.eqb_refl. cbn [or_opt]. split.
           ++ intros [= <-]. exists ("#" ++ f)%string. split; [|reflexivity]. exists e, f. auto.
           ++ intros (s & (e' & f' & H & Hf & _ & ->) & ->). apply HU in H. subst. assert (f' = f) by congruence. subst. reflexivity.
      * split; [discriminate|]. intros (s & (e' & f & H & Hf & _) & _). apply HU in H. subst. congruence.
    + split; [discriminate|]. intros (s & (e & f & H & _) & _). apply w_first_spec in H. congruence.
  - intros v. rewrite dget_dset_other by discriminate. rewrite (dget_dupdate _ _ _ Opg), Hor, (dget_dupdate _ _ _ Hshd), Hno by (cbn; auto).
    assert (Hs : dget (shd_styles (w_first ["tblPr"; "shd"] tbl)) "x-sect-orient" = None) by (unfold shd_styles; destruct (on_node (fun n => x_get n (wq "fill")) _) as [f|]; [destruct (String.eqb f "auto")|]; reflexivity).
    rewrite Hs. destruct (on_node (fun n => x_get n (wq "orient")) _) as [u|] eqn:Eu; cbn [option_map or_opt].
    + apply Hget in Eu. split; [intros [= <-]; eauto|]. intros (s & Hs' & ->). apply Hget in Hs'. apply Hget in Eu. congruence.
    + split; [discriminate|]. intros (s & Hs' & ->). apply Hget in Hs'. congruence.
  - intros v. rewrite dget_dset_other by discriminate. rewrite (dget_dupdate _ _ _ Opg), Hsz, (dget_dupdate _ _ _ Hshd), Hno by (cbn; auto).
    assert (Hs : dget (shd_styles (w_first ["tblPr"; "shd"] tbl)) "x-sect-size" = None) by (unfold shd_styles; destruct (on_node (fun n => x_get n (wq "fill")) _) as [f|]; [destruct (String.eqb f "auto")|]; reflexivity).
    rewrite Hs. destruct (on_node (fun n => x_get n (wq "w")) _) as [a|] eqn:Ea.
    + destruct (on_node (fun n => x_get n (wq "h")) _) as [b|] eqn:Eb.
      * destruct (Hpg a b eq_refl eq_refl) as (p & Ep). rewrite Ep. cbn [or_opt]. apply Hget in Ea. apply Hget in Eb. split.
        -- intros [= <-]. exists a, b. auto.
        -- intros (a' & b' & Ha & Hb & E). apply Hget in Ha, Hb, Ea, Eb. congruence.
      * split; [discriminate|]. intros (a' & b' & _ & Hb & _). apply Hget in Hb. congruence.
    + split; [discriminate|]. intros (a' & b' & Ha & _). apply Hget in Ha. congruence.
  - exists (sect_cols sect). split; [|rewrite dget_dset_same; reflexivity].
    unfold S_ConvertWord.page_columns, sect_cols. destruct sect as [s|]; [|reflexivity].
    destruct (w_attr ["cols"] "num" s) as [v|] eqn:Ev; [left; apply w_attr_spec, Ev|right]. split; [apply w_attr_none, Ev|].
    change (w_path ["cols"; "col"] s) with (flat_map (fun c => flat_map (fun d => [d]) (w_children "col" c)) (w_children "cols" s)).
    replace (flat_map (fun c => flat_map (fun d => [d]) (w_children "col" c)) (w_children "cols" s)) with (flat_map (S_ConvertWord.word_children "col") (S_ConvertWord.word_children "cols" s)).
    + destruct (flat_map _ _) as [|c l]; [reflexivity|]. rewrite Z.max_r by (cbn [List.length]; lia). reflexivity.
    + change (S_ConvertWord.word_children "cols" s) with (w_children "cols" s). clear. induction (w_children "cols" s) as [|c l IH]; [reflexivity|]. cbn [flat_map]. rewrite IH. f_equal.
      change (S_ConvertWord.word_children "col" c) with (w_children "col" c). clear. induction (w_children "col" c) as [|d l IH]; [reflexivity|]. cbn [flat_map app]. rewrite <- IH. reflexivity.
Qed.
Lemma some_bounds t : treachable t -> exists bb, table_iter t <> [] -> bounds (table_iter t) bb.
Proof.
  intros HR. destruct (treachable_tinv t HR) as (og & HS & HM). destruct (table_iter t) as [|c l] eqn:E; [exists (MkBox (Coord 1 1) (Coord 1 1)); intros H; contradiction|].
  destruct (P_CalsMore.bounds_exist (c :: l)) as (bb & Hb); [rewrite <- E; apply HM|discriminate|]. exists bb. auto.
Qed.
Lemma page_columns_fun sect v w : S_ConvertWord.page_columns sect v -> S_ConvertWord.page_columns sect w -> v = w.
Proof.
  unfold S_ConvertWord.page_columns. destruct sect as [s|]; [|congruence].
  intros [H|[N ->]] [H'|[N' ->]]; [apply (value_at_fun _ _ _ _ _ H H')|destruct N'; eauto|destruct N; eauto|reflexivity].
Qed.

(** They are written in the CALS table ... *)
Theorem C73_cals : forall kw ox sect tbl cols trs rows e', let ns := cals_space kw in
    S_Ooxml.word_table tbl cols trs -> Forall2 S_Ooxml.row_reads trs rows -> S_Ooxml.regular rows -> ooxml2cals kw ox sect tbl = Ok e' ->
    (forall s, S_ConvertWord.page_value "orient" sect s -> exists w, In (s, w) orient_names /\ attribute ns e' "orient" = Some w) /\
    ((forall s, ~ S_ConvertWord.page_value "orient" sect s) -> attribute ns e' "orient" = None) /\
    (forall v, S_ConvertWord.page_columns sect v -> attribute ns e' "pgwide" = Some (if String.eqb v "1" then "1" else "0")) /\
    (forall s, S_ConvertWord.table_background tbl s -> attribute ns e' "bgcolor" = Some s) /\
    ((forall s, ~ S_ConvertWord.table_background tbl s) -> attribute ns e' "bgcolor" = None).
Proof.
  intros kw ox sect tbl cols trs rows e' ns HW HF HR H. unfold ooxml2cals in H. bind H as o Eo. bind H as t Et.
  destruct (C73_page _ _ _ _ _ _ _ HW HF HR Et) as (Hbg & Hor & _ & v & Hv & Hc).
  destruct (C70_word _ _ _ _ Et) as (HT & HX & _). destruct (builder_of kw o Eo) as [Hns Hs]. rewrite cals_builder_space in Hns. fold ns in Hns.
  assert (HL : table_look ns (co_unit o) (co_fmt o) t e').
  { rewrite <- Hns. destruct (some_bounds t HT) as (bb & HB). apply (C60_cals o _ t bb e' HT HB Hs H). }
  destruct HL as (_ & Lor & Lpg & Lbg & _). clear Hns Eo HX.
  split; [|split; [|split; [|split]]].
  - intros s Ho. unfold renamed_as in Lor. rewrite (proj2 (Hor (SStr s)) (ex_intro _ s (conj Ho eq_refl))) in Lor.
    destruct Lor as (s' & w & [= <-] & Hin & E). eauto.
  - intros Hn. unfold renamed_as in Lor. destruct (dget (t_styles t) "x-sect-orient") as [x|]; [|exact Lor].
    destruct (proj1 (Hor x) eq_refl) as (s & Ho & _). destruct (Hn s Ho).
  - intros v' Hv'. rewrite (page_columns_fun _ _ _ Hv' Hv). rewrite Hc in Lpg. exact Lpg.
  - intros s Hb. unfold as_is in Lbg. rewrite (proj2 (Hbg (SStr s)) (ex_intro _ s (conj Hb eq_refl))) in Lbg. destruct Lbg as (s' & [= <-] & E). exact E.
  - intros Hn. unfold as_is in Lbg. destruct (dget (t_styles t) "background-color") as [x|]; [|exact Lbg].
    destruct (proj1 (Hbg x) eq_refl) as (s & Ho & _). destruct (Hn s Ho).
Qed.
(** ... and the page of the Formex table is the one of the section (A4 if the size is not given). *)
Theorem C73_formex : forall kw ox sect k tbl cols trs rows e',
    S_Ooxml.word_table tbl cols trs -> Forall2 S_Ooxml.row_reads trs rows -> S_Ooxml.regular rows -> ooxml2formex kw ox sect k tbl = Ok e' ->
    ((forall s, ~ S_ConvertWord.page_value "orient" sect s) -> x_get e' "PAGE.SIZE" = None) /\
    (forall w h, (exists a b, S_ConvertWord.page_value "w" sect a /\ S_ConvertWord.page_value "h" sect b /\ ox_page ox a b = Ok (SPair w h)) \/
                 ((forall a b, S_ConvertWord.page_value "w" sect a -> ~ S_ConvertWord.page_value "h" sect b) /\ w = 595 /\ h = 842) ->
       (S_ConvertWord.page_value "orient" sect "landscape" ->
          (one_page w h -> x_get e' "PAGE.SIZE" = Some "SINGLE.LANDSCAPE") /\ (~ one_page w h -> x_get e' "PAGE.SIZE" = Some "DOUBLE.LANDSCAPE")) /\
       (S_ConvertWord.page_value "orient" sect "portrait" ->
          (one_page w h -> x_get e' "PAGE.SIZE" = None) /\ (~ one_page w h -> x_get e' "PAGE.SIZE" = Some "DOUBLE.PORTRAIT"))).
Proof.
  intros kw ox sect k tbl cols trs rows e' HW HF HR H. unfold ooxml2formex in H. bind H as t Et.
  destruct (C73_page _ _ _ _ _ _ _ HW HF HR Et) as (_ & Hor & Hsz & _). destruct (C59_page _ _ _ _ H) as [P1 P2]. split.
  - intros Hn. apply P1. destruct (dget (t_styles t) "x-sect-orient") as [x|]; [|reflexivity].
    destruct (proj1 (Hor x) eq_refl) as (s & Ho & _). destruct (Hn s Ho).
  - intros w h Hwh.
    assert (HP : page_of (t_styles t) w h).
    { destruct Hwh as [(a & b & Ha & Hb & Ep)|(Hn & -> & ->)]; [left; apply Hsz; eauto|right]. split; [|auto].
      destruct (dget (t_styles t) "x-sect-size") as [x|]; [|reflexivity]. destruct (proj1 (Hsz x) eq_refl) as (a & b & Ha & Hb & _). destruct (Hn a b Ha Hb). }
    destruct (P2 w h HP) as [PL PP]. split; intros Ho; [apply PL|apply PP]; apply Hor; eauto.
Qed.

(** ** C74 *)

Lemma acceptable_builder kw : (acceptable kw -> cals_builder kw = Ok (MkCalsOpts (cals_space kw) (unit_of kw) (kw_in_tgroup kw) (order_of kw) (kw_fmt kw))) /\
  (~ acceptable kw -> cals_builder kw = Err EValueError).
Proof.
  unfold cals_builder, acceptable. rewrite cals_builder_space, or_nothing_not_empty. cbv zeta.
  assert (HS : (forall s, In s section_names -> In s (order_of kw)) -> cals_sorting (kw_sorting kw) = Ok (order_of kw)).
  { intros H. unfold cals_sorting, order_of in *. destruct (kw_sorting kw) as [|s l] eqn:E; [reflexivity|].
    rewrite (proj2 (sorting_mem (s :: l))) by exact H. reflexivity. }
  assert (HN : ~ (forall s, In s section_names -> In s (order_of kw)) -> cals_sorting (kw_sorting kw) = Err EValueError).
  { intros H. unfold cals_sorting, order_of in *. destruct (kw_sorting kw) as [|s l] eqn:E; [destruct H; intros s Hs; exact Hs|].
    destruct (forallb (fun n => str_mem n (s :: l)) default_sorting) eqn:Ef; [|reflexivity]. destruct H. apply sorting_mem, Ef. }
  assert (HU : kw_or (kw_unit kw) "mm" = unit_of kw) by (unfold unit_of; destruct (kw_unit kw); reflexivity).
  destruct (not_empty (kw_prefix kw)) as [p|], (cals_space kw) as [ns|]; (split; [intros [H1 H2]|intros HX]).
  all: try (rewrite (HS H2), HU; reflexivity).
  all: try (exfalso; apply H1; [discriminate|reflexivity]).
  all: try reflexivity.
  all: rewrite HN; [reflexivity|intros H2; apply HX; split; [intros H; congruence || discriminate|exact H2]].
Qed.
Lemma formex_builder_options kw : formex_builder kw =
  MkFmxOpts (MkCalsOpts (formex_cals_space kw) (unit_of kw) false section_names (kw_fmt kw)) (kw_use_cals kw) (kw_titles kw).
Proof.
  unfold formex_builder, formex_cals_space, space_of, unit_of. destruct (kw_cals_ns kw) as [v|], (kw_unit kw); cbn [kw_or]; rewrite ?or_nothing_not_empty; reflexivity.
Qed.
Lemma cals_parser_options kw : cals_parser kw = MkPCalsOpts (cals_space kw) (unit_of kw) (kw_fmt kw).
Proof. unfold cals_parser. rewrite cals_builder_space. unfold unit_of. destruct (kw_unit kw); reflexivity. Qed.
Lemma formex_parser_options kw : formex_parser kw = MkPFmxOpts (formex_space kw) (cals_space kw) (kw_embed kw).
Proof. unfold formex_parser. rewrite cals_builder_space, or_nothing_not_empty. reflexivity. Qed.

(** The builder refuses a prefix without name space and an order without one of the sections. *)
Theorem C74_refused : forall kw, ~ acceptable kw ->
    (forall parent blks before e, formex2cals kw parent blks before e = Err EValueError) /\
    (forall ox sect e, ooxml2cals kw ox sect e = Err EValueError).
Proof.
  intros kw H. unfold formex2cals, ooxml2cals. rewrite (proj2 (acceptable_builder kw) H). split; reflexivity.
Qed.
(** What is written in the CALS tables ... *)
Lemma tree_written kw t e : acceptable kw -> treachable t ->
  generate_table_tree (MkCalsOpts (cals_space kw) (unit_of kw) (kw_in_tgroup kw) (order_of kw) (kw_fmt kw)) t = Ok e -> cals_written kw t e.
Proof.
  intros HA HR H. set (o := MkCalsOpts _ _ _ _ _) in H.
  assert (HS : cals_sorting (kw_sorting kw) = Ok (co_sorting o)).
  { pose proof (proj1 (acceptable_builder kw) HA) as Eo. apply (builder_of kw o Eo). }
  destruct (some_bounds t HR) as (bb & HB).
  destruct (C60_cals o _ t bb e HR HB HS H) as (HT & cols & rows & sections & tg & specs & bodies & cs & rs & Ec & _ & _ & E1 & E2 & HD & HP & HC & _).
  destruct (C40_order o _ t e HR HS H) as (n & rows' & sections' & Er & HDt & Hsort & Hst & _).
  split; [apply HDt|]. split; [exact HT|]. split.
  - exists cols, tg, specs, bodies, cs, rs. auto 7.
  - exists n, rows', sections'. auto.
Qed.
Lemma builder_acceptable kw o : cals_builder kw = Ok o -> acceptable kw /\ o = MkCalsOpts (cals_space kw) (unit_of kw) (kw_in_tgroup kw) (order_of kw) (kw_fmt kw).
Proof.
  intros Eo.
  assert (HA : acceptable kw).
  { destruct (acceptable_builder kw) as [_ HN]. unfold acceptable in *.
    assert (D2 : {cals_space kw = None} + {cals_space kw <> None}) by (destruct (cals_space kw); [right|left]; congruence).
    split.
    - intros H1. destruct D2 as [D2|D2]; [|exact D2]. rewrite HN in Eo; [discriminate|]. intros [X _]. exact (X H1 D2).
    - intros s Hs. destruct (in_dec String.string_dec s (order_of kw)) as [Hi|Hi]; [exact Hi|]. rewrite HN in Eo; [discriminate|]. intros [_ X]. apply Hi, X, Hs. }
  split; [exact HA|]. rewrite (proj1 (acceptable_builder kw) HA) in Eo. congruence.
Qed.
Theorem C74_formex2cals : forall kw parent blks before e e', formex2cals kw parent blks before e = Ok e' ->
    acceptable kw /\ exists t, parse_formex (MkPFmxOpts (formex_space kw) (cals_space kw) (kw_embed kw)) parent blks before e = Ok t /\ cals_written kw t e'.
Proof.
  intros kw parent blks before e e' H. unfold formex2cals in H. bind H as o Eo. bind H as t Et.
  destruct (builder_acceptable kw o Eo) as [HA ->]. split; [exact HA|]. exists t. rewrite formex_parser_options in Et. split; [exact Et|].
  apply tree_written; [exact HA|apply (C70_formex _ _ _ _ _ _ Et)|exact H].
Qed.
Theorem C74_ooxml2cals : forall kw ox sect e e', ooxml2cals kw ox sect e = Ok e' ->
    acceptable kw /\ exists t, ox_parse_table ox sect e = Ok t /\ cals_written kw t e'.
Proof.
  intros kw ox sect e e' H. unfold ooxml2cals in H. bind H as o Eo. bind H as t Et.
  destruct (builder_acceptable kw o Eo) as [HA ->]. split; [exact HA|]. exists t. split; [reflexivity|].
  apply tree_written; [exact HA|apply (C70_word _ _ _ _ Et)|exact H].
Qed.

(** ... and in the Formex tables.  [k] is the number of the table. *)
Lemma tbl_written kw k t e : 0 <= k -> treachable t -> generate_tbl (formex_builder kw) k t = Ok e -> formex_written kw k t e.
Proof.
  intros Hk HR H. rewrite formex_builder_options in H. set (o := MkFmxOpts _ _ _) in H. split.
  - destruct (generate_tbl_spec o k t e HR H) as (_ & _ & _ & _ & HN & _). exists (format04 k). split; [apply format04_spec, Hk|exact HN].
  - destruct (C48_tree o k t e HR H) as (n & rows & HC & Er & _ & HD). pose proof HD as HD'. destruct HC as (cols & Ec & En). subst n.
    exists cols, rows.
    assert (HK : exists corpus, children_named "CORPUS" [e] = [corpus] /\ exists rows', describes_corpus (kw_use_cals kw) (formex_cals_space kw) (Z.of_nat (List.length cols)) rows' corpus).
    { destruct HD as (_ & _ & _ & _ & corpus & HD). exists corpus. cbn [fo_use_cals fo_titles fo_cals co_ns o] in HD.
      unfold children_named. cbn [flat_map]. rewrite app_nil_r.
      destruct (kw_titles kw); [destruct HD as [(_ & title & first & others & _ & E & HTi & HDc)|(_ & E & HDc)]|destruct HD as (E & HDc)]; rewrite E; cbn [filter];
        rewrite (tag_has _ "CORPUS" (proj1 HDc)).
      - assert (Et : x_has_tag title "CORPUS" = false). { destruct HTi as (parts & -> & _). reflexivity. } rewrite Et. split; [reflexivity|eauto].
      - split; [reflexivity|eauto].
      - split; [reflexivity|eauto]. }
    destruct HK as (corpus & EK & rows' & HDc). exists corpus. split; [exact Ec|]. split; [exact Er|]. split; [exact HD'|]. split; [exact EK|].
    destruct (kw_use_cals kw) eqn:EU.
    + destruct (some_bounds t HR) as (bb & HB).
      destruct (C61_cals o k t bb e HR HB eq_refl H) as (corpus' & cols' & rows'' & shown & cs & rs & specs & items & EK' & Ec' & _ & _ & HT & _ & _ & _ & HS & E1 & HC & _).
      assert (corpus' = corpus) by congruence. subst corpus'. assert (cols' = cols) by (unfold table_views in Ec'; congruence). subst cols'.
      split; [exact HT|]. exists cs, rs, specs, (List.concat items). auto.
    + unfold generate_tbl in H. bind H as c0 Ec0. bind H as a Ea. bind H as attrs Em. bind H as ch Eh. injection H as <-.
      unfold build_corpus in Eh. bind Eh as r0 Er0. bind Eh as tr Et. bind Eh as cra Ecra. destruct cra as [[cs rs] ca].
      bind Eh as cattrs Ecm. bind Eh as specs Es. bind Eh as items Ei. injection Eh as <-.
      unfold corpus_attrs in Ecra. cbn [fo_use_cals o] in Ecra. injection Ecra as <- <- <-. cbn in Ecm. injection Ecm as <-.
      unfold children_named in EK. cbn [flat_map x_children] in EK. rewrite app_nil_r, filter_app in EK. cbn [filter] in EK.
      change (x_has_tag (XElem "CORPUS" [] None (specs ++ List.concat items) None) "CORPUS") with true in EK. cbn iota in EK.
      assert (EL : filter (fun e => x_has_tag e "CORPUS") (fst tr) = []).
      { destruct (filter (fun e => x_has_tag e "CORPUS") (fst tr)) as [|x l]; [reflexivity|]. cbn in EK. injection EK as _ EK. destruct l; discriminate. }
      rewrite EL in EK. injection EK as <-. reflexivity.
Qed.
Theorem C74_cals2formex : forall kw k e e', 0 <= k -> cals2formex kw k e = Ok e' ->
    exists t, parse_table (MkPCalsOpts (cals_space kw) (unit_of kw) (kw_fmt kw)) e = Ok t /\ formex_written kw k t e'.
Proof.
  intros kw k e e' Hk H. unfold cals2formex in H. bind H as t Et. rewrite cals_parser_options in Et. exists t. split; [exact Et|].
  apply tbl_written; [exact Hk|apply (C70_cals _ _ _ Et)|exact H].
Qed.
Theorem C74_ooxml2formex : forall kw ox sect k e e', 0 <= k -> ooxml2formex kw ox sect k e = Ok e' ->
    exists t, ox_parse_table ox sect e = Ok t /\ formex_written kw k t e'.
Proof.
  intros kw ox sect k e e' Hk H. unfold ooxml2formex in H. bind H as t Et. exists t. split; [reflexivity|].
  apply tbl_written; [exact Hk|apply (C70_word _ _ _ _ Et)|exact H].
Qed.

(** ** Examples *)

Definition sect_land : xnode :=
  T_Ooxml.w "sectPr" [] [T_Ooxml.w "pgSz" [("w", "16838"); ("h", "11906"); ("orient", "landscape")] []; T_Ooxml.w "cols" [] [T_Ooxml.w "col" [] []; T_Ooxml.w "col" [] []]].
Definition kw_prefix_only : kwargs := MkKwargs None (Some "c") None false [] false false None false (fun _ => "0").
Definition kw_order : kwargs := MkKwargs (Some (Some "")) (Some "") (Some "cm") true ["body"; "header"; "footer"] true false None false (fun _ => "0").
Definition kw_short : kwargs := MkKwargs None None None false ["body"; "header"] false false None false (fun _ => "0").

Definition ox_pair : ooxml_opts :=
  MkOoxmlOpts (Some T_Ooxml.ex_sheet) (fun s => n <-? py_int s ;; Ok (inject_Z n)) (fun q => py_str_int (Qnum q / Zpos (Qden q)))
    (fun q => (py_str_int (Qnum q / Zpos (Qden q)) ++ ".00")%string) (fun a b => x <-? py_int a ;; y <-? py_int b ;; Ok (SPair (x / 20) (y / 20))) 1000.
Example C73_ex : let ox := ox_pair in exists e e',
    S_ConvertWord.page_value "orient" (Some sect_land) "landscape" /\ S_ConvertWord.page_columns (Some sect_land) "2" /\
    ooxml2cals kw_order ox (Some sect_land) T_Ooxml.ex_tbl = Ok e /\ attribute None e "orient" = Some "land" /\ attribute None e "pgwide" = Some "0" /\
    ooxml2formex kw_order ox (Some sect_land) 12 T_Ooxml.ex_tbl = Ok e' /\ x_get e' "NO.SEQ" = Some "0012" /\ x_get e' "PAGE.SIZE" = Some "SINGLE.LANDSCAPE".
Proof.
  cbv zeta. do 2 eexists. split.
  { exists sect_land. eexists. split; [reflexivity|]. split; [apply w_first_spec; vm_compute; reflexivity|reflexivity]. }
  split; [right; split; [apply w_attr_none; reflexivity|reflexivity]|].
  split; [vm_compute; reflexivity|]. split; [vm_compute; reflexivity|]. split; [vm_compute; reflexivity|]. split; [vm_compute; reflexivity|]. split; vm_compute; reflexivity.
Qed.
Example C74_ex : acceptable kw_order /\ ~ acceptable kw_prefix_only /\ ~ acceptable kw_short /\
    cals_space kw_order = None /\ formex_cals_space kw_order = None /\ unit_of kw_order = "cm" /\
    cals_space kw_prefix_only = None /\ formex_cals_space kw_prefix_only = Some "https://lib.benker.com/schemas/cals.xsd" /\ unit_of kw_prefix_only = "mm" /\
    order_of kw_prefix_only = ["header"; "footer"; "body"].
Proof.
  split; [split; [intros H; destruct (H eq_refl)|intros s; cbn; tauto]|].
  split; [intros [H _]; apply H; [discriminate|reflexivity]|].
  split; [intros [_ H]; specialize (H "footer" ltac:(cbn; auto)); cbn in H; intuition discriminate|].
  repeat (split; [reflexivity|]). reflexivity.
Qed.

Print Assumptions C73_page.
Print Assumptions C73_cals.
Print Assumptions C73_formex.
Print Assumptions C74_refused.
Print Assumptions C74_formex2cals.
Print Assumptions C74_ooxml2cals.
Print Assumptions C74_cals2formex.
Print Assumptions C74_ooxml2formex.
