(** * Theorems about the marks of the rows inserted in Word (C99) *)
From Coq Require Import Permutation.
From Verif Require Import Base M_Geometry M_Xml M_Cell M_Grid M_Table M_Str M_Units M_Builder M_Cals M_CalsParser M_Formex M_FormexParser M_Ooxml M_Convert.
From Verif Require Import S_Geometry S_Grid S_Table S_Units S_Builder S_Cals S_Int S_CalsParser S_RoundTrip S_Formex S_Attrs S_Axes S_Convert S_Through S_Again S_Inserted.
From Verif Require S_Ooxml S_OoxmlStyle S_ConvertWord T_Ooxml T_OoxmlCell P_OoxmlPath.
From Verif Require Import P_Table P_TableFacts P_TableMore P_Cals P_Formex P_Attrs P_RoundTrip P_RoundTripMain P_Parsed.
From Verif Require Import T_Table T_Cals T_Formex T_Attrs T_CalsParser T_RoundTrip T_Convert T_ConvertBack T_Options T_Through T_Again T_FormexAgain.
Open Scope string_scope.
Open Scope list_scope.
Open Scope Z_scope.

Lemma text_noted tr st k a name : In (k, a) [("x-ins-id", "id"); ("x-ins-author", "author"); ("x-ins-date", "date")] ->
  inserted tr -> (forall v, dget st k = Some v <-> S_OoxmlStyle.row_style tr k v) ->
  forall l prefix, match dget st k with None => l = [] | Some v => exists s, (forall x, v = SStr x -> s = x) /\ l = [(name, String.append prefix s)] end -> noted tr a name prefix l.
Proof.
  intros Hin Hi HS l prefix Hl. destruct (dget st k) as [v|].
  - destruct Hl as (s & Hs & ->). left. destruct (proj1 (HS v) eq_refl) as (_ & [[-> _]|(a' & u & Hin' & Hu & Hne & ->)]); [cbn in Hin; intuition discriminate|].
    assert (a' = a) as -> by (cbn in Hin, Hin'; intuition congruence). rewrite (Hs u eq_refl). exists u. auto.
  - right. split; [|exact Hl]. intros u Hu. destruct (String.eqb_spec u "") as [->|Hne]; [reflexivity|].
    assert (X : None = Some (SStr u)) by (apply HS; split; [exact Hi|right; exists a, u; auto]). discriminate.
Qed.
Lemma marks_marked tag tr st row items : (forall k v, In k S_OoxmlStyle.ROW_STYLES -> (dget st k = Some v <-> S_OoxmlStyle.row_style tr k v)) ->
  x_tag row = Some tag -> insertion_marks st row items -> marked tag tr items.
Proof.
  intros HS Ht HM. exists row. split; [exact Ht|]. unfold insertion_marks in HM. split.
  - intros Hn. destruct (dget st "x-ins") as [v|] eqn:E; [|exact HM]. apply HS in E as [E _]; [destruct (Hn E)|cbn; tauto].
  - intros Hi. assert (E : dget st "x-ins" = Some (SBool true)) by (apply HS; [cbn; tauto|split; [exact Hi|left; auto]]). rewrite E in HM.
    destruct HM as (start & finish & id & cr & da & -> & H1 & H2 & H3 & S1 & S2). exists start, finish, id, cr, da. split; [reflexivity|].
    split; [|split; [|split; [|split; [exact S1|exact S2]]]].
    + apply (text_noted tr st "x-ins-id"); [cbn; tauto|exact Hi|intros v; apply HS; cbn; tauto|]. unfold id_mark in H1.
      destruct (dget st "x-ins-id") as [v|]; [destruct H1 as (s & -> & Hs); exists s; split; [intros x ->; inversion Hs; reflexivity|reflexivity]|exact H1].
    + apply (text_noted tr st "x-ins-author"); [cbn; tauto|exact Hi|intros v; apply HS; cbn; tauto|]. unfold text_mark in H2.
      destruct (dget st "x-ins-author") as [v|]; [destruct H2 as (s & -> & ->); exists s; split; [congruence|reflexivity]|exact H2].
    + apply (text_noted tr st "x-ins-date"); [cbn; tauto|exact Hi|intros v; apply HS; cbn; tauto|]. unfold text_mark in H3.
      destruct (dget st "x-ins-date") as [v|]; [destruct H3 as (s & -> & ->); exists s; split; [congruence|reflexivity]|exact H3].
Qed.
Lemma by_place {A B C} (R : A -> C -> Prop) (S : B -> C -> Prop) l items : Forall2 R l items -> forall g, List.length l = List.length g ->
  (forall i a b, nth_error l i = Some a -> nth_error g i = Some b -> forall x, R a x -> S b x) -> Forall2 S g items.
Proof.
  induction 1 as [|a x l items H F IH]; intros g E HX; destruct g as [|b g]; try discriminate; constructor.
  - exact (HX 0%nat a b eq_refl eq_refl x H).
  - apply IH; [injection E as E; exact E|]. intros i. exact (HX (Datatypes.S i)).
Qed.
Lemma sections_items (R : view -> list xnode -> Prop) (l : list (nature * list view)) bodies :
  Forall2 (fun s e => exists items, x_children e = List.concat items /\ Forall2 R (snd s) items) l bodies ->
  exists items, List.concat (map x_children bodies) = List.concat items /\ Forall2 R (List.concat (map snd l)) items.
Proof.
  induction 1 as [|s e l bodies (items & E & H) F (rest & E' & IH)]; [exists []; split; [reflexivity|constructor]|].
  exists (items ++ rest). cbn [map List.concat]. rewrite E, E', concat_app. split; [reflexivity|apply Forall2_app; assumption].
Qed.

(** The rows of a Word table converted to CALS, in the order of the table: those which are inserted, and only those,
    stand between two processing instructions which give the identifier, the author and the date of the insertion. *)
Theorem C99_cals : forall kw ox sect tbl cols trs rows e,
    S_Ooxml.word_table tbl cols trs -> Forall2 S_Ooxml.row_reads trs rows -> S_Ooxml.regular rows -> S_ConvertWord.word_rectangle cols rows ->
    natures_grouped (order_of kw) (S_ConvertWord.word_nature rows) (Z.of_nat (List.length rows)) ->
    ooxml2cals kw ox sect tbl = Ok e ->
    exists tg specs bodies items, x_children e = [tg] /\ x_children tg = specs ++ bodies /\ List.length specs = List.length cols /\
      List.concat (map x_children bodies) = List.concat items /\ Forall2 (marked (expanded (cals_space kw) "row")) trs items.
Proof.
  intros kw ox sect tbl cols trs rows e HW HF HR (Hc & Hr & Hwid) HG H. unfold ooxml2cals in H. bind H as o Eo. bind H as t Et.
  pose proof (word_well_read _ _ _ _ _ _ _ HW HF HR Hwid Hc Hr Et) as HWR. pose proof (word_natures _ _ _ _ _ _ _ HW HF HR Et) as HN.
  destruct (builder_of kw o Eo) as [Hcn Hs]. rewrite cals_builder_space in Hcn. pose proof (wr_reach _ _ _ HWR) as HT.
  destruct (some_bounds t HT) as (bb & Hb). destruct (tree_looks o t bb e HT Hb H) as (_ & cv & rv & tg & specs & bodies & cs & rs & Ec & Er & E1 & E2 & _ & _ & HC & HX).
  destruct (sections_items _ _ _ HX) as (items & Ei & Fi).
  assert (HB : In "body" (co_sorting o)) by (apply (sorting_ok _ _ Hs); cbn; tauto).
  rewrite (sections_stay o t rv HT HB Er) in Fi.
  2:{ intros n q1 q2 u v j k0 Hn Hp Hq Hu' Hv Hj Hk. rewrite (view_count_fun _ _ _ _ Hn (wr_rows _ _ _ HWR)) in Hq.
      rewrite (HN q1 u ltac:(lia) Hu') in Hj. rewrite (HN q2 v ltac:(lia) Hv) in Hk. rewrite (sorting_order _ _ Hs) in Hj, Hk. exact (HG q1 q2 j k0 Hp Hq Hj Hk). }
  exists tg, specs, bodies, items. split; [exact E1|]. split; [exact E2|].
  split. { rewrite <- (Forall2_len _ _ _ HC). destruct (wr_cols _ _ _ HWR) as (vs & Ev & Hl). unfold table_views in Ec. assert (vs = cv) as -> by congruence. lia. }
  split; [exact Ei|]. destruct (table_views_spec _ _ _ HT Er) as [_ Hrv].
  refine (by_place _ _ rv items Fi trs _ _).
  - rewrite (Forall2_len _ _ _ HF). destruct (wr_rows _ _ _ HWR) as (vs & Ev & Hl). unfold table_views in Er. assert (vs = rv) as -> by congruence. lia.
  - intros i v tr Hv Htr its (row & Htag & _ & HM). rewrite Hcn in Htag. refine (marks_marked _ _ _ _ _ _ Htag HM).
    intros k w Hk. refine (T_OoxmlCell.C56_rows _ _ _ _ _ _ _ HW HF HR Et (Z.of_nat i + 1) tr v ltac:(lia) _ (Hrv _ _ Hv) k w Hk).
    replace (Z.to_nat (Z.of_nat i + 1 - 1)) with i by lia. exact Htr.
Qed.

(** The same for Formex, with or without the CALS attributes; the rows stay in their order. *)
Theorem C99_formex : forall kw ox sect k tbl cols trs rows e,
    S_Ooxml.word_table tbl cols trs -> Forall2 S_Ooxml.row_reads trs rows -> S_Ooxml.regular rows -> S_ConvertWord.word_rectangle cols rows ->
    kw_titles kw = false -> ooxml2formex kw ox sect k tbl = Ok e ->
    exists corpus specs items, x_children e = [corpus] /\ x_children corpus = specs ++ List.concat items /\
      List.length specs = (if kw_use_cals kw then List.length cols else 0%nat) /\ Forall2 (marked "ROW") trs items.
Proof.
  intros kw ox sect k tbl cols trs rows e HW HF HR (Hc & Hr & Hwid) Hti H. unfold ooxml2formex in H. bind H as t Et.
  pose proof (word_well_read _ _ _ _ _ _ _ HW HF HR Hwid Hc Hr Et) as HWR. pose proof (wr_reach _ _ _ HWR) as HT.
  unfold generate_tbl in H. bind H as cols0 Ec0. bind H as a Ea. bind H as attrs Em. bind H as ch Eh. injection H as <-.
  unfold build_corpus in Eh. bind Eh as rv Er. bind Eh as tr Etr. unfold split_title in Etr. change (fo_titles (formex_builder kw)) with (kw_titles kw) in Etr. rewrite Hti in Etr. injection Etr as <-.
  bind Eh as cra Ecra. destruct cra as [[cs rs] a0]. bind Eh as attrs0 Em0. bind Eh as specs Es. bind Eh as items Ei. injection Eh as <-.
  eexists. exists specs, items. split; [reflexivity|]. split; [reflexivity|]. split.
  { change (fo_use_cals (formex_builder kw)) with (kw_use_cals kw) in Es. destruct (kw_use_cals kw); [|injection Es as <-; reflexivity]. bind Es as cv Ec.
    apply rmap_Forall2 in Es. rewrite <- (Forall2_len _ _ _ Es). destruct (wr_cols _ _ _ HWR) as (vs & Ev & Hl). unfold table_views in Ec. assert (vs = cv) as -> by congruence. lia. }
  destruct (table_views_spec _ _ _ HT Er) as [_ Hrv]. apply rmap_Forall2 in Ei.
  refine (by_place _ _ rv items Ei trs _ _).
  - rewrite (Forall2_len _ _ _ HF). destruct (wr_rows _ _ _ HWR) as (vs & Ev & Hl). unfold table_views in Er. assert (vs = rv) as -> by congruence. lia.
  - intros i v x Hv Hx its Hb. unfold build_frow in Hb. bind Hb as a1 E1. bind Hb as start E3. bind Hb as at1 E4. bind Hb as finish E5. bind Hb as cells E6. injection Hb as <-.
    refine (marks_marked "ROW" x (v_styles v) (XElem "ROW" at1 None cells None) _ _ eq_refl (marks_spec _ _ _ _ E3 E5)).
    intros q w Hk. refine (T_OoxmlCell.C56_rows _ _ _ _ _ _ _ HW HF HR Et (Z.of_nat i + 1) x v ltac:(lia) _ (Hrv _ _ Hv) q w Hk).
    replace (Z.to_nat (Z.of_nat i + 1 - 1)) with i by lia. exact Hx.
Qed.

(** The table of C56: its first row is inserted by "me", with an empty date *)
Definition ins_cols : list xnode := repeat (T_Ooxml.w "gridCol" [("w", "400")] []) 2.
Definition is_pi (n : xnode) : option (string * string) := match n with XPI t d _ => Some (t, d) | _ => None end.
Example C99_ex : exists e tg colspecs tbody f corpus, let ox := T_Ooxml.opts None in
    S_Ooxml.word_table T_OoxmlCell.ex1_tbl ins_cols T_OoxmlCell.ex1_trs /\ Forall2 S_Ooxml.row_reads T_OoxmlCell.ex1_trs T_OoxmlCell.ex1_rows /\ S_Ooxml.regular T_OoxmlCell.ex1_rows /\
    S_ConvertWord.word_rectangle ins_cols T_OoxmlCell.ex1_rows /\ natures_grouped (order_of kw0) (S_ConvertWord.word_nature T_OoxmlCell.ex1_rows) 2 /\
    Exists inserted T_OoxmlCell.ex1_trs /\
    ooxml2cals kw0 ox None T_OoxmlCell.ex1_tbl = Ok e /\ x_children e = [tg] /\ x_children tg = colspecs ++ [tbody] /\
    map is_pi (x_children tbody) =
      [Some ("change-start", "type=""row:insertion"" change-id=""ct7"" creator=""me"""); None; Some ("change-end", "type=""row:insertion"" change-id=""ct7"""); None] /\
    ooxml2formex kw0 ox None 1 T_OoxmlCell.ex1_tbl = Ok f /\ x_children f = [corpus] /\
    map is_pi (x_children corpus) =
      [Some ("change-start", "type=""row:insertion"" change-id=""ct7"" creator=""me"""); None; Some ("change-end", "type=""row:insertion"" change-id=""ct7"""); None].
Proof.
  do 2 eexists. eexists [_; _]. do 3 eexists. cbn zeta. split; [exact T_OoxmlCell.ex1_word|]. split; [exact T_OoxmlCell.ex1_reads|]. split; [exact T_OoxmlCell.ex1_regular|].
  split; [split; [discriminate|]; split; [discriminate|]; repeat (apply Forall_cons; [vm_compute; discriminate|]); apply Forall_nil|].
  split; [apply grouped_check; [cbn; tauto|vm_compute; reflexivity]|].
  split; [left; apply P_OoxmlPath.w_first_exists; discriminate|].
  split; [vm_compute; reflexivity|]. split; [reflexivity|]. split; [reflexivity|]. split; [vm_compute; reflexivity|]. split; [vm_compute; reflexivity|]. split; [reflexivity|vm_compute; reflexivity].
Qed.

Print Assumptions C99_cals.
Print Assumptions C99_formex.
