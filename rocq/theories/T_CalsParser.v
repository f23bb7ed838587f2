(** * Theorems about the CALS parser (C41, C43, C44, C54, C55) *)
From Coq Require Import QArith.
From Verif Require Import Base M_Geometry M_Xml M_Cell M_Grid M_Table M_Str M_Units M_Cals M_CalsParser.
From Verif Require Import S_Geometry S_Grid S_Table S_Units S_Cals S_Int S_CalsParser.
From Verif Require Import P_Geometry P_Grid P_GridFacts P_Table P_TableFacts P_TableMore P_Int P_CalsParser P_CalsLayout P_CalsEvents P_CalsSim P_CalsTable P_CalsMore P_CalsWithin.
Open Scope string_scope.
Open Scope list_scope.
Open Scope Z_scope.

(** For the examples *)
Definition el (name : string) (attrs : dict string) (children : list xnode) : xnode := XElem name attrs None children None.
Definition o0 : pcals_opts := MkPCalsOpts None "mm" (fun _ => "0").

(** ** C55: the layout *)

(** The cells, the columns and the attributes of rows and columns are those of the specification. *)
Theorem C55_layout : forall o e t,
    no_brace (pc_ns o) -> regular (pc_ns o) e -> parse_table o e = Ok t ->
    exists l g, laid_out (pc_ns o) true e l g /\ pictures (pc_ns o) (table_iter t) g /\ view_count Cols t (l_cols l) /\
      (forall r v, 1 <= r -> reads Rows r t v -> row_attributes (pc_ns o) (row_items (items (pc_ns o) e)) r v) /\
      (forall j v, 1 <= j -> reads Cols j t v -> column_attributes (l_styles l) j v).
Proof.
  intros o e t Hb Hreg E. pose proof (parse_table_sim o Hb e Hreg) as H. rewrite E in H. destruct H as (l & g & HL & HA & _).
  exists l, g. split; [exact HL|]. split; [apply HA|]. split; [apply colcount_count; apply HA|].
  destruct (treachable_tinv t (ag_reach _ _ _ _ _ _ HA)) as (og & HT). split.
  - intros r v Hr Hv. pose proof (reads_attr Rows r t og v HT Hr Hv) as Ea. pose proof (ag_rows _ _ _ _ _ _ HA (Z.to_nat (r - 1))) as R.
    unfold row_attributes. unfold row_ok in R. rewrite <- Ea in R.
    destruct (nth_error _ (Z.to_nat (r - 1))) as [[[na sec] row]|]; [exact R|]. unfold vattr in R. split; congruence.
  - intros j v Hj Hv. pose proof (reads_attr Cols j t og v HT Hj Hv) as Ea. pose proof (ag_cols _ _ _ _ _ _ HA (Z.to_nat (j - 1))) as R.
    unfold column_attributes. unfold col_ok in R. rewrite <- Ea in R. replace (Z.of_nat (Z.to_nat (j - 1)) + 1) with j in R by lia. exact R.
Qed.

(** The layout is the only one and the parser finds it. *)
Theorem C55_one_layout : forall ns watch e l g l' g', laid_out ns watch e l g -> laid_out ns watch e l' g' -> l = l' /\ g = g'.
Proof.
  intros ns watch e l g l' g' (HL & bb & Hb & Hf) (HL' & bb' & Hb' & Hf'). pose proof (lays_fun _ _ _ _ _ _ HL HL') as <-.
  pose proof (bounds_fun _ _ _ Hb Hb') as <-. split; [reflexivity|]. eapply filled_fun; eassumption.
Qed.
Theorem C55_succeeds : forall o e l g,
    no_brace (pc_ns o) -> regular (pc_ns o) e -> readable_table (pc_ns o) (pc_unit o) e -> laid_out (pc_ns o) true e l g ->
    exists t, parse_table o e = Ok t /\ pictures (pc_ns o) (table_iter t) g.
Proof.
  intros o e l g Hb Hreg Hread HL. pose proof (parse_table_sim o Hb e Hreg) as H. destruct (parse_table o e) as [t|x].
  - destruct H as (l' & g' & HL' & HA & _). destruct (C55_one_layout _ _ _ _ _ _ _ HL HL') as [<- <-]. exists t. split; [reflexivity|apply HA].
  - exfalso. destruct H as [(y & Hy)|H]; [|exact (H l g HL)].
    destruct (parse_table_readable o e Hread) as (a & Ea). rewrite Ea in Hy. discriminate.
Qed.

(** Example: columns, a header, entries which span columns and rows, a hole, attributes *)
Ltac each H := cbn [In el x_children] in H; repeat (destruct H as [<-|H]); try (destruct H).
Ltac regular_tac :=
  split; [reflexivity|];
  let tg := fresh in let Htg := fresh in intros tg Htg; each Htg; right; (split; [reflexivity|]);
  let p := fresh in let Hp := fresh in intros p Hp; each Hp; right;
  first [ left; split; [reflexivity|]; split; [intros ? []|intros ? ? Hs Hi; vm_compute in Hs; first [discriminate Hs|injection Hs as <-; apply py_int_spec in Hi; vm_compute in Hi; injection Hi as <-; lia]]
        | right; split; [unfold is_section, named; cbn; tauto|];
          let r := fresh in let Hr := fresh in intros r Hr; each Hr; right; (split; [reflexivity|]);
          let en := fresh in let Hen := fresh in intros en Hen; each Hen; right; (split; [reflexivity|]);
          let n := fresh in let Hn := fresh in intros n Hn; each Hn ].
Definition doc_full : xnode :=
  el "table" [("frame", "topbot"); ("width", "60mm"); ("tabstyle", "my table")] [
    el "tgroup" [("colsep", "1"); ("tgroupstyle", "wide")] [
      el "colspec" [("colnum", "1"); ("colwidth", "20mm")] []; el "colspec" [("colnum", "2"); ("align", "char")] [];
      el "thead" [("valign", "top")] [
        el "row" [] [el "entry" [("namest", "c1"); ("nameend", "c2")] []; el "entry" [("rowsep", "0")] []]];
      el "tbody" [] [
        el "row" [("bgcolor", "red")] [el "entry" [("morerows", "1")] []; el "entry" [] []];
        el "row" [] [el "entry" [] []; el "entry" [] []]]]].
Example doc_full_regular : regular None doc_full.
Proof. regular_tac. Qed.
Example doc_full_readable : readable_table None "mm" doc_full.
Proof.
  split.
  - intros f H. injection H as <-. vm_compute. tauto.
  - intros w H. injection H as <-. split; [vm_compute; tauto|]. exists "6"%char. split; [left; reflexivity|]. vm_compute. tauto.
Qed.
Example C55_layout_example : exists t l g, parse_table o0 doc_full = Ok t /\ laid_out None true doc_full l g /\ l_cols l = 3 /\
    map c_box (table_iter t) = [
      MkBox (Coord 1 1) (Coord 2 1); MkBox (Coord 3 1) (Coord 3 1);
      MkBox (Coord 1 2) (Coord 1 3); MkBox (Coord 2 2) (Coord 2 2); MkBox (Coord 3 2) (Coord 3 2);
      MkBox (Coord 2 3) (Coord 2 3); MkBox (Coord 3 3) (Coord 3 3)] /\
    map c_content (table_iter t) = [CList []; CList []; CList []; CList []; CNone; CList []; CList []] /\
    t_nature t = Some "my wide" /\ dget (t_styles t) "border-top" = Some (SStr "solid 1pt black") /\
    dget (t_styles t) "width" = Some (SStr "0mm") /\ dget (t_styles t) "x-cell-border-right" = Some (SStr "solid 1pt black").
Proof.
  assert (HX : exists t, parse_table o0 doc_full = Ok t) by (eexists; vm_compute; reflexivity). destruct HX as (t & Et).
  destruct (C55_layout o0 doc_full t ltac:(intros u H; discriminate) doc_full_regular Et) as (l & g & HL & HP & HC & _).
  exists t, l, g. split; [exact Et|]. split; [exact HL|]. split.
  - eapply view_count_fun; [exact HC|]. clear - Et. vm_compute in Et; injection Et as <-. eexists; split; vm_compute; reflexivity.
  - vm_compute in Et; injection Et as <-. vm_compute. repeat (split; [reflexivity|]). reflexivity.
Qed.

(** A row out of a section or a colspec out of a tgroup is refused (unless it is in a nested table). *)
Theorem C55_row_misplaced : forall o e p n name, no_brace (pc_ns o) -> named (pc_ns o) "table" e ->
    within (pc_ns o) e p n -> named (pc_ns o) "row" n ->
    In name cals_names -> named (pc_ns o) name p -> ~ is_section (pc_ns o) p -> exists x, parse_table o e = Err x.
Proof. intros o e p n name Hb. apply (row_misplaced o Hb). Qed.
Theorem C55_colspec_misplaced : forall o e p n name, no_brace (pc_ns o) -> named (pc_ns o) "table" e ->
    within (pc_ns o) e p n -> named (pc_ns o) "colspec" n ->
    In name cals_names -> named (pc_ns o) name p -> ~ named (pc_ns o) "tgroup" p -> ~ named (pc_ns o) "table" p ->
    exists x, parse_table o e = Err x.
Proof. intros o e p n name Hb. apply (colspec_misplaced o Hb). Qed.
Example C55_misplaced_example : 
    let row := el "row" [] [] in let tg := el "tgroup" [] [row] in within None (el "table" [] [tg]) tg row /\
    parse_table o0 (el "table" [] [tg]) = Err EKeyError.
Proof.
  cbn zeta. split; [|vm_compute; reflexivity]. eapply within_deeper; [left; reflexivity|intros H; discriminate|].
  apply within_child. left. reflexivity.
Qed.

(** ** C41: no hole, no overlap *)

(** For all trees: a table which is read has no hole, and no cell has a corner in another one. *)
Theorem C41_no_hole : forall o e t, named (pc_ns o) "table" e -> parse_table o e = Ok t ->
    treachable t /\
    exists bb, table_bounding_box t = Ok (Some bb) /\ forall k, covers bb k -> exists c, In c (table_iter t) /\ covers (c_box c) k.
Proof. exact parse_table_ok. Qed.

(** Two cells may overlap. *)
Definition doc_overlap : xnode :=
  el "table" [] [el "tgroup" [] [el "tbody" [] [
    el "row" [] [el "entry" [] []; el "entry" [("morerows", "2")] []; el "entry" [] []];
    el "row" [] [el "entry" [("namest", "c1"); ("nameend", "c3")] []]]]].

Theorem C41_overlap_refuted : exists o e t,
    regular (pc_ns o) e /\ parse_table o e = Ok t /\ ~ no_overlap (table_iter t).
Proof.
  exists o0, doc_overlap. eexists. split; [regular_tac|]. split; [vm_compute; reflexivity|].
  intros H. vm_compute table_iter in H. inversion H as [|? ? _ H1]; subst. inversion H1 as [|? ? H2 _]; subst.
  rewrite Forall_forall in H2. eapply H2; [right; left; reflexivity|].
  exists (Coord 2 2). unfold covers. cbn. lia.
Qed.
(** ... not when all the entries are on one row or all are on one column. *)
Theorem C41_no_overlap_partial : forall o e t,
    no_brace (pc_ns o) -> regular (pc_ns o) e -> parse_table o e = Ok t ->
    (forall en, In en (entries_of (pc_ns o) (items (pc_ns o) e)) -> attribute (pc_ns o) en "morerows" = None) \/
    (forall en, In en (entries_of (pc_ns o) (items (pc_ns o) e)) ->
       attribute (pc_ns o) en "namest" = None /\ attribute (pc_ns o) en "nameend" = None) ->
    no_overlap (table_iter t).
Proof.
  intros o e t Hb Hreg E HH. pose proof (C55_layout o e t Hb Hreg E) as (l & g & HL & HP & _).
  destruct (C41_no_hole o e t (proj1 Hreg) E) as [HR _]. destruct (treachable_tinv t HR) as (og & HS & HM).
  apply no_clash_thin; [apply HM|apply HM|].
  assert (HC : forall c, In c (table_iter t) -> exists s, In s g /\ c_box c = c_box (snd s) /\ spot_from (pc_ns o) (entries_of (pc_ns o) (items (pc_ns o) e)) s).
  { intros c Hc. destruct (pictures_spot _ _ _ c HP Hc) as (s & Hs & Es). exists s. split; [exact Hs|]. split; [exact Es|]. eapply laid_out_from; eauto. }
  destruct HH as [HH|HH]; [left|right]; intros c Hc; destruct (HC c Hc) as (s & _ & -> & [(_ & k & _ & _ & ->)|(en & r & i & k & w & h & _ & Hin & -> & Hsp & _)]); try reflexivity; cbn.
  - rewrite (span_height _ _ _ _ _ (HH en Hin) Hsp). lia.
  - destruct (HH en Hin) as [H1 H2]. rewrite (span_width _ _ _ _ _ H1 H2 Hsp). lia.
Qed.

Example C41_no_overlap_example : exists t, parse_table o0 (el "table" [] [el "tgroup" [] [el "tbody" [] [
      el "row" [] [el "entry" [("namest", "c1"); ("nameend", "c2")] []]; el "row" [] [el "entry" [] []; el "entry" [] []]]]]) = Ok t /\
    no_overlap (table_iter t) /\ List.length (table_iter t) = 3%nat.
Proof.
  match goal with |- exists t, parse_table _ ?e = _ /\ _ => assert (HR : regular None e) by regular_tac; assert (HX : exists t, parse_table o0 e = Ok t) by (eexists; vm_compute; reflexivity) end.
  destruct HX as (t & Et). exists t. split; [exact Et|]. split.
  - refine (C41_no_overlap_partial o0 _ t ltac:(intros u H; discriminate) HR Et _). left. intros en Hen. vm_compute in Hen. each Hen; reflexivity.
  - vm_compute in Et. injection Et as <-. reflexivity.
Qed.

(** ** C54: the attributes of the table *)

Theorem C54_table_attributes : forall o e t, regular (pc_ns o) e -> parse_table o e = Ok t ->
    table_attributes (pc_ns o) (pc_unit o) (pc_fmt o) e t.
Proof. exact parse_table_attributes. Qed.

(** ** C43: nested tables *)

(** A nested table may change the layout: the holes are filled too early. *)
Definition doc_two (inner : list xnode) : xnode :=
  el "table" [] [el "tgroup" [] [el "tbody" [] [
    el "row" [] [el "entry" [] []; el "entry" [] []];
    el "row" [] [el "entry" [] inner; el "entry" [] []]]]].
Definition boxes (t : table) : list box := map c_box (table_iter t).

Theorem C43_nested_refuted : exists o e e' t t',
    regular (pc_ns o) e /\ regular (pc_ns o) e' /\ emptied (pc_ns o) e = emptied (pc_ns o) e' /\
    parse_table o e = Ok t /\ parse_table o e' = Ok t' /\
    In (MkBox (Coord 3 2) (Coord 3 2)) (boxes t) /\ ~ In (MkBox (Coord 3 2) (Coord 3 2)) (boxes t').
Proof.
  exists o0, (doc_two [el "table" [] []]), (doc_two []). do 2 eexists.
  split; [regular_tac; apply hosts_table; reflexivity|]. split; [regular_tac|]. split; [reflexivity|].
  split; [vm_compute; reflexivity|]. split; [vm_compute; reflexivity|]. split; [vm_compute; tauto|].
  vm_compute. intuition discriminate.
Qed.

(** What holds: when there is no hole at the end of each nested table, the nested tables are ignored. *)
Theorem C43_nested_partial : forall o e l g,
    no_brace (pc_ns o) -> regular (pc_ns o) e -> readable_table (pc_ns o) (pc_unit o) e ->
    laid_out (pc_ns o) false e l g ->
    (forall en gg, reaches (pc_ns o) e en gg -> has_nested (pc_ns o) en -> no_hole (map snd gg)) ->
    exists t, parse_table o e = Ok t /\ pictures (pc_ns o) (table_iter t) g.
Proof.
  intros o e l g Hb Hreg Hread HL HT. eapply C55_succeeds; eauto. apply laid_out_tight; eassumption.
Qed.

Theorem C43_nested_read_partial : forall o e t,
    no_brace (pc_ns o) -> regular (pc_ns o) e -> parse_table o e = Ok t ->
    (forall en gg, reaches (pc_ns o) e en gg -> has_nested (pc_ns o) en -> no_hole (map snd gg)) ->
    exists l g, laid_out (pc_ns o) false e l g /\ pictures (pc_ns o) (table_iter t) g.
Proof.
  intros o e t Hb Hreg E HT. destruct (C55_layout o e t Hb Hreg E) as (l & g & HL & HP & _). exists l, g. split; [|exact HP].
  apply laid_out_tight_inv; assumption.
Qed.
(** This is the case when only the entries of the first row, which have no [morerows], contain tables. *)
Theorem C43_first_row_partial : forall o e t its0 na sec row its,
    no_brace (pc_ns o) -> regular (pc_ns o) e -> parse_table o e = Ok t ->
    items (pc_ns o) e = its0 ++ Row na sec row :: its -> row_items its0 = [] ->
    (forall en, In en (of_name (pc_ns o) "entry" (x_children row)) -> attribute (pc_ns o) en "morerows" = None) ->
    (forall en, In en (entries_of (pc_ns o) its) -> ~ has_nested (pc_ns o) en) ->
    exists l g, laid_out (pc_ns o) false e l g /\ pictures (pc_ns o) (table_iter t) g.
Proof.
  intros o e t its0 na sec row its Hb Hreg E Hits Hr Hm Hn. apply C43_nested_read_partial; try assumption.
  eapply first_row_tight; eassumption.
Qed.

(** Examples: a table in the second entry of the first row; the same with more holes afterwards *)
Definition doc_first : xnode :=
  el "table" [] [el "tgroup" [] [el "colspec" [("colnum", "1")] []; el "tbody" [] [
    el "row" [] [el "entry" [] []; el "entry" [] [el "p" [] [el "table" [] []]]];
    el "row" [] [el "entry" [] []]]]].
Definition row_first : xnode := el "row" [] [el "entry" [] []; el "entry" [] [el "p" [] [el "table" [] []]]].
Definition sec_first : xnode := el "tbody" [] [row_first; el "row" [] [el "entry" [] []]].
Example doc_first_regular : regular None doc_first.
Proof.
  regular_tac. apply hosts_other.
  - intros (name & Hn & E). each Hn; discriminate.
  - intros c Hc. each Hc. apply hosts_table. reflexivity.
Qed.
Example C43_first_row_example : exists t l g, regular None doc_first /\ readable_table None "mm" doc_first /\ parse_table o0 doc_first = Ok t /\
    laid_out None false doc_first l g /\ pictures None (table_iter t) g /\
    (forall en gg, reaches None doc_first en gg -> has_nested None en -> no_hole (map snd gg)) /\
    boxes t = [MkBox (Coord 1 1) (Coord 1 1); MkBox (Coord 2 1) (Coord 2 1); MkBox (Coord 1 2) (Coord 1 2); MkBox (Coord 2 2) (Coord 2 2)].
Proof.
  assert (HX : exists t, parse_table o0 doc_first = Ok t) by (eexists; vm_compute; reflexivity). destruct HX as (t & Et).
  assert (Hm : forall en, In en (of_name None "entry" (x_children row_first)) -> attribute None en "morerows" = None).
  { intros en Hen. vm_compute in Hen. each Hen; reflexivity. }
  assert (Hn : forall en, In en (entries_of None [Row "body" sec_first (el "row" [] [el "entry" [] []])]) -> ~ has_nested None en).
  { intros en Hen. vm_compute in Hen. each Hen. intros (n & [] & _). }
  assert (Hi : items None doc_first = [Column (el "colspec" [("colnum", "1")] [])] ++ Row "body" sec_first row_first :: [Row "body" sec_first (el "row" [] [el "entry" [] []])]).
  { reflexivity. }
  destruct (C43_first_row_partial o0 doc_first t _ _ _ _ _ ltac:(intros u H; discriminate) doc_first_regular Et Hi eq_refl Hm Hn) as (l & g & HL & HP).
  exists t, l, g. split; [exact doc_first_regular|]. split; [split; intros f Hf; discriminate|]. split; [exact Et|]. split; [exact HL|]. split; [exact HP|].
  split; [exact (first_row_tight None doc_first _ _ _ _ _ Hi eq_refl Hm Hn)|]. vm_compute in Et; injection Et as <-. vm_compute. reflexivity.
Qed.

(** ** C44: the named columns *)

(** The column [namest] is not always where the entry goes; without [nameend] there is an error. *)
Definition doc_named (attrs : dict string) : xnode :=
  el "table" [] [el "tgroup" [] [el "tbody" [] [el "row" [] [el "entry" attrs []]]]].
Theorem C44_named_column_refuted : exists o e t en, regular (pc_ns o) e /\ parse_table o e = Ok t /\
    entries_of (pc_ns o) (items (pc_ns o) e) = [en] /\ attribute (pc_ns o) en "namest" = Some "c2" /\
    attribute (pc_ns o) en "nameend" = Some "c2" /\ boxes t = [MkBox (Coord 1 1) (Coord 1 1)].
Proof.
  exists o0, (doc_named [("namest", "c2"); ("nameend", "c2")]). do 2 eexists. split; [regular_tac|].
  split; [vm_compute; reflexivity|]. split; [vm_compute; reflexivity|]. repeat (split; [reflexivity|]). reflexivity.
Qed.
Theorem C44_only_namest_refuted : exists o e en, regular (pc_ns o) e /\ entries_of (pc_ns o) (items (pc_ns o) e) = [en] /\
    attribute (pc_ns o) en "namest" = Some "c3" /\ attribute (pc_ns o) en "nameend" = None /\
    parse_table o e = Err EValueError.
Proof.
  exists o0, (doc_named [("namest", "c3")]). eexists. split; [regular_tac|].
  split; [vm_compute; reflexivity|]. repeat (split; [reflexivity|]). vm_compute. reflexivity.
Qed.
(** What holds: in a table without [morerows] whose entries name the columns one after the other (and
    without nested tables), each entry is a cell of the columns it names. *)
Theorem C44_named_columns_partial : forall o e t,
    no_brace (pc_ns o) -> regular (pc_ns o) e -> parse_table o e = Ok t ->
    (forall en, In en (entries_of (pc_ns o) (items (pc_ns o) e)) ->
       attribute (pc_ns o) en "morerows" = None /\ ~ has_nested (pc_ns o) en) ->
    (forall na sec row, In (Row na sec row) (items (pc_ns o) e) -> in_turn (pc_ns o) 1 (of_name (pc_ns o) "entry" (x_children row))) ->
    forall i na sec row en s s' a b,
      nth_error (row_items (items (pc_ns o) e)) i = Some (na, sec, row) -> In en (of_name (pc_ns o) "entry" (x_children row)) ->
      attribute (pc_ns o) en "namest" = Some s -> first_number s a -> attribute (pc_ns o) en "nameend" = Some s' -> first_number s' b ->
      exists c, In c (table_iter t) /\ c_content c = content_of en /\ c_nature c = Some na /\
        c_box c = MkBox (Coord a (Z.of_nat i + 1)) (Coord b (Z.of_nat i + 1)).
Proof.
  intros o e t Hb Hreg E Hen HT i na sec row en s s' a b Hi Hin X1 X2 X3 X4.
  destruct (C55_layout o e t Hb Hreg E) as (l & g & (HL & bb & Hbb & Hf) & HP & _).
  assert (HL' : lays (pc_ns o) false (items (pc_ns o) e) (MkLayout 0 0 0 [] (fun _ _ => None)) l).
  { apply lays_plain; [|exact HL]. intros x Hx. apply Hen, Hx. }
  destruct (lays_turn _ _ _ _ HL' HT) as [_ HE].
  - intros x Hx. apply Hen, Hx.
  - cbn; lia.
  - exists 0. intros x [].
  - pose proof (HE i na sec row en s s' a b Hi Hin X1 X2 X3 X4) as HS. apply (filled_incl _ _ _ _ Hf) in HS.
    destruct (pictures_cell _ _ _ _ HP HS) as (c & Hc & H1 & H2 & H3 & _). exists c. split; [exact Hc|]. split; [exact H1|]. split; [exact H2|].
    rewrite H3. cbn [snd c_box bare l_row]. replace (0 + 1 + Z.of_nat i) with (Z.of_nat i + 1) by lia. reflexivity.
Qed.

(** Example: two entries in turn; the second one is in columns 2 to 4 of row 1. *)
Definition doc_turn : xnode :=
  el "table" [] [el "tgroup" [] [el "tbody" [] [
    el "row" [] [el "entry" [] []; el "entry" [("namest", "c2"); ("nameend", "c4")] []]; el "row" [] [el "entry" [] []]]]].
Example C44_named_columns_example : exists t c, parse_table o0 doc_turn = Ok t /\ In c (table_iter t) /\
    c_box c = MkBox (Coord 2 1) (Coord 4 1).
Proof.
  assert (HX : exists t, parse_table o0 doc_turn = Ok t) by (eexists; vm_compute; reflexivity). destruct HX as (t & Et). exists t.
  assert (H2 : first_number "c2" 2) by (apply first_int_spec; reflexivity). assert (H4 : first_number "c4" 4) by (apply first_int_spec; reflexivity).
  destruct (C44_named_columns_partial o0 doc_turn t ltac:(intros u H; discriminate) ltac:(regular_tac) Et) with
    (i := 0%nat) (na := "body") (sec := el "tbody" [] [el "row" [] [el "entry" [] []; el "entry" [("namest", "c2"); ("nameend", "c4")] []]; el "row" [] [el "entry" [] []]])
    (row := el "row" [] [el "entry" [] []; el "entry" [("namest", "c2"); ("nameend", "c4")] []])
    (en := el "entry" [("namest", "c2"); ("nameend", "c4")] []) (s := "c2") (s' := "c4") (a := 2) (b := 4) as (c & Hc & _ & _ & Eb).
  - intros en Hen. vm_compute in Hen. each Hen; (split; [reflexivity|intros (n & [] & _)]).
  - intros na sec row Hin. vm_compute in Hin. destruct Hin as [Hin|[Hin|[]]].
    + injection Hin as <- <- <-. apply it_plain; [reflexivity|reflexivity|]. eapply it_named; [reflexivity|exact H2|reflexivity|exact H4|lia|constructor].
    + injection Hin as <- <- <-. apply it_plain; [reflexivity|reflexivity|]. constructor.
  - vm_compute. reflexivity.
  - vm_compute. right. left. reflexivity.
  - reflexivity.
  - exact H2.
  - reflexivity.
  - exact H4.
  - exists c. split; [exact Et|]. split; [exact Hc|exact Eb].
Qed.

Print Assumptions C55_layout.
Print Assumptions C55_one_layout.
Print Assumptions C55_succeeds.
Print Assumptions C41_no_hole.
Print Assumptions C41_overlap_refuted.
Print Assumptions C41_no_overlap_partial.
Print Assumptions C54_table_attributes.
Print Assumptions C43_nested_refuted.
Print Assumptions C43_nested_partial.
Print Assumptions C43_nested_read_partial.
Print Assumptions C43_first_row_partial.
Print Assumptions C44_named_column_refuted.
Print Assumptions C44_only_namest_refuted.
Print Assumptions C44_named_columns_partial.
Print Assumptions C55_row_misplaced.
Print Assumptions C55_colspec_misplaced.
