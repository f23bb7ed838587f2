(** * The rows and the columns of a table written and read back *)
From Coq Require Import QArith.
From Verif Require Import Base M_Geometry M_Xml M_Cell M_Grid M_Table M_Str M_Units M_Builder M_Cals M_CalsParser.
From Verif Require Import S_Geometry S_Grid S_Table S_Units S_Builder S_Cals S_Int S_CalsParser S_RoundTrip S_Attrs S_Axes.
From Verif Require Import P_Geometry P_Grid P_GridFacts P_Table P_TableFacts P_TableMore P_Int P_Str P_Builder P_Cals P_CalsParser P_CalsLayout P_CalsTable P_CalsMore P_RoundTrip P_RoundTripAttrs P_Attrs P_RoundTripMain.
From Verif Require Import T_CalsParser.
Open Scope list_scope.
Open Scope Z_scope.

(** ** From the attributes to the styles *)

Lemma valign_back r v : renamed_as valign_names v r -> option_map SStr (valign_of r) = kept_valign v.
Proof.
  destruct v as [v|]; cbn [renamed_as].
  - intros (s & w & -> & Hin & ->). cbn in Hin. repeat (destruct Hin as [E|Hin]; [injection E as <- <-; reflexivity|]). destruct Hin.
  - intros ->. reflexivity.
Qed.
Lemma text_back r v : as_is v r -> option_map SStr (not_empty r) = kept_text v.
Proof.
  destruct v as [v|]; cbn [as_is].
  - intros (s & -> & ->). destruct s; reflexivity.
  - intros ->. reflexivity.
Qed.
Lemma line_back st style d r : line_shown st style d r -> d = "0"%string \/ d = "1"%string ->
  forall w, line_of st style w ->
    match option_map SStr (separator_line r) with Some x => Some x | None => option_map SStr (separator_line (Some d)) end = Some (kept_line w).
Proof.
  intros [H _] Hd w Hw. specialize (H w Hw). unfold kept_line, shown in *. destruct r as [s|]; cbn [effective] in H.
  - subst s. destruct (String.eqb w "none"); reflexivity.
  - subst d. destruct (String.eqb w "none"); reflexivity.
Qed.

Lemma map_some (r : option string) : match r with Some s => Some (SStr s) | None => None end = option_map SStr r.
Proof. destruct r; reflexivity. Qed.

Section Looks.
  Variable ns : option string.
  Variables (unit : string) (fmt : Q -> string).
  Variables cs rs : string.
  Variable t' : table.
  Hypothesis Hcs : cs = "0"%string \/ cs = "1"%string.
  Hypothesis Hrs : rs = "0"%string \/ rs = "1"%string.
  Hypothesis Tcs : dget (t_styles t') "x-cell-border-right" = option_map SStr (separator_line (Some cs)).
  Hypothesis Trs : dget (t_styles t') "x-cell-border-bottom" = option_map SStr (separator_line (Some rs)).

  Lemma right_kept st' st r : line_shown st "border-right" cs r -> dget st' "border-right" = option_map SStr (separator_line r) -> line_kept t' st' st "border-right".
  Proof.
    intros H E. split.
    - intros w Hw. rewrite E. change (String.append "x-cell-" "border-right") with "x-cell-border-right"%string. rewrite Tcs.
      apply (line_back _ _ _ _ H Hcs w Hw).
    - intros Hn. rewrite E. destruct H as [_ H]. rewrite (H Hn). reflexivity.
  Qed.
  Lemma bottom_kept st' st r : line_shown st "border-bottom" rs r -> dget st' "border-bottom" = option_map SStr (separator_line r) -> line_kept t' st' st "border-bottom".
  Proof.
    intros H E. split.
    - intros w Hw. rewrite E. change (String.append "x-cell-" "border-bottom") with "x-cell-border-bottom"%string. rewrite Trs.
      apply (line_back _ _ _ _ H Hrs w Hw).
    - intros Hn. rewrite E. destruct H as [_ H]. rewrite (H Hn). reflexivity.
  Qed.

  Lemma column_back v v' e : column_look ns unit fmt cs rs v e -> has_styles (v_styles v') (column_style ns e) -> column_kept unit fmt t' v' v.
  Proof.
    intros (_ & HW & HA & HA' & HR & HB) H. assert (G : forall k, dget (v_styles v') k = option_map SStr (column_style ns e k)) by (intros k; rewrite H; apply map_some).
    unfold column_kept. cbv zeta. split; [|split; [|split; [|split]]].
    - rewrite G. unfold column_style. cbn [String.eqb Ascii.eqb Bool.eqb]. unfold kept_align. destruct (dget (v_styles v) "align") as [[s| | |]|].
      + destruct (existsb (String.eqb s) ["left"; "right"; "center"; "justify"]%string) eqn:Ex.
        * rewrite (HA s eq_refl). 2:{ apply existsb_exists in Ex as (x & Hx & E). apply String.eqb_eq in E as <-. exact Hx. }
          unfold align_of, one_in. apply existsb_exists in Ex as (x & Hx & E). apply String.eqb_eq in E as <-.
          cbn in Hx. repeat (destruct Hx as [<-|Hx]; [reflexivity|]). destruct Hx.
        * rewrite HA'; [reflexivity|]. intros s' E Hin. injection E as <-. assert (existsb (String.eqb s) ["left"; "right"; "center"; "justify"]%string = true); [|congruence].
          apply existsb_exists. exists s. split; [exact Hin|apply String.eqb_refl].
      + rewrite HA'; [reflexivity|discriminate].
      + rewrite HA'; [reflexivity|discriminate].
      + rewrite HA'; [reflexivity|discriminate].
      + rewrite HA'; [reflexivity|discriminate].
    - exists (attribute ns e "colwidth"). split; [exact HW|]. rewrite G. unfold column_style. cbn [String.eqb Ascii.eqb Bool.eqb].
      destruct (dget (v_styles v) "width") as [w|]; cbn [width_as] in HW; [|rewrite HW; reflexivity].
      destruct HW as (s & num & u & x & p & q & r & _ & _ & _ & _ & Hu & _ & ->). destruct (fmt r); [|reflexivity]. destruct Hu; reflexivity.
    - eapply right_kept; [exact HR|]. rewrite G. reflexivity.
    - eapply bottom_kept; [exact HB|]. rewrite G. reflexivity.
    - intros k Hk. rewrite G. unfold column_style. cbn [In] in Hk.
      destruct (String.eqb_spec k "border-right") as [->|_]; [exfalso; tauto|]. destruct (String.eqb_spec k "border-bottom") as [->|_]; [exfalso; tauto|].
      destruct (String.eqb_spec k "width") as [->|_]; [exfalso; tauto|]. destruct (String.eqb_spec k "align") as [->|_]; [exfalso; tauto|]. reflexivity.
  Qed.

  Lemma row_back bg v v' sec row : row_look ns rs v row -> attribute ns sec "valign" = None ->
    option_map SStr (not_empty (attribute ns row "bgcolor")) = bg (dget (v_styles v) "background-color") ->
    has_styles (v_styles v') (row_style ns sec row) -> row_kept bg t' v' v.
  Proof.
    intros (HV & HB & HS) Hsec Hbg H. assert (G : forall k, dget (v_styles v') k = option_map SStr (row_style ns sec row k)) by (intros k; rewrite H; apply map_some).
    unfold row_kept. cbv zeta. split; [|split; [|split; [|split]]].
    - rewrite G. unfold row_style. cbn [String.eqb Ascii.eqb Bool.eqb]. rewrite Hsec. change (valign_of None) with (None : option string).
      replace (or_else (valign_of (attribute ns row "valign")) None) with (valign_of (attribute ns row "valign")) by (destruct (valign_of _); reflexivity).
      apply valign_back, HV.
    - rewrite G. apply text_back, HS.
    - eapply bottom_kept; [exact HB|]. rewrite G. reflexivity.
    - rewrite G. exact Hbg.
    - intros k Hk. rewrite G. unfold row_style. cbn [In] in Hk.
      destruct (String.eqb_spec k "vertical-align") as [->|_]; [exfalso; tauto|]. destruct (String.eqb_spec k "border-bottom") as [->|_]; [exfalso; tauto|].
      destruct (String.eqb_spec k "background-color") as [->|_]; [exfalso; tauto|]. destruct (String.eqb_spec k "rowstyle") as [->|_]; [exfalso; tauto|]. reflexivity.
  Qed.
End Looks.

(** ** The styles of the columns in a layout *)

Section Layout.
  Variable ns : option string.
  Variable watch : bool.

  Lemma lays_rows_styles its l l' : (forall c, ~ In (Column c) its) -> lays ns watch its l l' -> l_styles l' = l_styles l.
  Proof.
    intros HN HL. induction HL as [l|c its r k n g cs m l' Hm HL IH|na sec row its r k n g cs n1 g1 g2 l' Hp Hn Hf HL IH]; [reflexivity| |].
    - destruct (HN c). left. reflexivity.
    - rewrite IH; [reflexivity|]. intros c Hc. apply (HN c). right. exact Hc.
  Qed.

  Lemma lays_columns_styles its (HN : forall c, ~ In (Column c) its) : forall specs i l l', 1 <= i ->
    Forall2 (describes_column ns) (zrange i (i + Z.of_nat (List.length specs))) specs ->
    (forall j k, i <= j -> l_styles l j k = None) ->
    lays ns watch (map Column specs ++ its) l l' ->
    (forall j k, j < i -> l_styles l' j k = l_styles l j k) /\
    forall a c, nth_error specs a = Some c -> forall k, l_styles l' (i + Z.of_nat a) k = column_style ns c k.
  Proof.
    induction specs as [|e specs IH]; intros i l l' Hi H H0 HL; cbn [List.length map app] in *.
    - rewrite (lays_rows_styles _ _ _ HN HL). split; [reflexivity|]. intros [|a] c Ha; discriminate Ha.
    - rewrite zrange_cons in H by lia. replace (i + Z.of_nat (S (List.length specs))) with (i + 1 + Z.of_nat (List.length specs)) in H by lia.
      inversion H as [|? ? ? ? H1 H2]; subst. inversion HL as [|c its' r k n g cs m l1 Hm HL'|]; subst. cbn [l_styles] in *.
      assert (m = i) as ->.
      { pose proof (number_given ns e i k H1) as Hg. unfold column_number in Hm. destruct H1 as (_ & E & _). rewrite E in Hm.
        unfold column_number in Hg. rewrite E in Hg. destruct (py_str_int i); [congruence|]. exact (int_text_fun _ _ _ Hm Hg). }
      assert (H3 : forall j q, i + 1 <= j -> colstyles_with ns i e cs j q = None).
      { intros j q Hj. unfold colstyles_with. destruct (Z.eqb_spec j i); [lia|]. apply H0. lia. }
      destruct (IH (i + 1) (MkLayout r (k + 1) (Z.max n i) g (colstyles_with ns i e cs)) l' ltac:(lia) H2 H3 HL') as [IH1 IH2].
      cbn [l_styles] in IH1. split.
      + intros j q Hj. rewrite IH1 by lia. unfold colstyles_with. destruct (Z.eqb_spec j i); [lia|reflexivity].
      + intros [|a] c Ha q.
        * injection Ha as <-. replace (i + Z.of_nat 0) with i by lia. rewrite IH1 by lia. unfold colstyles_with. rewrite Z.eqb_refl, H0 by lia.
          destruct (column_style ns e q); reflexivity.
        * cbn [nth_error] in Ha. replace (i + Z.of_nat (S a)) with (i + 1 + Z.of_nat a) by lia. apply IH2, Ha.
  Qed.
End Layout.

Lemma Forall2_nth {A B} (R : A -> B -> Prop) l l' : Forall2 R l l' -> forall i a, nth_error l i = Some a -> exists b, nth_error l' i = Some b /\ R a b.
Proof.
  induction 1 as [|a b l l' HR H IH]; intros [|i] x Hx; try discriminate Hx.
  - injection Hx as <-. exists b. auto.
  - apply IH, Hx.
Qed.


(** ** The parts of a CALS table *)

Section Axes.
  Variable o : cals_opts.

  Definition styled_row (rs : string) (v : view) (row : xnode) : Prop :=
    named (co_ns o) "row" row /\ row_look (co_ns o) rs v row /\ attribute (co_ns o) row "bgcolor" = None.

  Lemma row_styled bb cs rs v items : build_row o bb cs rs v = Ok items -> exists row, of_name (co_ns o) "row" items = [row] /\ styled_row rs v row.
  Proof.
    intros H. unfold build_row in H. bind H as a1 F1. bind H as a2 F2. bind H as start E3. bind H as attrs E4.
    bind H as finish E5. bind H as cells E6. injection H as <-. set (row := XElem (cals o "row") attrs None cells None).
    assert (Hn : named (co_ns o) "row" row) by (unfold named, row; cbn; rewrite <- qname_expanded; reflexivity).
    exists row. split; [|split; [exact Hn|split]].
    - pose proof (marks_spec _ _ _ row E3 E5) as HM. assert (Er : x_has_tag row (expanded (co_ns o) "row") = true).
      { change (has_name (co_ns o) "row" row = true). rewrite (has_name_eq _ "row" row "row" Hn). reflexivity. }
      unfold insertion_marks in HM. destruct (dget (v_styles v) "x-ins").
      + destruct HM as (a & b & _ & _ & _ & -> & _). unfold of_name. cbn [filter x_has_tag]. rewrite Er. reflexivity.
      + rewrite HM. unfold of_name. cbn [filter]. rewrite Er. reflexivity.
    - eapply (row_chain o); [| |exact F2| |exact E4|reflexivity].
      + instantiate (1 := []). reflexivity.
      + exact F1.
      + reflexivity.
    - erewrite (written o); [|exact E4|reflexivity]. rewrite copy_style_get by discriminate. rewrite (sep_attr_get _ _ _ _ _ _ _ "bgcolor" F2) by discriminate.
      destruct (dget (v_styles v) "vertical-align"); [|injection F1 as <-; reflexivity]. bind F1 as sv Fsv. injection F1 as <-.
      rewrite dget_cals1 by discriminate. reflexivity.
  Qed.

  Definition styled_item (rs : string) (v : view) (it : item) : Prop :=
    exists na sec row, it = Row na sec row /\ styled_row rs v row /\ attribute (co_ns o) sec "valign" = None.

  Lemma rows_styled bb cs rs vs : forall items na sec, rmap (build_row o bb cs rs) vs = Ok items -> attribute (co_ns o) sec "valign" = None ->
    Forall2 (styled_item rs) vs (map (Row na sec) (of_name (co_ns o) "row" (List.concat items))).
  Proof.
    intros items na sec H Hs. apply rmap_Forall2 in H. induction H as [|v it vs items Hv H IH]; [constructor|].
    cbn [List.concat]. destruct (row_styled _ _ _ _ _ Hv) as (row & E & HS). unfold of_name in *. rewrite filter_app, E. cbn [app map]. constructor; [|exact IH].
    exists na, sec, row. auto.
  Qed.

  Lemma tag_section n : In (group_tag n) ["thead"; "tfoot"; "tbody"]%string.
  Proof.
    unfold group_tag. destruct n as [n|]; [|cbn; tauto]. destruct (dget GROUP_TAGS n) as [x|] eqn:E; [|cbn; tauto]. apply lookup_in in E. cbn in E.
    repeat (destruct E as [E|E]; [injection E as <- <-; cbn; tauto|]). destruct E.
  Qed.

  Lemma body_styled bb cs rs n vs e : build_tbody o bb cs rs (group_tag n) vs = Ok e -> Forall2 (styled_item rs) vs (part_items (co_ns o) e).
  Proof.
    intros H. unfold build_tbody in H. bind H as items Ei. injection H as <-. set (sec := XElem _ _ _ _ _).
    assert (Hn : named (co_ns o) (group_tag n) sec) by (unfold named, sec; cbn; rewrite <- qname_expanded; reflexivity).
    unfold part_items. rewrite !(has_name_eq _ _ _ _ Hn). change (x_children sec) with (List.concat items).
    destruct (tag_section n) as [<-|[<-|[<-|[]]]]; cbn [String.eqb Ascii.eqb Bool.eqb]; eapply rows_styled; try exact Ei; reflexivity.
  Qed.

  Lemma tree_styled t e : generate_table_tree o t = Ok e ->
    exists cols rows cs rs specs its, table_views Cols t = Ok cols /\ table_views Rows t = Ok rows /\
      table_sep (t_styles t) "x-cell-border-right" = Ok cs /\ table_sep (t_styles t) "x-cell-border-bottom" = Ok rs /\
      items (co_ns o) e = map Column specs ++ its /\
      Forall2 (column_look (co_ns o) (co_unit o) (co_fmt o) cs rs) cols specs /\
      Forall2 (styled_item rs) (List.concat (map snd (sections_of o rows))) its.
  Proof.
    intros H. destruct (generate_attrs _ _ _ H) as (cs & rs & tg & frame & Hch & Hn & _ & _ & Hcs & Hrs & Hat & _).
    unfold generate_table_tree in H. bind H as frame' Ef. bind H as car Ea. destruct car as [[cs0 rs0] a].
    bind H as a1 E1. bind H as a2 E2. bind H as attrs Em. bind H as tg' Et. injection H as <-. cbn [x_children] in Hch. injection Hch as <-.
    unfold build_tgroup in Et. bind Et as cols Ec. bind Et as car Eg. destruct car as [[cs' rs'] ag]. bind Et as attrs' Em'.
    bind Et as specs Es. bind Et as rows Er. bind Et as bodies Eb. injection Et as <-.
    assert (X : cs' = cs /\ rs' = rs).
    { destruct (co_in_tgroup o).
      - rewrite Hcs, Hrs in Eg. cbn [rbind] in Eg. split; congruence.
      - rewrite Hcs, Hrs in Ea. cbn [rbind] in Ea. split; congruence. }
    destruct X as [-> ->]. apply rmap_Forall2 in Es. apply rmap_Forall2 in Eb.
    exists cols, rows, cs, rs, specs, (flat_map (part_items (co_ns o)) bodies). split; [reflexivity|]. split; [reflexivity|]. split; [exact Hcs|]. split; [exact Hrs|].
    assert (HC : Forall2 (column_look (co_ns o) (co_unit o) (co_fmt o) cs rs) cols specs).
    { eapply Forall2_impl_l; [|exact Es]. intros v e _. apply colspec_look. }
    split; [|split; [exact HC|]].
    - unfold items. cbn [x_children]. rewrite of_name_all by (intros x [<-|[]]; exact Hn). cbn [flat_map x_children]. rewrite app_nil_r, flat_map_app. f_equal.
      clear - HC. induction HC as [|v s l specs Hs H IH]; [reflexivity|]. cbn [flat_map map]. rewrite IH.
      unfold part_items. rewrite (has_name_eq _ "colspec" s _ (proj1 (proj1 Hs))). reflexivity.
    - clear - Eb. unfold sections_of. induction Eb as [|[n vs] b sections bodies Hs H IH]; [constructor|]. cbn [map List.concat flat_map snd fst] in *.
      apply Forall2_app; [eapply body_styled, Hs|exact IH].
  Qed.

  Lemma styled_rows rs rows specs its : Forall2 (styled_item rs) rows its ->
    forall i v, nth_error rows i = Some v -> exists na sec row, nth_error (row_items (map Column specs ++ its)) i = Some (na, sec, row) /\
      styled_row rs v row /\ attribute (co_ns o) sec "valign" = None.
  Proof.
    intros H i v Hi. unfold row_items. rewrite flat_map_app.
    assert (E0 : forall l : list xnode, flat_map (fun i => match i with Row na sec row => [(na, sec, row)] | Column _ => [] end) (map Column l) = []) by (induction l; [reflexivity|assumption]).
    rewrite E0. cbn [app]. revert i Hi. induction H as [|w it ws its (na & sec & row & -> & HS & Hv) H IH]; intros [|i] Hi; try discriminate Hi.
    - injection Hi as <-. exists na, sec, row. auto.
    - cbn [flat_map app nth_error] in *. apply IH, Hi.
  Qed.
  Lemma no_columns rs rows its : Forall2 (styled_item rs) rows its -> forall c, ~ In (Column c) its.
  Proof. intros H c Hc. destruct (Forall2_In_r _ _ _ _ H Hc) as (v & _ & na & sec & row & E & _). discriminate E. Qed.

  Variable p : pcals_opts.
  Variable t : table.
  Variable e : xnode.
  Hypothesis HR : treachable t.
  Hypothesis HB : In "body"%string (co_sorting o).
  Hypothesis Ens : co_ns o = pc_ns p.
  Hypothesis Hbrace : no_brace (pc_ns p).
  Hypothesis HG : rows_grouped (co_sorting o) t.
  Hypothesis HP : plain_contents (co_ns o) (table_iter t).
  Hypothesis HE : generate_table_tree o t = Ok e.

  Lemma axes t' : parse_table p e = Ok t' ->
    (forall n j v v', view_count Cols t n -> 1 <= j <= n -> reads Cols j t v -> reads Cols j t' v' -> column_kept (co_unit o) (co_fmt o) t' v' v) /\
    (forall m r v v', view_count Rows t m -> 1 <= r <= m -> reads Rows r t v -> reads Rows r t' v' -> row_kept (fun _ => None) t' v' v).
  Proof.
    intros Et. destruct (tree_styled t e HE) as (cols & rows & cs & rs & specs & its & Ec & Er & Hcs & Hrs & Eit & HC & HI).
    rewrite (sections_stay o t rows HR HB Er HG) in HI.
    assert (Hreg : regular (pc_ns p) e).
    { rewrite <- Ens. destruct (generate_built o t e HR HB HE) as (cols' & rows' & cs' & rs' & Ec' & Er' & HTW & HDS). assert (rows' = rows) as -> by congruence.
      apply (table_regular (co_ns o) _ (built_describes o _ _ _) (table_iter t) _ (sections_of o rows) e HTW HP); [lia|].
      intros s v c Hs Hv Hc. apply (owned_members t rows c HR Er). apply in_flat_map. exists v. split; [|exact Hc].
      rewrite <- (sections_stay o t rows HR HB Er HG). apply in_concat. exists (snd s). split; [apply in_map, Hs|exact Hv]. }
    destruct (C55_layout p e t' Hbrace Hreg Et) as (l & g & (HL & _) & _ & _ & HRows & HCols).
    pose proof (C54_table_attributes p e t' Hreg Et) as (_ & _ & HS & _). rewrite <- Ens in HS, HL, HRows. rewrite Eit in HL, HRows.
    destruct (generate_attrs o t e HE) as (cs' & rs' & HA). destruct (table_separators o t e cs' rs' HA) as [Sc Sr].
    assert (X : cs' = cs /\ rs' = rs) by (destruct HA as (tg & f & _ & _ & _ & _ & H1 & H2 & _); split; congruence). destruct X as [-> ->].
    assert (Tcs : dget (t_styles t') "x-cell-border-right" = option_map SStr (separator_line (Some cs))).
    { rewrite HS by (vm_compute; intuition discriminate). rewrite map_some. unfold table_style. cbn [String.eqb Ascii.eqb Bool.eqb]. rewrite Sc. reflexivity. }
    assert (Trs : dget (t_styles t') "x-cell-border-bottom" = option_map SStr (separator_line (Some rs))).
    { rewrite HS by (vm_compute; intuition discriminate). rewrite map_some. unfold table_style. cbn [String.eqb Ascii.eqb Bool.eqb]. rewrite Sr. reflexivity. }
    apply table_sep_values in Hcs as [Hcs _]. apply table_sep_values in Hrs as [Hrs _].
    destruct (table_views_spec _ _ _ HR Ec) as [Hpos Hcd]. destruct (table_views_spec _ _ _ HR Er) as [_ Hrd]. split.
    - intros n j v v' (vs & Ev & ->) Hj Hv Hv'. assert (vs = cols) as -> by (unfold table_views in Ec; congruence).
      destruct (nth_error cols (Z.to_nat (j - 1))) as [w|] eqn:Ew; [|apply nth_error_None in Ew; lia].
      pose proof (Hcd _ _ Ew) as Hw. replace (Z.of_nat (Z.to_nat (j - 1)) + 1) with j in Hw by lia. assert (w = v) as -> by (unfold reads in Hw, Hv; congruence).
      destruct (Forall2_nth _ _ _ HC _ _ Ew) as (c & Hc & HLk). apply (column_back (co_ns o) (co_unit o) (co_fmt o) cs rs t' Hcs Hrs Tcs Trs v v' c HLk).
      assert (HD : Forall2 (describes_column (co_ns o)) (zrange 1 (1 + Z.of_nat (List.length specs))) specs).
      { rewrite <- (Forall2_len _ _ _ HC), Z.add_comm. apply Forall2_positions; [exact Hpos|]. eapply Forall2_impl_l; [|exact HC]. intros x y _ Hx. apply Hx. }
      destruct (lays_columns_styles (co_ns o) true its (no_columns _ _ _ HI) specs 1 (MkLayout 0 0 0 [] (fun _ _ => None)) l ltac:(lia) HD (fun _ _ _ => eq_refl) HL) as [_ HK].
      destruct (HCols j v' ltac:(lia) Hv') as [_ HX]. intros k. rewrite HX. rewrite <- (HK _ _ Hc k). replace (1 + Z.of_nat (Z.to_nat (j - 1))) with j by lia. reflexivity.
    - intros m r v v' (vs & Ev & ->) Hj Hv Hv'. assert (vs = rows) as -> by (unfold table_views in Er; congruence).
      destruct (nth_error rows (Z.to_nat (r - 1))) as [w|] eqn:Ew; [|apply nth_error_None in Ew; lia].
      pose proof (Hrd _ _ Ew) as Hw. replace (Z.of_nat (Z.to_nat (r - 1)) + 1) with r in Hw by lia. assert (w = v) as -> by (unfold reads in Hw, Hv; congruence).
      destruct (styled_rows _ _ specs _ HI _ _ Ew) as (na & sec & row & En & (_ & HLk & Hbg) & Hsec).
      specialize (HRows r v' ltac:(lia) Hv'). unfold row_attributes in HRows. rewrite En in HRows. destruct HRows as [_ HX].
      apply (row_back (co_ns o) cs rs t' Hcs Hrs Trs (fun _ => None) v v' sec row HLk Hsec); [rewrite Hbg; reflexivity|exact HX].
  Qed.
End Axes.
