(** * Theorems about CALS tables which are read and written again (C96) *)
From Coq Require Import QArith Permutation.
From Verif Require Import Base M_Geometry M_Xml M_Cell M_Grid M_Table M_Str M_Units M_Builder M_Cals M_CalsParser M_Ooxml M_Convert.
From Verif Require Import S_Geometry S_Grid S_Table S_Units S_Builder S_Cals S_Int S_CalsParser S_RoundTrip S_Convert S_Again.
From Verif Require Import P_Table P_TableFacts P_TableMore P_Cals P_CalsParser P_CalsTable P_RoundTrip P_RoundTripMain P_Parsed P_Formex.
From Verif Require P_FormexEvents S_Ooxml S_ConvertWord T_Ooxml.
From Verif Require Import T_Table T_Cals T_CalsParser T_RoundTrip T_Convert T_ConvertBack T_Options T_Through.
Open Scope string_scope.
Open Scope list_scope.
Open Scope Z_scope.

(** ** The rows of a tree with their sections *)

Definition row_of (ns : option string) (v : view) (x : xnode * xnode) : Prop :=
  named ns (section_of (v_nature v)) (fst x) /\ Forall2 (describes_cell ns) (v_owned v) (x_children (snd x)).
Lemma named_tag ns name e : named ns name e -> x_has_tag e (expanded ns name) = true.
Proof. apply tag_has. Qed.
Lemma items_rows ns sec vs items : (forall v, In v vs -> named ns (section_of (v_nature v)) sec) -> Forall2 (row_with (describes_cell ns) ns) vs items ->
  Forall2 (row_of ns) vs (map (fun r => (sec, r)) (filter (fun e => x_has_tag e (expanded ns "row")) (List.concat items))).
Proof.
  intros Hn F. revert Hn. induction F as [|v its vs items Hv F IH]; intros Hn; [constructor|]. cbn [List.concat]. rewrite filter_app, map_app.
  destruct Hv as (row & Hr & _ & _ & Ho & Hi). pose proof (named_tag _ _ _ Hr) as Ht.
  assert (E : filter (fun e => x_has_tag e (expanded ns "row")) its = [row]).
  { destruct (dget (v_styles v) "x-ins"); [destruct Hi as (a & b & ->)|subst its]; cbn [filter x_has_tag x_tag]; rewrite ?Ht; reflexivity. }
  rewrite E. cbn [map app]. constructor; [split; [apply Hn; left; reflexivity|exact Ho]|]. apply IH. intros w Hw. apply Hn. right. exact Hw.
Qed.
Lemma other_tag ns a b e : named ns a e -> a <> b -> x_has_tag e (expanded ns b) = false.
Proof.
  intros Ha Hab. destruct e as [tg at0 tx ch tl| |]; try reflexivity. injection Ha as ->. cbn [x_has_tag]. apply String.eqb_neq. intros E. apply P_FormexEvents.expanded_inj in E. congruence.
Qed.
Lemma table_rows ns n sections e : S_Cals.describes_table ns n sections e -> Forall2 (row_of ns) (List.concat (map snd sections)) (rows_in_sections ns e) /\
  exists tg, x_children e = [tg] /\ attribute ns tg "cols" = Some (py_str_int n) /\ List.length (children_named (expanded ns "colspec") [tg]) = List.length (zrange 1 (n + 1)).
Proof.
  intros (_ & tg & specs & bodies & Ech & Htg & Hc & Et & FC & FS). split.
  - unfold rows_in_sections. unfold children_named at 2. cbn [flat_map]. rewrite app_nil_r, Ech. cbn [filter]. rewrite (named_tag _ _ _ Htg). cbn [flat_map]. rewrite app_nil_r, Et, flat_map_app.
    replace (flat_map _ specs) with (@nil (xnode * xnode)).
    2:{ clear - FC. induction FC as [|i x l xs (_ & _ & _ & Hx & _) F IH]; [reflexivity|]. cbn [flat_map]. rewrite <- IH. unfold children_named. cbn [flat_map]. rewrite Hx. reflexivity. }
    cbn [app]. clear - FS. induction FS as [|[na vs] b secs bodies (Hn & _ & _ & _ & Hv & items & HF & Hi) F IH]; [constructor|]. cbn [map List.concat flat_map snd].
    apply Forall2_app; [|exact IH]. unfold children_named. cbn [flat_map]. rewrite app_nil_r, Hi. apply items_rows; [|exact HF]. intros v Hin. rewrite (Hv v Hin). exact Hn.
  - exists tg. split; [exact Ech|]. split; [exact Hc|]. unfold children_named. cbn [flat_map]. rewrite app_nil_r, Et, filter_app, app_length.
    replace (filter _ bodies) with (@nil xnode).
    2:{ clear - FS. induction FS as [|[na vs] b secs bodies (Hn & _) F IH]; [reflexivity|]. cbn [filter]. rewrite <- IH. rewrite (other_tag _ _ "colspec" _ Hn); [reflexivity|].
        cbn [fst]. unfold section_of. destruct na as [s|]; [destruct (String.eqb s "header"); [|destruct (String.eqb s "footer")]|]; discriminate. }
    cbn [List.length]. rewrite Nat.add_0_r. clear - FC. induction FC as [|i x l xs (Hx & _) F IH]; [reflexivity|]. cbn [filter]. rewrite (named_tag _ _ _ Hx). cbn [List.length]. rewrite IH. reflexivity.
Qed.
Lemma entry_same ns' ns c' c x y : c_box c' = c_box c -> content_pieces (c_content c') = content_pieces (c_content c) ->
  describes_cell ns' c' x -> describes_cell ns c y -> same_entry ns' ns x y.
Proof.
  intros Hb Hp (T1 & _ & P1 & E1) (T2 & _ & P2 & E2). split; [exact T1|]. split; [exact T2|]. split; [|congruence].
  rewrite Hb in P1. destruct (c_box c) as [[x1 y1] [x2 y2]]. destruct P1 as (A1 & A2 & A3 & A4), P2 as (B1 & B2 & B3 & B4).
  intros k [<-|[<-|[<-|[]]]].
  - destruct (Z_lt_le_dec x1 x2) as [H|H]; [destruct (A1 H), (B1 H)|destruct (A2 H), (B2 H)]; congruence.
  - destruct (Z_lt_le_dec x1 x2) as [H|H]; [destruct (A1 H), (B1 H)|destruct (A2 H), (B2 H)]; congruence.
  - destruct (Z_lt_le_dec y1 y2) as [H|H]; [rewrite (A3 H), (B3 H)|rewrite (A4 H), (B4 H)]; reflexivity.
Qed.
Lemma kept_section n : section_of (Some (kept_nature n)) = section_of n.
Proof.
  destruct n as [s|]; [|reflexivity]. unfold section_of, kept_nature. destruct (String.eqb s "header") eqn:E1; [reflexivity|].
  destruct (String.eqb s "footer") eqn:E2; reflexivity.
Qed.

(** ** The rows of two tables *)

Definition paired (t' t : table) (m : Z) (v' v : view) : Prop := exists r, 1 <= r <= m /\ reads Rows r t' v' /\ reads Rows r t v.
Lemma rows_paired t' t m l2 l3 : (forall i v, nth_error l2 i = Some v -> reads Rows (Z.of_nat i + 1) t' v) ->
  (forall i v, nth_error l3 i = Some v -> reads Rows (Z.of_nat i + 1) t v) -> Z.of_nat (List.length l2) = m -> Z.of_nat (List.length l3) = m -> Forall2 (paired t' t m) l2 l3.
Proof.
  intros H2 H3 L2 L3.
  assert (X : forall i l3 l2, (forall j v, nth_error l2 j = Some v -> reads Rows (Z.of_nat (i + j) + 1) t' v) ->
        (forall j v, nth_error l3 j = Some v -> reads Rows (Z.of_nat (i + j) + 1) t v) ->
        List.length l2 = List.length l3 -> Z.of_nat (i + List.length l3) <= m -> Forall2 (paired t' t m) l2 l3).
  { clear. intros i l3. revert i. induction l3 as [|v l3 IH]; intros i l2 H2 H3 El Hm; destruct l2 as [|v2 l2]; try discriminate El; constructor.
    - exists (Z.of_nat i + 1). cbn [List.length] in Hm. split; [lia|]. split; [specialize (H2 0%nat v2 eq_refl)|specialize (H3 0%nat v eq_refl)]; rewrite Nat.add_0_r in *; assumption.
    - apply (IH (S i)); [| |injection El as El; exact El|cbn [List.length] in Hm; lia].
      + intros j w Hj. replace (S i + j)%nat with (i + S j)%nat by lia. apply H2. exact Hj.
      + intros j w Hj. replace (S i + j)%nat with (i + S j)%nat by lia. apply H3. exact Hj. }
  apply (X 0%nat); [exact H2|exact H3|lia|cbn; lia].
Qed.

(** A table is written in CALS, read and written again, perhaps with other options: the second tree has the same
    number of columns, and the same rows in sections of the same names, with the same entries. *)
Theorem C96_again : forall o p o' t n m e t' e',
    well_read t n m -> In "body" (co_sorting o) -> co_ns o = pc_ns p -> no_brace (pc_ns p) -> In (pc_unit p) unit_names ->
    (forall q, exists c, In c (list_ascii_of_string (co_fmt o q)) /\ digit c) ->
    rows_grouped (co_sorting o) t -> plain_contents (co_ns o) (table_iter t) ->
    In "body" (co_sorting o') -> kept_grouped (co_sorting o') t ->
    generate_table_tree o t = Ok e -> parse_table p e = Ok t' -> generate_table_tree o' t' = Ok e' ->
    Z.of_nat (List.length (rows_in_sections (co_ns o) e)) = m /\ same_columns (co_ns o') (co_ns o) n e' e /\
    Forall2 (same_row (co_ns o') (co_ns o)) (rows_in_sections (co_ns o') e') (rows_in_sections (co_ns o) e).
Proof.
  intros o p o' t n m e t' e' HWR HB Ens Hb Hu Hf HG HP HB' HG' HE Ep E'.
  destruct (through_cals o p t n m e t' HWR HB Ens Hb Hu Hf HG HP HE Ep) as (HWR' & (lk & Pk & Fk) & HK & _ & _).
  destruct HWR as [HR HO HT HC HW], HWR' as [HR' HO' HT' HC' HW'].
  destruct (generate_spec o' t' e' HR' HB' E') as (cols2 & rows2 & Ec2 & Er2 & HD2). destruct (generate_spec o t e HR HB HE) as (cols3 & rows3 & Ec3 & Er3 & HD3).
  destruct (table_views_spec _ _ _ HR' Er2) as [_ Hr2]. destruct (table_views_spec _ _ _ HR Er3) as [_ Hr3].
  assert (L2 : Z.of_nat (List.length rows2) = m) by (destruct HW' as (vs & Ev & ->); unfold table_views in Er2; congruence).
  assert (L3 : Z.of_nat (List.length rows3) = m) by (destruct HW as (vs & Ev & ->); unfold table_views in Er3; congruence).
  assert (N2 : Z.of_nat (List.length cols2) = n) by (destruct HC' as (vs & Ev & ->); unfold table_views in Ec2; congruence).
  assert (N3 : Z.of_nat (List.length cols3) = n) by (destruct HC as (vs & Ev & ->); unfold table_views in Ec3; congruence).
  rewrite N2 in HD2. rewrite N3 in HD3.
  assert (HGt' : rows_grouped (co_sorting o') t').
  { intros n0 q1 q2 u' v' j k Hn0 Hp Hq Hu' Hv' Hj Hk. rewrite (view_count_fun _ _ _ _ Hn0 HW') in Hq. clear n0 Hn0.
    assert (X : forall r, 1 <= r <= m -> exists v, reads Rows r t v).
    { intros r Hr. destruct (nth_error rows3 (Z.to_nat (r - 1))) as [v|] eqn:Ev; [|apply nth_error_None in Ev; lia]. exists v. specialize (Hr3 _ _ Ev). rewrite Z2Nat.id in Hr3 by lia. replace (r - 1 + 1) with r in Hr3 by lia. exact Hr3. }
    destruct (X q1 ltac:(lia)) as (u & Hu0). destruct (X q2 ltac:(lia)) as (v & Hv0).
    rewrite (HK q1 u u' ltac:(lia) Hu0 Hu') in Hj. rewrite (HK q2 v v' ltac:(lia) Hv0 Hv') in Hk. exact (HG' m q1 q2 u v j k HW Hp Hq Hu0 Hv0 Hj Hk). }
  apply table_rows in HD2 as (F2 & tg2 & C2). apply table_rows in HD3 as (F3 & tg3 & C3).
  rewrite (sections_stay o' t' rows2 HR' HB' Er2 HGt') in F2. rewrite (sections_stay o t rows3 HR HB Er3 HG) in F3.
  split; [rewrite <- (Forall2_len _ _ _ F3); exact L3|].
  assert (LZ : List.length (zrange 1 (n + 1)) = Z.to_nat n) by (unfold zrange; rewrite map_length, seq_length; f_equal; lia). rewrite LZ in C2, C3.
  split; [exists tg2, tg3; tauto|].
  refine (Forall2_join (paired t' t m) (row_of _) (row_of _) (same_row _ _) rows2 rows3 _ _ _ (rows_paired _ _ _ _ _ Hr2 Hr3 L2 L3) F2 F3).
  intros v' v x y _ _ (r & Hrm & Hv' & Hv) (X1 & X2) (Y1 & Y2). rewrite (HK r v v' Hrm Hv Hv'), kept_section in X1. split.
  - exists (section_of (v_nature v)). split; [|split; assumption]. unfold section_of. destruct (v_nature v) as [s|]; [destruct (String.eqb s "header"); [|destruct (String.eqb s "footer")]|]; cbn; tauto.
  - destruct (view_membership Rows r t' v' HR' ltac:(lia) Hv') as (_ & M' & _). destruct (view_membership Rows r t v HR ltac:(lia) Hv) as (_ & M & _).
    destruct (Forall2_in_both _ _ _ Fk) as [Fl Fr].
    refine (Forall2_join (fun c' c => same_cell t c' c /\ cell_styles_kept (c_styles c') (c_styles c)) (describes_cell _) (describes_cell _) (same_entry _ _) (v_owned v') (v_owned v) _ _ _ _ X2 Y2).
    + intros c' c x' y' _ _ ((K1 & K2 & _) & _). apply entry_same; assumption.
    + apply sorted_places; [intros a b H; apply H|exact (HO' r v' ltac:(lia) Hv')|exact (HO r v ltac:(lia) Hv)| |].
      * intros a Ha. apply M' in Ha as [Ha Hs]. apply (Permutation_in _ Pk) in Ha. destruct (Fl a Ha) as (b & Hb' & Kab). exists b. split; [|exact Kab].
        apply M. split; [exact Hb'|]. cbn [starts_at] in *. rewrite <- (proj1 (proj1 Kab)). exact Hs.
      * intros b Hb'. apply M in Hb' as [Hb' Hs]. destruct (Fr b Hb') as (a & Ha & Kab). exists a. split; [|exact Kab].
        apply M'. split; [apply (Permutation_in _ (Permutation_sym Pk)), Ha|]. cbn [starts_at] in *. rewrite (proj1 (proj1 Kab)). exact Hs.
Qed.

(** A Word table converted to CALS, and the result read and written again with the options [kw2] *)
Theorem C96_word : forall kw1 kw2 ox sect tbl cols trs rows e1 t' o' e2, let ns := cals_space kw1 in
    S_Ooxml.word_table tbl cols trs -> Forall2 S_Ooxml.row_reads trs rows -> S_Ooxml.regular rows -> S_ConvertWord.word_rectangle cols rows ->
    (forall ct na b n, S_Ooxml.displayed (Z.of_nat (List.length cols)) rows ct na b -> In (Node n) (content_pieces ct) -> foreign ns n) ->
    natures_grouped (order_of kw1) (S_ConvertWord.word_nature rows) (Z.of_nat (List.length rows)) ->
    natures_grouped (order_of kw2) (fun r => Some (kept_nature (S_ConvertWord.word_nature rows r))) (Z.of_nat (List.length rows)) ->
    cals_space kw2 = ns -> no_brace ns -> In (unit_of kw2) unit_names -> (forall q, exists c, In c (list_ascii_of_string (kw_fmt kw1 q)) /\ digit c) ->
    ooxml2cals kw1 ox sect tbl = Ok e1 -> parse_table (cals_parser kw2) e1 = Ok t' -> cals_builder kw2 = Ok o' -> generate_table_tree o' t' = Ok e2 ->
    List.length (rows_in_sections ns e1) = List.length rows /\ same_columns ns ns (Z.of_nat (List.length cols)) e2 e1 /\
    Forall2 (same_row ns ns) (rows_in_sections ns e2) (rows_in_sections ns e1).
Proof.
  intros kw1 kw2 ox sect tbl cols trs rows e1 t' o' e2 ns HW HF HR (Hc & Hr & Hwid) HP HG HG2 Hns Hb Hu Hf H1 Et' Eo' H2.
  unfold ooxml2cals in H1. bind H1 as o Eo. bind H1 as t Et.
  pose proof (word_well_read _ _ _ _ _ _ _ HW HF HR Hwid Hc Hr Et) as HWR.
  pose proof (word_natures _ _ _ _ _ _ _ HW HF HR Et) as HN. pose proof (T_Ooxml.C49_layout _ _ _ _ _ _ _ HW HF HR Et) as HL.
  destruct (builder_of kw1 o Eo) as [Hcn Hs]. rewrite cals_builder_space in Hcn. fold ns in Hcn. destruct (cals_builder_unit kw1 o Eo) as [_ Ef]. rewrite <- Ef in Hf.
  destruct (builder_of kw2 o' Eo') as [Hcn' Hs']. rewrite cals_builder_space, Hns in Hcn'.
  assert (HGt : rows_grouped (co_sorting o) t).
  { intros n q1 q2 u v j k Hn Hp Hq Hu' Hv Hj Hk. rewrite (view_count_fun _ _ _ _ Hn (wr_rows _ _ _ HWR)) in Hq.
    rewrite (HN q1 u ltac:(lia) Hu') in Hj. rewrite (HN q2 v ltac:(lia) Hv) in Hk. rewrite (sorting_order _ _ Hs) in Hj, Hk. exact (HG q1 q2 j k Hp Hq Hj Hk). }
  assert (HGk : kept_grouped (co_sorting o') t).
  { intros n q1 q2 u v j k Hn Hp Hq Hu' Hv Hj Hk. rewrite (view_count_fun _ _ _ _ Hn (wr_rows _ _ _ HWR)) in Hq.
    rewrite (HN q1 u ltac:(lia) Hu') in Hj. rewrite (HN q2 v ltac:(lia) Hv) in Hk. rewrite (sorting_order _ _ Hs') in Hj, Hk. exact (HG2 q1 q2 j k Hp Hq Hj Hk). }
  assert (HPt : plain_contents (co_ns o) (table_iter t)).
  { rewrite Hcn. intros c n Hin Hn. apply (HP (c_content c) (c_nature c) (c_box c)); [|exact Hn]. apply HL. exists (c_styles c). destruct c; exact Hin. }
  destruct (C96_again o (cals_parser kw2) o' t (Z.of_nat (List.length cols)) (Z.of_nat (List.length rows)) e1 t' e2) as (L & C & F); try assumption.
  - apply (sorting_ok _ _ Hs). cbn; tauto.
  - rewrite cals_parser_space, Hns. exact Hcn.
  - rewrite cals_parser_space, Hns. exact Hb.
  - apply (sorting_ok _ _ Hs'). cbn; tauto.
  - rewrite Hcn in *. rewrite Hcn' in *. split; [lia|]. split; assumption.
Qed.

(** The Word table of C49: the hypotheses hold, and the second tree is the first one. *)
Example C96_word_ex : exists e1 t' o' e2, let ox := T_Ooxml.opts (Some T_Ooxml.ex_sheet) in
    S_ConvertWord.word_rectangle ex_cols T_Ooxml.ex_rows /\
    (forall ct na b n, S_Ooxml.displayed (Z.of_nat (List.length ex_cols)) T_Ooxml.ex_rows ct na b -> In (Node n) (content_pieces ct) -> foreign None n) /\
    natures_grouped (order_of kw0) (S_ConvertWord.word_nature T_Ooxml.ex_rows) 3 /\
    natures_grouped (order_of kw_conv) (fun r => Some (kept_nature (S_ConvertWord.word_nature T_Ooxml.ex_rows r))) 3 /\ cals_space kw_conv = cals_space kw0 /\
    ooxml2cals kw0 ox None T_Ooxml.ex_tbl = Ok e1 /\ parse_table (cals_parser kw_conv) e1 = Ok t' /\ cals_builder kw_conv = Ok o' /\ generate_table_tree o' t' = Ok e2 /\
    map (fun x => (x_tag (fst x), map (fun y => (attribute None y "namest", attribute None y "morerows", elem_pieces y)) (x_children (snd x)))) (rows_in_sections None e2) =
    [(Some "thead", [(Some "c1", None, [Node (T_Ooxml.text_p "a")]); (None, Some "1", [Node (T_Ooxml.text_p "b")])]);
     (Some "tbody", [(None, None, [Node (T_Ooxml.text_p "c")]); (None, None, [Node (T_Ooxml.text_p "d")])]);
     (Some "tbody", [(None, None, [Node (T_Ooxml.text_p "e")]); (None, None, []); (None, None, [])])] /\ e2 = e1.
Proof.
  do 4 eexists. cbn zeta. split; [split; [discriminate|]; split; [discriminate|]; repeat (apply Forall_cons; [vm_compute; discriminate|]); apply Forall_nil|].
  split; [apply ex_nodes; intros s; constructor; [word_names|]; intros c [<-|[]]; constructor; [word_names|intros ? []]|].
  split; [apply grouped_check; [cbn; tauto|vm_compute; reflexivity]|]. split; [apply grouped_check; [cbn; tauto|vm_compute; reflexivity]|].
  split; [reflexivity|]. split; [vm_compute; reflexivity|]. split; [vm_compute; reflexivity|]. split; [vm_compute; reflexivity|]. split; [vm_compute; reflexivity|]. split; [vm_compute; reflexivity|reflexivity].
Qed.
Print Assumptions C96_again.
Print Assumptions C96_word.
