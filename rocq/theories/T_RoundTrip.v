(** * Theorems about writing a CALS table and reading it back (C42) *)
From Coq Require Import QArith.
From Verif Require Import Base M_Geometry M_Xml M_Cell M_Grid M_Table M_Str M_Units M_Builder M_Cals M_CalsParser.
From Verif Require Import S_Geometry S_Grid S_Table S_Units S_Builder S_Cals S_Int S_CalsParser S_RoundTrip S_Axes.
From Verif Require Import P_Geometry P_Grid P_GridFacts P_Table P_TableFacts P_TableMore P_Cals P_RoundTrip P_RoundTripMain P_Axes.
From Verif Require Import T_Table T_Cals T_CalsParser.
Open Scope string_scope.
Open Scope list_scope.
Open Scope Z_scope.

(** Full statement: for each table whose cells tile an area, the tree can be read and has the same
    cells at the same place with the same content and nature.

    What holds: this is so if the rows are in the order of the sections and list their cells from left
    to right, if there are no more rows and columns than the cells cover, and if the contents have
    no CALS element.  The nature of a cell is then the one of its row (CALS knows three of them).
    The styles of the cells, the lines between them and the attributes of the table are also kept, as
    far as CALS can write them; so are the styles of the rows and of the columns.  A width is written in the unit of
    the builder, and the background of a row is lost (C42_row_background_refuted). *)
Theorem C42_round_trip_partial : forall o p sorting t n m e,
    treachable t -> cals_sorting sorting = Ok (co_sorting o) ->
    co_ns o = pc_ns p -> no_brace (pc_ns p) -> In (pc_unit p) unit_names ->
    (forall q, exists c, In c (list_ascii_of_string (co_fmt o q)) /\ digit c) ->
    tiles (table_iter t) n m -> view_count Cols t n -> view_count Rows t m ->
    rows_ordered t -> rows_grouped (co_sorting o) t -> plain_contents (co_ns o) (table_iter t) ->
    generate_table_tree o t = Ok e ->
    exists t', parse_table p e = Ok t' /\
      (exists l, Permutation (table_iter t') l /\
         Forall2 (fun c' c => same_cell t c' c /\ cell_styles_kept (c_styles c') (c_styles c) /\ borders_kept t' n m c' c)
           l (table_iter t)) /\
      view_count Cols t' n /\
      (forall r v v', 1 <= r <= m -> reads Rows r t v -> reads Rows r t' v' -> v_nature v' = Some (kept_nature (v_nature v))) /\
      table_kept t' t /\
      (forall j v v', 1 <= j <= n -> reads Cols j t v -> reads Cols j t' v' -> column_kept (co_unit o) (co_fmt o) t' v' v) /\
      (forall r v v', 1 <= r <= m -> reads Rows r t v -> reads Rows r t' v' -> row_kept (fun _ => None) t' v' v).
Proof.
  intros o p sorting t n m e HR HS Ens Hb Hu Hf HT HC HW HO HG HP HE.
  assert (HB : In "body" (co_sorting o)) by (apply (sorting_ok _ _ HS); cbn; tauto).
  destruct (round_trip o p t n m e) as (t' & Et & H1 & H2 & H3 & H4); try assumption.
  destruct (axes o p t e HR HB Ens Hb HG HP HE t' Et) as [HA HA'].
  exists t'. split; [exact Et|]. split; [exact H1|]. split; [exact H2|]. split; [exact H3|]. split; [exact H4|]. split.
  - intros j v v' Hj Hv Hv'. exact (HA n j v v' HC Hj Hv Hv').
  - intros r v v' Hr Hv Hv'. exact (HA' m r v v' HW Hr Hv Hv').
Qed.
(** The rows and the columns of a table whose tree can be read, whatever its cells *)
Theorem C42_rows_columns : forall o p sorting t e t',
    treachable t -> cals_sorting sorting = Ok (co_sorting o) -> co_ns o = pc_ns p -> no_brace (pc_ns p) ->
    rows_grouped (co_sorting o) t -> plain_contents (co_ns o) (table_iter t) ->
    generate_table_tree o t = Ok e -> parse_table p e = Ok t' ->
    (forall n j v v', view_count Cols t n -> 1 <= j <= n -> reads Cols j t v -> reads Cols j t' v' -> column_kept (co_unit o) (co_fmt o) t' v' v) /\
    (forall m r v v', view_count Rows t m -> 1 <= r <= m -> reads Rows r t v -> reads Rows r t' v' -> row_kept (fun _ => None) t' v' v).
Proof.
  intros o p sorting t e t' HR HS Ens Hb HG HP HE HE'.
  assert (HB : In "body" (co_sorting o)) by (apply (sorting_ok _ _ HS); cbn; tauto).
  exact (axes o p t e HR HB Ens Hb HG HP HE t' HE').
Qed.

(** When moreover each cell has the nature of its row and CALS knows it, the cells are the same. *)
Theorem C42_same_cells_partial : forall o p sorting t n m e,
    treachable t -> cals_sorting sorting = Ok (co_sorting o) ->
    co_ns o = pc_ns p -> no_brace (pc_ns p) -> In (pc_unit p) unit_names ->
    (forall q, exists c, In c (list_ascii_of_string (co_fmt o q)) /\ digit c) ->
    tiles (table_iter t) n m -> view_count Cols t n -> view_count Rows t m ->
    rows_ordered t -> rows_grouped (co_sorting o) t -> plain_contents (co_ns o) (table_iter t) ->
    (forall c v, In c (table_iter t) -> reads Rows (cy (bmin (c_box c))) t v ->
       c_nature c = v_nature v /\ In (v_nature v) [Some "header"; Some "footer"; Some "body"]) ->
    generate_table_tree o t = Ok e ->
    exists t', parse_table p e = Ok t' /\
      exists l, Permutation (table_iter t') l /\
         Forall2 (fun c' c => c_box c' = c_box c /\ content_pieces (c_content c') = content_pieces (c_content c) /\ c_nature c' = c_nature c)
           l (table_iter t).
Proof.
  intros o p sorting t n m e HR HS Ens Hb Hu Hf HT HC HW HO HG HP HN HE.
  destruct (C42_round_trip_partial o p sorting t n m e HR HS Ens Hb Hu Hf HT HC HW HO HG HP HE) as (t' & Et & (l & P & F) & _).
  exists t'. split; [exact Et|]. exists l. split; [exact P|].
  assert (K : forall L, (forall c, In c L -> In c (table_iter t)) -> forall l, Forall2 (fun c' c => same_cell t c' c /\ cell_styles_kept (c_styles c') (c_styles c) /\ borders_kept t' n m c' c) l L ->
     Forall2 (fun c' c => c_box c' = c_box c /\ content_pieces (c_content c') = content_pieces (c_content c) /\ c_nature c' = c_nature c) l L).
  { intros L HL l0 F0. induction F0 as [|c' c l0 L ((E1 & E2 & v & Hv & En) & _) F0 IH]; constructor.
    - split; [exact E1|]. split; [exact E2|]. destruct (HN c v (HL c (or_introl eq_refl)) Hv) as [Ec Hin]. rewrite En, Ec.
      destruct Hin as [<-|[<-|[<-|[]]]]; reflexivity.
    - apply IH. intros x Hx. apply HL. right. exact Hx. }
  apply K; auto.
Qed.

(** *** The other cases *)

Definition wo : cals_opts := MkCalsOpts None "mm" false default_sorting (fun _ => "0").
Definition texts (t : table) : list (box * content) := map (fun c => (c_box c, c_content c)) (table_iter t).

Ltac pick i := eexists; split; [apply (nth_error_In _ i); reflexivity|unfold covers; cbn; lia].

(** A nature which is not written, or which is not the one of the row, is lost. *)
Theorem C42_nature_refuted : exists t e t' n m, treachable t /\ tiles (table_iter t) n m /\
    generate_table_tree wo t = Ok e /\ parse_table o0 e = Ok t' /\
    map c_nature (table_iter t) = [None] /\ map c_nature (table_iter t') = [Some "body"].
Proof.
  exists (trun et_start [TReadViews Rows; TInsert Rows 1 (CText "x") None None 1 1]). do 2 eexists. exists 1, 1.
  split; [apply et_reachable|]. split.
  - vm_compute table_iter. split; [lia|]. split; [lia|]. split; [constructor; [unfold valid; cbn; lia|constructor]|].
    split; [constructor; [constructor|constructor]|]. split; [intros c [<-|[]] k; cbn; auto|].
    intros k Hk. eexists. split; [left; reflexivity|exact Hk].
  - split; [vm_compute; reflexivity|]. split; [vm_compute; reflexivity|]. split; vm_compute; reflexivity.
Qed.

(** Rows which are not in the order of the sections change places. *)
Theorem C42_order_refuted : exists t e t' n m, treachable t /\ tiles (table_iter t) n m /\
    generate_table_tree wo t = Ok e /\ parse_table o0 e = Ok t' /\
    texts t = [(MkBox (Coord 1 1) (Coord 1 1), CText "1"); (MkBox (Coord 1 2) (Coord 1 2), CText "2"); (MkBox (Coord 1 3) (Coord 1 3), CText "3")] /\
    texts t' = [(MkBox (Coord 1 1) (Coord 1 1), CList [CText "1"]); (MkBox (Coord 1 2) (Coord 1 2), CList [CText "3"]); (MkBox (Coord 1 3) (Coord 1 3), CList [CText "2"])].
Proof.
  exists (et_sections (Some "header") (Some "body") (Some "footer")). do 2 eexists. exists 1, 3.
  split; [apply et_reachable|]. split.
  - vm_compute table_iter. split; [lia|]. split; [lia|]. split; [repeat (constructor; [unfold valid; cbn; lia|]); constructor|].
    split.
    { repeat (constructor; [repeat (constructor; [intros (k & H1 & H2); unfold covers in *; cbn in *; lia|]); constructor|]). constructor. }
    split; [intros c Hc k; cbn in Hc; destruct Hc as [<-|[<-|[<-|[]]]]; unfold covers; cbn; lia|].
    intros [x y] Hk. unfold covers in *. cbn in Hk.
    assert (HY : y = 1 \/ y = 2 \/ y = 3) by lia. destruct HY as [-> | [-> | ->]]; first [pick 0%nat|pick 1%nat|pick 2%nat].
  - split; [vm_compute; reflexivity|]. split; [vm_compute; reflexivity|]. split; vm_compute; reflexivity.
Qed.

(** A cell which its row lists twice gives two cells. *)
Theorem C42_twice_refuted : exists t e t' n m, treachable t /\ tiles (table_iter t) n m /\
    generate_table_tree wo t = Ok e /\ parse_table o0 e = Ok t' /\ List.length (table_iter t) = 1%nat /\ List.length (table_iter t') = 2%nat.
Proof.
  exists (trun et_start [TSet (PTuple [PInt 1; PInt 1]) (unit_cell (CText "x") None None (Coord 1 1))]). do 2 eexists. exists 1, 1.
  split; [apply et_reachable|]. split.
  - vm_compute table_iter. split; [lia|]. split; [lia|]. split; [constructor; [unfold valid; cbn; lia|constructor]|].
    split; [constructor; [constructor|constructor]|]. split; [intros c [<-|[]] k; cbn; auto|].
    intros k Hk. eexists. split; [left; reflexivity|exact Hk].
  - split; [vm_compute; reflexivity|]. split; [vm_compute; reflexivity|]. split; vm_compute; reflexivity.
Qed.

(** *** Example: a header and a body, a cell on two columns and one on two rows, styles *)
Definition t_ex_styles : styles := [("border-top", SStr "double 2pt"); ("border-bottom", SStr "single"); ("x-cell-border-right", SStr "solid")].
Definition t_ex_start : table := MkTable [] None None t_ex_styles (Some "wide").
Example t_ex_new : table_new [] (Some t_ex_styles) (Some "wide") = Ok t_ex_start.
Proof. reflexivity. Qed.
Definition t_ex : table :=
  trun t_ex_start
    [TReadViews Rows; TSetNature Rows 1 (Some "header"); TSetNature Rows 2 (Some "body"); TSetNature Rows 3 (Some "body");
     TInsert Rows 1 (CText "title") (Some [("align", SStr "center")]) None 3 1;
     TInsert Rows 2 (CList [CText "a"; CNode (XElem "p" [] None [] None)]) (Some [("border-right", SStr "none"); ("vertical-align", SStr "w-both")]) None 1 2;
     TInsert Rows 2 (CText "b") (Some [("border-bottom", SStr "dashed 1pt #00FF00")]) None 1 1;
     TInsert Rows 2 (CText "c") None None 1 1; TInsert Rows 3 (CText "d") None None 2 1].
Example t_ex_reachable : treachable t_ex.
Proof. apply trun_treachable. eapply treach_new. exact t_ex_new. Qed.
Example t_ex_tiles : tiles (table_iter t_ex) 3 3.
Proof.
  vm_compute table_iter. split; [lia|]. split; [lia|]. split; [repeat (constructor; [unfold valid; cbn; lia|]); constructor|].
  split.
  { repeat (constructor; [repeat (constructor; [intros (k & H1 & H2); unfold covers in *; cbn in *; lia|]); constructor|]). constructor. }
  split; [intros c Hc k; cbn in Hc; decompose [or] Hc; subst; try contradiction; unfold covers; cbn; lia|].
  intros [x y] Hk. unfold covers in *. cbn in Hk.
  assert (HY : y = 1 \/ (x = 1 /\ 2 <= y) \/ (x = 2 /\ y = 2) \/ (x = 3 /\ y = 2) \/ (2 <= x /\ y = 3)) by lia.
  destruct HY as [H|[H|[H|[H|H]]]]; first [pick 0%nat|pick 1%nat|pick 2%nat|pick 3%nat|pick 4%nat].
Qed.
Example t_ex_ordered : rows_ordered t_ex.
Proof.
  unfold t_ex. intros p v Hp Hv. eapply (C27_order_row_wise_partial _ _ _ _ p v); [exact t_ex_new| | |exact Hp|exact Hv].
  - repeat (apply Forall_cons; [cbn; auto; lia|]). apply Forall_nil.
  - intros bb ct s na H. clear Hv. cbn in H. repeat (destruct H as [H|H]; [discriminate H|]). destruct H.
Qed.
Example t_ex_counts : view_count Cols t_ex 3 /\ view_count Rows t_ex 3.
Proof. split; eexists; (split; [vm_compute; reflexivity|reflexivity]). Qed.
Example t_ex_grouped : rows_grouped default_sorting t_ex.
Proof.
  intros n p q u v j k Hn Hpq Hq Hu Hv Hj Hk. rewrite (view_count_fun _ _ _ _ Hn (proj2 t_ex_counts)) in Hq.
  apply sorting_key_spec in Hj; [|cbn; tauto]. apply sorting_key_spec in Hk; [|cbn; tauto].
  assert (HP : p = 1 \/ p = 2 \/ p = 3) by lia. assert (HQ : q = 1 \/ q = 2 \/ q = 3) by lia.
  destruct HP as [-> | [-> | ->]], HQ as [-> | [-> | ->]]; try lia; vm_compute in Hu, Hv; injection Hu as <-; injection Hv as <-;
    cbn [v_nature] in Hj, Hk; repeat change (sorting_key default_sorting (Some "header")) with 0 in *;
    repeat change (sorting_key default_sorting (Some "body")) with 2 in *; lia.
Qed.
Example t_ex_plain : plain_contents None (table_iter t_ex).
Proof.
  intros c n Hc Hn. vm_compute in Hc.
  assert (HN : n = XElem "p" [] None [] None).
  { repeat (destruct Hc as [Hc|Hc]; [subst c; cbn in Hn; repeat (destruct Hn as [Hn|Hn]; [congruence|]); destruct Hn|]). destruct Hc. }
  subst n. constructor; [|intros x []]. intros (name & Hin & Hna). vm_compute in Hna. injection Hna as <-.
  cbn in Hin. repeat (destruct Hin as [Hin|Hin]; [discriminate Hin|]). destruct Hin.
Qed.
Example C42_example : exists e t', generate_table_tree wo t_ex = Ok e /\ parse_table o0 e = Ok t' /\ table_kept t' t_ex /\
    map c_box (table_iter t') = [MkBox (Coord 1 1) (Coord 3 1); MkBox (Coord 1 2) (Coord 1 3); MkBox (Coord 2 2) (Coord 2 2);
                                 MkBox (Coord 3 2) (Coord 3 2); MkBox (Coord 2 3) (Coord 3 3)] /\
    map c_nature (table_iter t') = [Some "header"; Some "body"; Some "body"; Some "body"; Some "body"] /\
    t_nature t' = Some "wide".
Proof.
  assert (HX : exists e, generate_table_tree wo t_ex = Ok e) by (eexists; vm_compute; reflexivity). destruct HX as (e & Ee).
  pose proof t_ex_counts as [HC HW].
  destruct (C42_round_trip_partial wo o0 [] t_ex 3 3 e t_ex_reachable eq_refl eq_refl ltac:(intros u H; discriminate) ltac:(vm_compute; tauto)
    ltac:(intros q; exists "0"%char; vm_compute; tauto) t_ex_tiles HC HW t_ex_ordered t_ex_grouped t_ex_plain Ee) as (t' & Et & _ & _ & _ & HK & _).
  exists e, t'. split; [exact Ee|]. split; [exact Et|]. split; [exact HK|]. clear HK.
  vm_compute in Ee. injection Ee as <-. vm_compute in Et. injection Et as <-. split; [vm_compute; reflexivity|]. split; vm_compute; reflexivity.
Qed.

(** *** Example: styles of the rows and the columns *)
Definition t_axes : table :=
  trun t_ex_start
    [TReadViews Rows; TSetNature Rows 1 (Some "header"); TSetNature Rows 2 (Some "body");
     TInsert Rows 1 (CText "a") None None 1 1; TInsert Rows 1 (CText "b") None None 1 1;
     TInsert Rows 2 (CText "c") None None 2 1;
     TSetStyles Rows 1 (Some [("vertical-align", SStr "middle"); ("rowstyle", SStr "r1"); ("background-color", SStr "red"); ("border-bottom", SStr "dashed 1pt #00FF00")]);
     TSetStyles Cols 1 (Some [("align", SStr "right"); ("width", SStr "1cm"); ("border-right", SStr "none")]);
     TSetStyles Cols 2 (Some [("align", SStr "middle"); ("x-other", SStr "z")])].
Definition mm_opts : cals_opts := MkCalsOpts None "mm" false default_sorting (fun _ => "10.00").
Example t_axes_reachable : treachable t_axes.
Proof. apply trun_treachable. eapply treach_new. exact t_ex_new. Qed.
Example t_axes_counts : view_count Cols t_axes 2 /\ view_count Rows t_axes 2.
Proof. split; eexists; (split; [vm_compute; reflexivity|reflexivity]). Qed.
Example t_axes_grouped : rows_grouped default_sorting t_axes.
Proof.
  intros n p q u v j k Hn Hpq Hq Hu Hv Hj Hk. rewrite (view_count_fun _ _ _ _ Hn (proj2 t_axes_counts)) in Hq.
  apply sorting_key_spec in Hj; [|cbn; tauto]. apply sorting_key_spec in Hk; [|cbn; tauto].
  assert (HP : p = 1 \/ p = 2) by lia. assert (HQ : q = 1 \/ q = 2) by lia.
  destruct HP as [-> | ->], HQ as [-> | ->]; try lia; vm_compute in Hu, Hv; injection Hu as <-; injection Hv as <-;
    cbn [v_nature] in Hj, Hk; repeat change (sorting_key default_sorting (Some "header")) with 0 in *;
    repeat change (sorting_key default_sorting (Some "body")) with 2 in *; lia.
Qed.
Example t_axes_plain : plain_contents None (table_iter t_axes).
Proof.
  intros c n Hc Hn. vm_compute in Hc. repeat (destruct Hc as [Hc|Hc]; [subst c; cbn in Hn; repeat (destruct Hn as [Hn|Hn]; [congruence|]); destruct Hn|]). destruct Hc.
Qed.
Example C42_axes_example : exists e t' c1 c2 r1, generate_table_tree mm_opts t_axes = Ok e /\ parse_table o0 e = Ok t' /\
    reads Cols 1 t' c1 /\ reads Cols 2 t' c2 /\ reads Rows 1 t' r1 /\
    (exists v, reads Cols 1 t_axes v /\ column_kept "mm" (fun _ => "10.00") t' c1 v) /\ (exists v, reads Rows 1 t_axes v /\ row_kept (fun _ => None) t' r1 v) /\
    map (dget (v_styles c1)) ["align"; "width"; "border-right"] = [Some (SStr "right"); Some (SStr "10.00mm"); Some (SStr "none")] /\
    v_styles c2 = [] /\
    map (dget (v_styles r1)) ["vertical-align"; "rowstyle"; "border-bottom"; "background-color"] = [Some (SStr "middle"); Some (SStr "r1"); Some (SStr "solid 1pt black"); None].
Proof.
  assert (HX : exists e, generate_table_tree mm_opts t_axes = Ok e) by (eexists; vm_compute; reflexivity). destruct HX as (e & Ee).
  assert (HX : exists t', parse_table o0 e = Ok t') by (vm_compute in Ee; injection Ee as <-; eexists; vm_compute; reflexivity). destruct HX as (t' & Et).
  destruct (C42_rows_columns mm_opts o0 [] t_axes e t' t_axes_reachable eq_refl eq_refl ltac:(intros u H; discriminate) t_axes_grouped t_axes_plain Ee Et) as [HC HW].
  assert (HX : (exists v, reads Cols 1 t' v) /\ (exists v, reads Cols 2 t' v) /\ (exists v, reads Rows 1 t' v) /\ (exists v, reads Cols 1 t_axes v) /\ (exists v, reads Rows 1 t_axes v)).
  { clear HC HW. vm_compute in Ee. injection Ee as <-. vm_compute in Et. injection Et as <-. repeat (split; [eexists; vm_compute; reflexivity|]). eexists; vm_compute; reflexivity. }
  destruct HX as ((c1 & H1) & (c2 & H2) & (r1 & H3) & (v1 & H4) & (v2 & H5)).
  exists e, t', c1, c2, r1. split; [exact Ee|]. split; [exact Et|]. split; [exact H1|]. split; [exact H2|]. split; [exact H3|].
  split; [exists v1; split; [exact H4|exact (HC 2 1 v1 c1 (proj1 t_axes_counts) ltac:(lia) H4 H1)]|].
  split; [exists v2; split; [exact H5|exact (HW 2 1 v2 r1 (proj2 t_axes_counts) ltac:(lia) H5 H3)]|].
  clear HC HW H4 H5. vm_compute in Ee. injection Ee as <-. vm_compute in Et. injection Et as <-. vm_compute in H1, H2, H3. injection H1 as <-. injection H2 as <-. injection H3 as <-.
  split; [vm_compute; reflexivity|]. split; vm_compute; reflexivity.
Qed.
(** The background of a row is not written. *)
Theorem C42_row_background_refuted : exists t e t' v v', treachable t /\ generate_table_tree mm_opts t = Ok e /\ parse_table o0 e = Ok t' /\
    reads Rows 1 t v /\ reads Rows 1 t' v' /\ dget (v_styles v) "background-color" = Some (SStr "red") /\ dget (v_styles v') "background-color" = None.
Proof.
  exists t_axes. do 4 eexists. split; [exact t_axes_reachable|]. split; [vm_compute; reflexivity|]. split; [vm_compute; reflexivity|].
  split; [vm_compute; reflexivity|]. split; [vm_compute; reflexivity|]. split; reflexivity.
Qed.

Print Assumptions C42_round_trip_partial.
Print Assumptions C42_rows_columns.
Print Assumptions C42_row_background_refuted.
Print Assumptions C42_same_cells_partial.
Print Assumptions C42_nature_refuted.
Print Assumptions C42_order_refuted.
Print Assumptions C42_twice_refuted.
