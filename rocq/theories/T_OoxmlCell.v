(** * C56: the styles of the cells and of the rows of Word tables *)
From Coq Require Import QArith.
From Verif Require Import Base M_Geometry M_Xml M_Cell M_Grid M_Table M_Str M_CalsParser M_Ooxml.
From Verif Require Import S_Geometry S_Grid S_Table S_Int S_Cell S_CalsParser S_Ooxml S_OoxmlStyle.
From Verif Require Import P_Geometry P_Grid P_GridFacts P_TableFacts P_TableMore P_Int P_Cals P_CalsParser P_CalsLayout P_OoxmlPath P_OoxmlRegions P_OoxmlLayout P_OoxmlRun P_OoxmlTable P_OoxmlStyle P_OoxmlCell T_Ooxml.
Open Scope string_scope.
Open Scope list_scope.
Open Scope Z_scope.

(** The cell which starts at the place of a Word cell has the styles of this cell: its background, its
    alignments, its borders, and the mark of the cells without text. *)
Theorem C56_cells : forall o sect tbl cols trs rows t,
    word_table tbl cols trs -> Forall2 row_reads trs rows -> regular rows -> ox_parse_table o sect tbl = Ok t ->
    forall r row c d, row_at rows r row -> In c (wr_slots row) -> sl_continues c = false ->
    In d (table_iter t) -> bmin (c_box d) = Coord (sl_start c) r ->
    forall k v, In k CELL_STYLES -> (dget (c_styles d) k = Some v <-> cell_style o (sl_cell c) k v).
Proof.
  intros o sect tbl cols trs rows t HW HF HR H r row c d Hr Hc Hk Hd Hb k v Hin.
  destruct (word_read _ _ _ _ _ _ _ HW HF HR H) as (st & sts & cw & _ & _ & _ & _ & _ & HD).
  pose proof (rows_sound _ _ HF HR) as (HN & _).
  assert (Hneat : neat row). { destruct Hr as [_ Hr]. apply nth_error_In in Hr. rewrite Forall_forall in HN. exact (HN _ Hr). }
  assert (Hdis : displayed (Z.of_nat (List.length cols)) rows (c_content d) (c_nature d) (c_box d)).
  { apply (rd_cells _ _ _ _ _ _ HD). exists (c_styles d). rewrite <- cell_eta. exact Hd. }
  destruct (rd_looks _ _ _ _ _ _ HD d Hd) as [[Hn Hs]|(r' & row' & c' & Hr' & Hc' & Hk' & Hb' & Hl)].
  - exfalso. revert Hn Hb. destruct Hdis as [|r2 row2 x Hr2 Hx]; intros Hn Hb; [discriminate|]. cbn in Hb. injection Hb as -> ->.
    assert (row2 = row) by (eapply row_at_fun; eauto). subst row2. pose proof (tiled_in _ _ _ Hneat Hc). unfold row_width, total in *. lia.
  - rewrite Hb in Hb'. injection Hb' as Es ->. assert (row' = row) by (eapply row_at_fun; eauto). subst row'.
    assert (c' = c) by (apply (neat_same row); auto). subst c'. apply tc_styles_spec; assumption.
Qed.
(** The cells which complete the rows have no style. *)
Theorem C56_completed : forall o sect tbl cols trs rows t,
    word_table tbl cols trs -> Forall2 row_reads trs rows -> regular rows -> ox_parse_table o sect tbl = Ok t ->
    forall r row d, row_at rows r row -> In d (table_iter t) ->
    cy (bmin (c_box d)) = r -> row_width row < cx (bmin (c_box d)) -> c_content d = CNone /\ c_styles d = [].
Proof.
  intros o sect tbl cols trs rows t HW HF HR H r row d Hr Hd Hy Hx.
  destruct (word_read _ _ _ _ _ _ _ HW HF HR H) as (st & sts & cw & _ & _ & _ & _ & _ & HD).
  pose proof (rows_sound _ _ HF HR) as (HN & _).
  destruct (rd_looks _ _ _ _ _ _ HD d Hd) as [Hn|(r' & row' & c' & Hr' & Hc' & Hk' & Hb' & Hl)]; [exact Hn|exfalso].
  rewrite Hb' in Hx, Hy. cbn in Hx, Hy. subst r'. assert (row' = row) by (eapply row_at_fun; eauto). subst row'.
  assert (Hneat : neat row). { destruct Hr as [_ Hr]. apply nth_error_In in Hr. rewrite Forall_forall in HN. exact (HN _ Hr). }
  pose proof (tiled_in _ _ _ Hneat Hc'). unfold row_width, total in *. lia.
Qed.
(** The rows keep the marks of their insertion. *)
Theorem C56_rows : forall o sect tbl cols trs rows t,
    word_table tbl cols trs -> Forall2 row_reads trs rows -> regular rows -> ox_parse_table o sect tbl = Ok t ->
    forall r n w, 1 <= r -> nth_error trs (Z.to_nat (r - 1)) = Some n -> reads Rows r t w ->
    forall k v, In k ROW_STYLES -> (dget (v_styles w) k = Some v <-> row_style n k v).
Proof.
  intros o sect tbl cols trs rows t HW HF HR H r n w Hr Hn Hv k v Hk.
  destruct (word_read _ _ _ _ _ _ _ HW HF HR H) as (st & sts & cw & _ & _ & _ & _ & _ & HD).
  pose proof (attr_at Rows r t w (rd_reach _ _ _ _ _ _ HD) Hr Hv) as E.
  assert (Ev : v_styles w = fst (attr Rows t (Z.to_nat (r - 1)))) by (rewrite E; reflexivity). rewrite Ev.
  rewrite (rd_styled _ _ _ _ _ _ HD (Z.to_nat (r - 1)) k).
  assert (HL : List.length trs = List.length rows) by (clear - HF; induction HF; cbn; congruence).
  assert (Hlt : (Z.to_nat (r - 1) < List.length trs)%nat) by (apply nth_error_Some; congruence).
  rewrite HL in Hlt. rewrite (proj2 (Nat.ltb_lt _ _) Hlt).
  rewrite (nth_error_nth (map (row_look o) trs) _ [] (map_nth_error (row_look o) _ _ Hn)), row_look_ins by exact Hk. apply tr_ins_spec.
Qed.

(** ** A table *)

Definition aligned_p (jc : string) (s : string) : xnode :=
  w "p" [] [w "pPr" [] [w "jc" [("val", jc)] []]; XElem (word "t") [] (Some s) [] None].
Definition ex1_props : list xnode :=
  [w "tcBorders" [] [side "start" "double"]; w "shd" [("fill", "FFCC00")] []; w "vAlign" [("val", "center")] []].
Definition ex1_cell : xnode := w "tc" [] [w "tcPr" [] ex1_props; text_p "a"; aligned_p "end" "b"; aligned_p "both" "c"; aligned_p "end" "d"].
Definition ex1_empty : xnode := w "tc" [] [w "tcPr" [] []; w "p" [] []].
Definition ex1_drawn : xnode := w "tc" [] [w "tcPr" [] []; w "p" [] [w "r" [] [w "drawing" [] []]]].
Definition ex1_trs : list xnode :=
  [tr [w "ins" [("id", "7"); ("author", "me"); ("date", "")] []] [ex1_cell; ex1_empty]; tr [] [ex1_drawn]].
Definition ex1_tbl : xnode := w "tbl" [] (grid 2 :: ex1_trs).
Definition ex1_rows : list wrow :=
  [MkWRow "body" [MkSlot ex1_cell 1 1 false; MkSlot ex1_empty 2 1 false]; MkWRow "body" [MkSlot ex1_drawn 1 1 false]].
Lemma ex1_word : word_table ex1_tbl (repeat (w "gridCol" [("w", "400")] []) 2) ex1_trs.
Proof.
  split; [reflexivity|]. split; [reflexivity|]. split; [repeat constructor|].
  repeat (apply Forall_cons || apply Forall_nil); (split; [reflexivity|]);
    (repeat (apply Forall_cons || apply Forall_nil)); (split; [reflexivity|constructor]).
Qed.
Lemma ex1_reads : Forall2 row_reads ex1_trs ex1_rows.
Proof.
  apply Forall2_cons; [|apply Forall2_cons; [|apply Forall2_nil]]; (split; [some_row|]);
    (right; split; [|reflexivity]; left; intros HX; apply w_first_exists in HX; apply HX; reflexivity).
Qed.
Lemma ex1_regular : regular ex1_rows.
Proof.
  intros r row s' w' [Hr Hrow] (c & Hc & [<- <-] & Hk). unfold ex1_rows in Hrow.
  destruct (Z.to_nat (r - 1)) as [|[|[|n]]] eqn:En; cbn in Hrow; try discriminate; injection Hrow as <-.
  - destruct Hc as [<-|[<-|[]]]; discriminate.
  - destruct Hc as [<-|[]]; discriminate.
Qed.
Example C56_ex : word_table ex1_tbl (repeat (w "gridCol" [("w", "400")] []) 2) ex1_trs /\ Forall2 row_reads ex1_trs ex1_rows /\ regular ex1_rows /\
  exists t, ox_parse_table (opts None) None ex1_tbl = Ok t /\
  map (fun c => (c_box c, c_styles c)) (t_grid t) =
    [(MkBox (Coord 1 1) (Coord 1 1), [("background-color", SStr "#FFCC00"); ("vertical-align", SStr "middle"); ("align", SStr "right"); ("border-left", SStr "double 2pt")]);
     (MkBox (Coord 2 1) (Coord 2 1), [("x-cell-empty", SStr "true")]); (MkBox (Coord 1 2) (Coord 1 2), []); (MkBox (Coord 2 2) (Coord 2 2), [])] /\
  exists v, reads Rows 1 t v /\ v_styles v = [("x-ins", SBool true); ("x-ins-id", SStr "7"); ("x-ins-author", SStr "me")].
Proof.
  split; [exact ex1_word|]. split; [exact ex1_reads|]. split; [exact ex1_regular|].
  eexists. split; [vm_compute; reflexivity|]. split; [reflexivity|].
  eexists. split; [eexists; vm_compute; reflexivity|]. vm_compute. reflexivity.
Qed.

(** ** The heights of the rows *)

(** The height of a row (w:trHeight, in twentieths of a point): exact, or a minimum *)
Definition row_height (o : ooxml_opts) (tr : xnode) (k : string) (v : sval) : Prop :=
  exists rule n q, In (rule, k) [("exact", "height"); ("atLeast", "min-height")] /\
    value_at ["trPr"; "trHeight"] "hRule" tr rule /\ value_at ["trPr"; "trHeight"] "val" tr n /\ ox_float o n = Ok q /\
    v = SStr (ox_fixed o (q / 20)%Q ++ "pt").
(** It is lost: the rule and the value are looked for in w:tblHeader. *)
Definition ex2_trs : list xnode := [tr [w "trHeight" [("val", "400"); ("hRule", "exact")] []] [tc [] "a"]].
Definition ex2_tbl : xnode := w "tbl" [] (grid 1 :: ex2_trs).
Theorem C56_height_refuted : exists o sect tbl cols trs rows t,
    word_table tbl cols trs /\ Forall2 row_reads trs rows /\ regular rows /\ ox_parse_table o sect tbl = Ok t /\
    exists r n w k v, 1 <= r /\ nth_error trs (Z.to_nat (r - 1)) = Some n /\ reads Rows r t w /\ row_height o n k v /\ dget (v_styles w) k = None.
Proof.
  exists (opts None), None, ex2_tbl, [XElem (word "gridCol") [(word "w", "400")] None [] None], ex2_trs, [MkWRow "body" [MkSlot (tc [] "a") 1 1 false]].
  eexists. split; [|split; [|split; [|split; [vm_compute; reflexivity|]]]].
  - split; [reflexivity|]. split; [reflexivity|]. split; [repeat constructor|].
    repeat (apply Forall_cons || apply Forall_nil); (split; [reflexivity|]);
      (repeat (apply Forall_cons || apply Forall_nil)); (split; [reflexivity|constructor]).
  - apply Forall2_cons; [|apply Forall2_nil]. split; [some_row|].
    right. split; [|reflexivity]. left. intros HX. apply w_first_exists in HX. apply HX. reflexivity.
  - intros r row s' w' [Hr Hrow] (c & Hc & [<- <-] & Hk).
    destruct (Z.to_nat (r - 1)) as [|[|n]] eqn:En; cbn in Hrow; try discriminate; injection Hrow as <-. destruct Hc as [<-|[]]; discriminate.
  - eexists 1, _, _, "height", _. split; [lia|]. split; [reflexivity|]. split; [eexists; vm_compute; reflexivity|]. split; [|vm_compute; reflexivity].
    eexists "exact", "400", _. split; [cbn; auto|]. split; [apply w_attr_spec; reflexivity|]. split; [apply w_attr_spec; reflexivity|]. split; [vm_compute; reflexivity|reflexivity].
Qed.

Print Assumptions C56_cells.
Print Assumptions C56_completed.
Print Assumptions C56_rows.
Print Assumptions C56_height_refuted.
