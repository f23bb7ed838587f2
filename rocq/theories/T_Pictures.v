(** * C92: what is kept of the cells of a Word table *)
From Coq Require Import QArith.
From Verif Require Import Base M_Geometry M_Xml M_Cell M_Grid M_Table M_Str M_Builder M_Cals M_Formex M_Ooxml M_Convert M_ConvertDoc.
From Verif Require Import S_Geometry S_Cell S_Grid S_Table S_Builder S_Cals S_Formex S_Convert S_Transform S_Nested S_Ooxml S_OoxmlStyle S_ConvertWord.
From Verif Require Import P_Cals P_Transform P_ConvertDoc P_NoneLeft P_Nested P_OoxmlPath P_OoxmlRegions.
From Verif Require T_Ooxml T_OoxmlCell.
From Verif Require Import T_Cals T_Formex T_Convert T_ConvertBack T_Options.
Open Scope string_scope.
Open Scope list_scope.
Open Scope Z_scope.

(** The paragraphs and tables of the cell [tc] are in the element [x], in order, and nothing else. *)
Definition written_in (tc x : xnode) : Prop := exists l, paragraphs tc l /\ elem_pieces x = content_pieces (CList l).
Definition written_empty (x : xnode) : Prop := x_text x = None /\ x_children x = [XElem "IE" [] None [] None].
Definition no_text_or_picture (tc : xnode) : Prop := textless tc /\ pictureless tc.

Lemma Forall2_left {A B} (R : A -> B -> Prop) l m a : Forall2 R l m -> In a l -> exists b, In b m /\ R a b.
Proof. induction 1 as [|x y l m H F IH]; [intros []|]. intros [<-|Ha]; [exists y; split; [left; reflexivity|exact H]|]. destruct (IH Ha) as (b & Hb & Hr). exists b. split; [right; exact Hb|exact Hr]. Qed.
(** the cell of the table where a cell of Word begins *)
Lemma word_slot ox sect tbl cols trs rows t r row c :
  word_table tbl cols trs -> Forall2 row_reads trs rows -> S_Ooxml.regular rows -> ox_parse_table ox sect tbl = Ok t ->
  row_at rows r row -> In c (wr_slots row) -> sl_continues c = false ->
  exists d l, In d (table_iter t) /\ paragraphs (sl_cell c) l /\ c_content d = CList l /\ bmin (c_box d) = Coord (sl_start c) r /\
    (dget (c_styles d) "x-cell-empty" = Some (SStr "true") <-> no_text_or_picture (sl_cell c)).
Proof.
  intros HW HF HR Et Hrow Hc Hk. destruct (goes_to_ex rows r (sl_start c) (sl_width c)) as (e & He); [apply Hrow|].
  pose proof (tc_content_spec (sl_cell c)) as HP. set (l := map CNode (tc_content (sl_cell c))) in HP.
  pose proof (shown (Z.of_nat (List.length cols)) rows r row c e l Hrow Hc Hk He HP) as HD.
  apply (T_Ooxml.C49_layout _ _ _ _ _ _ _ HW HF HR Et) in HD as (st & HD). eexists _, l. split; [exact HD|]. split; [exact HP|]. split; [reflexivity|]. split; [reflexivity|].
  rewrite (T_OoxmlCell.C56_cells _ _ _ _ _ _ _ HW HF HR Et r row c _ Hrow Hc Hk HD eq_refl "x-cell-empty"); [|cbn; tauto]. unfold cell_style, no_text_or_picture. split.
  - intros [[X _]|[[X _]|[[X _]|[(_ & X & Y & _)|(bo & names & tt0 & _ & X & _)]]]]; try discriminate X; [auto|]. exfalso. cbn in X. intuition discriminate.
  - intros [X Y]. right. right. right. left. auto.
Qed.

(** ** C92 *)

(** To CALS every cell of Word is written in full. *)
Theorem C92_cals : forall kw ox sect tbl cols trs rows e',
  word_table tbl cols trs -> Forall2 row_reads trs rows -> S_Ooxml.regular rows -> ooxml2cals kw ox sect tbl = Ok e' ->
  forall r row c, row_at rows r row -> In c (wr_slots row) -> sl_continues c = false ->
  exists x, In x (entries (cals_space kw) e') /\ written_in (sl_cell c) x.
Proof.
  intros kw ox sect tbl cols trs rows e' HW HF HR H r row c Hrow Hc Hk. unfold ooxml2cals in H. bind H as o Eo. bind H as t Et.
  destruct (C70_word _ _ _ _ Et) as (HT & HX & _). destruct (builder_of kw o Eo) as [Hns Hs].
  destruct (C39_cells_partial _ _ _ _ HT Hs HX H) as (cells & HP' & HF'). rewrite Hns, or_nothing_space in HF'.
  destruct (word_slot _ _ _ _ _ _ _ _ _ _ HW HF HR Et Hrow Hc Hk) as (d & l & Hd & HP & E & _).
  apply (Permutation_in _ (Permutation_sym HP')) in Hd. destruct (Forall2_left _ _ _ _ HF' Hd) as (x & Hx & (_ & _ & _ & K)). exists x. split; [exact Hx|]. exists l. rewrite K, E. auto.
Qed.
(** To Formex a cell which has a text or a picture is written in full; the other ones have the element IE. *)
Theorem C92_formex : forall kw ox sect k tbl cols trs rows e',
  word_table tbl cols trs -> Forall2 row_reads trs rows -> S_Ooxml.regular rows -> kw_titles kw = false -> ooxml2formex kw ox sect k tbl = Ok e' ->
  forall r row c, row_at rows r row -> In c (wr_slots row) -> sl_continues c = false ->
  exists x, In x (tbl_cells e') /\ x_get x "COL" = Some (py_str_int (sl_start c)) /\
    (no_text_or_picture (sl_cell c) -> written_empty x) /\ (~ no_text_or_picture (sl_cell c) -> written_in (sl_cell c) x).
Proof.
  intros kw ox sect k tbl cols trs rows e' HW HF HR Hti H r row c Hrow Hc Hk. unfold ooxml2formex in H. bind H as t Et.
  destruct (C70_word _ _ _ _ Et) as (HT & HX & _). destruct (C48_titles _ _ _ _ HT HX H) as (tc & cells & P & F & HTi).
  destruct tc as [|c0 tc]; [|exfalso; destruct HTi as (H1 & _); [discriminate|]; change (kw_titles kw = true) in H1; congruence]. cbn [app] in P.
  destruct (word_slot _ _ _ _ _ _ _ _ _ _ HW HF HR Et Hrow Hc Hk) as (d & l & Hd & HP & E & Eb & HE).
  apply (Permutation_in _ (Permutation_sym P)) in Hd. destruct (Forall2_left _ _ _ _ F Hd) as (x & Hx & (_ & _ & K1 & K2 & K3)). exists x. split; [exact Hx|]. split.
  - destruct (c_box d) as [[x1 y1] [x2 y2]]. cbn in Eb. injection Eb as -> ->. apply K1.
  - split; [intros He; apply K2; left; apply HE, He|]. intros He. exists l. split; [exact HP|]. rewrite K3, E; [reflexivity|].
    intros [G|[G|G]]; [apply He, HE, G|rewrite E in G; discriminate G..].
Qed.

(** Every paragraph with a picture, and every table of a cell with a picture, is in the result. *)
Lemma written_child tc x p : written_in tc x -> In p (x_children tc) -> is_word "p" p \/ is_word "tbl" p -> exists y, In y (x_children x) /\ same_node y p.
Proof.
  intros (l & (nodes & HS & ->) & E) Hp Hw.
  assert (Hn : In p nodes).
  { clear E. induction HS as [|a g l Ha HS IH|a g l Ha HS IH]; [destruct Hp| |].
    - destruct Hp as [->|Hp]; [left; reflexivity|right; exact (IH Hp)].
    - destruct Hp as [->|Hp]; [contradiction|exact (IH Hp)]. }
  assert (Hc : In (Node (x_set_tail p None)) (elem_pieces x)).
  { rewrite E. cbn [content_pieces]. apply in_flat_map. exists (CNode (x_set_tail p None)). split; [apply (in_map (fun n => CNode (x_set_tail n None))), Hn|]. cbn [content_pieces]. left.
    destruct p; reflexivity. }
  unfold elem_pieces in Hc. apply in_app_or in Hc as [Hc|Hc].
  - exfalso. destruct (x_text x) as [s|]; [|destruct Hc]. cbn in Hc. unfold text_pieces in Hc. apply in_map_iff in Hc as (a & Ha & _). discriminate Ha.
  - apply in_flat_map in Hc as (y & Hy & Hc). unfold node_pieces in Hc. destruct Hc as [Hc|Hc].
    + injection Hc as Hc. exists y. split; [exact Hy|exact Hc].
    + exfalso. destruct (x_tail y) as [s|]; [|destruct Hc]. cbn in Hc. unfold text_pieces in Hc. apply in_map_iff in Hc as (a & Ha & _). discriminate Ha.
Qed.
Definition picture (d : xnode) : Prop := is_word "drawing" d \/ is_word "pict" d.
Theorem C92_pictures : forall kw ox sect k tbl cols trs rows e',
  word_table tbl cols trs -> Forall2 row_reads trs rows -> S_Ooxml.regular rows -> kw_titles kw = false -> ooxml2formex kw ox sect k tbl = Ok e' ->
  forall r row c p d, row_at rows r row -> In c (wr_slots row) -> sl_continues c = false ->
  In p (x_children (sl_cell c)) -> is_word "p" p \/ is_word "tbl" p -> below d p -> picture d ->
  exists x, In x (tbl_cells e') /\ below d x.
Proof.
  intros kw ox sect k tbl cols trs rows e' HW HF HR Hti H r row c p d Hrow Hc Hk Hp Hw Hd Hpic.
  destruct (C92_formex _ _ _ _ _ _ _ _ _ HW HF HR Hti H r row c Hrow Hc Hk) as (x & Hx & _ & _ & K). exists x. split; [exact Hx|].
  destruct (written_child (sl_cell c) x p) as (y & Hy & E); [apply K|exact Hp|exact Hw|].
  - intros [_ Hno]. destruct (Hno d) as [N1 N2]; [apply (below_deep _ p); assumption|]. destruct Hpic; contradiction.
  - apply (below_deep _ y); [exact Hy|]. assert (Ech : x_children y = x_children p) by (unfold same_node in E; destruct y, p; cbn in E |- *; congruence).
    clear -Hd Ech. destruct Hd as [n Hd|c n Hc Hd]; [apply below_child|apply (below_deep _ c); [|exact Hd]]; rewrite Ech; assumption.
Qed.
(** Other things which Word shows are lost by the conversion to Formex when there is no text beside them: the symbols
    (w:sym, the ticks of a form) and the embedded objects. *)
Definition sym_p : xnode := T_Ooxml.w "p" [] [T_Ooxml.w "r" [] [T_Ooxml.w "sym" [("font", "Wingdings"); ("char", "F0FC")] []]].
Definition object_p : xnode := T_Ooxml.w "p" [] [T_Ooxml.w "r" [] [T_Ooxml.w "object" [] []]].
Definition tick_cell : xnode := T_Ooxml.w "tc" [] [T_Ooxml.w "tcPr" [] []; sym_p].
Definition object_cell : xnode := T_Ooxml.w "tc" [] [T_Ooxml.w "tcPr" [] []; object_p].
Definition picture_cell : xnode := T_Ooxml.w "tc" [] [T_Ooxml.w "tcPr" [] []; T_Ooxml.w "p" [] [T_Ooxml.w "r" [] [T_Ooxml.w "drawing" [] []]]].
Definition tick_trs : list xnode := [T_Ooxml.tr [] [tick_cell; object_cell; picture_cell]].
Definition tick_tbl : xnode := T_Ooxml.w "tbl" [] (T_Ooxml.w "tblPr" [] [] :: T_Ooxml.grid 3 :: tick_trs).
Definition tick_rows : list wrow := [MkWRow "body" [MkSlot tick_cell 1 1 false; MkSlot object_cell 2 1 false; MkSlot picture_cell 3 1 false]].
Lemma tick_word : word_table tick_tbl (repeat (T_Ooxml.w "gridCol" [("w", "400")] []) 3) tick_trs.
Proof.
  split; [reflexivity|]. split; [reflexivity|]. split; [repeat constructor|].
  repeat (apply Forall_cons || apply Forall_nil); (split; [reflexivity|]); (repeat (apply Forall_cons || apply Forall_nil)); (split; [reflexivity|constructor]).
Qed.
Lemma tick_reads : Forall2 row_reads tick_trs tick_rows.
Proof.
  apply Forall2_cons; [|apply Forall2_nil]. split; [T_Ooxml.some_row|]. right. split; [|reflexivity]. left. intros HX. apply w_first_exists in HX. apply HX. reflexivity.
Qed.
Lemma tick_regular : S_Ooxml.regular tick_rows.
Proof.
  intros r row s' w' [Hr Hrow] (c & Hc & [<- <-] & Hk). unfold tick_rows in Hrow. destruct (Z.to_nat (r - 1)) as [|[|n]]; cbn in Hrow; [|discriminate..].
  injection Hrow as <-. destruct Hc as [<-|[<-|[<-|[]]]]; discriminate.
Qed.

Theorem C92_symbols_refuted : exists kw ox tbl cols trs rows e' r row c d1 d2,
  word_table tbl cols trs /\ Forall2 row_reads trs rows /\ S_Ooxml.regular rows /\ kw_titles kw = false /\ ooxml2formex kw ox None 1 tbl = Ok e' /\
  row_at rows r row /\ In c (wr_slots row) /\ sl_continues c = false /\ below d1 (sl_cell c) /\ is_word "sym" d1 /\
  below d2 tbl /\ is_word "object" d2 /\ forall x, inside e' x -> ~ is_word "sym" x /\ ~ is_word "object" x.
Proof.
  exists kw_conv, (T_Ooxml.opts None), tick_tbl, (repeat (T_Ooxml.w "gridCol" [("w", "400")] []) 3), tick_trs, tick_rows. eexists. exists 1, (MkWRow "body" [MkSlot tick_cell 1 1 false; MkSlot object_cell 2 1 false; MkSlot picture_cell 3 1 false]), (MkSlot tick_cell 1 1 false).
  exists (T_Ooxml.w "sym" [("font", "Wingdings"); ("char", "F0FC")] []), (T_Ooxml.w "object" [] []).
  split; [exact tick_word|]. split; [exact tick_reads|]. split; [exact tick_regular|]. split; [reflexivity|]. split; [vm_compute; reflexivity|].
  split; [split; [lia|reflexivity]|]. split; [left; reflexivity|]. split; [reflexivity|].
  split; [apply (below_deep _ sym_p); [right; left; reflexivity|]; eapply below_deep; [left; reflexivity|]; apply below_child; left; reflexivity|]. split; [reflexivity|].
  split; [apply (below_deep _ (T_Ooxml.tr [] [tick_cell; object_cell; picture_cell])); [right; right; left; reflexivity|]; apply (below_deep _ object_cell); [right; right; left; reflexivity|];
          apply (below_deep _ object_p); [right; left; reflexivity|]; eapply below_deep; [left; reflexivity|]; apply below_child; left; reflexivity|]. split; [reflexivity|].
  assert (G : forall e, forallb (fun x => match x_tag x with Some t => negb (String.eqb t (S_Ooxml.word "sym")) && negb (String.eqb t (S_Ooxml.word "object")) | None => true end) (tree_nodes e) = true ->
    forall x, inside e x -> ~ is_word "sym" x /\ ~ is_word "object" x).
  { intros e H x Hx. rewrite forallb_forall in H. assert (Hn : In x (tree_nodes e)) by (apply in_nodes; right; exact Hx). specialize (H x Hn). unfold is_word.
    destruct (x_tag x) as [t|]; [|split; discriminate]. apply andb_true_iff in H as [H1 H2]. apply negb_true_iff, String.eqb_neq in H1, H2. split; congruence. }
  apply G. vm_compute. reflexivity.
Qed.
(** the table has a picture, which is kept *)
Example C92_ex : word_table tick_tbl (repeat (T_Ooxml.w "gridCol" [("w", "400")] []) 3) tick_trs /\ Forall2 row_reads tick_trs tick_rows /\ S_Ooxml.regular tick_rows /\
  exists e1 e2, ooxml2formex kw_conv (T_Ooxml.opts None) None 1 tick_tbl = Ok e1 /\ ooxml2cals kw_conv (T_Ooxml.opts None) None tick_tbl = Ok e2 /\
    map (fun x => map x_tag (x_children x)) (tbl_cells e1) = [[Some "IE"]; [Some "IE"]; [Some (S_Ooxml.word "p")]] /\
    map (fun x => map x_tag (x_children x)) (entries (cals_space kw_conv) e2) = [[Some (S_Ooxml.word "p")]; [Some (S_Ooxml.word "p")]; [Some (S_Ooxml.word "p")]].
Proof.
  split; [exact tick_word|]. split; [exact tick_reads|]. split; [exact tick_regular|]. do 2 eexists. split; [vm_compute; reflexivity|]. split; [vm_compute; reflexivity|]. split; vm_compute; reflexivity.
Qed.

Print Assumptions C92_cals.
Print Assumptions C92_formex.
Print Assumptions C92_pictures.
Print Assumptions C92_symbols_refuted.
