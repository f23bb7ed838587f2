(** * Formex tables: C45, C48 *)
From Coq Require Import QArith Permutation.
From Verif Require Import Base M_Geometry M_Xml M_Cell M_Grid M_Table M_Regex M_Str M_Units M_Builder M_Cals M_Formex M_CalsParser M_FormexParser.
From Verif Require Import S_Geometry S_Table S_Units S_Int S_Builder S_Cals S_CalsParser S_Formex.
From Verif Require Import P_Units P_Int P_Str P_Cals P_Formex P_FormexStyle T_Table T_Cals.
Open Scope string_scope.
Open Scope list_scope.
Open Scope Z_scope.

(** ** C45: the names of the row styles *)

(** A name made of a tag, a type and a level is decoded exactly; any other name is the one of a row
    without type, out of the blocks. *)
Theorem C45_decoded : forall s tag type level, row_style_name s tag type level ->
    guess_row_info (Some s) = MkRowInfo tag type (match level with Some n => n | None => 0 end).
Proof.
  intros s tag type level H. apply row_style_name_parts in H as (ds & HP & <-). rewrite (guess_parts _ _ _ _ HP).
  destruct ds; reflexivity.
Qed.
Theorem C45_others : forall s, (forall tag type level, ~ row_style_name s tag type level) ->
    guess_row_info (Some s) = MkRowInfo "ROW" None 0.
Proof.
  intros s H. apply guess_other. intros tag type ds HP. apply (H tag type (option_map int_of_digits ds)).
  apply row_style_name_parts. exists ds. auto.
Qed.

Lemma level_name tag type n : In tag row_tags -> (forall t, type = Some t -> In t row_types) -> 0 <= n ->
  row_style_name (tag ++ (match type with Some t => "-" ++ t | None => "" end) ++ "-level" ++ py_str_int n)%string tag type (Some n).
Proof.
  intros Ht Hty Hn. split; [exact Ht|]. split; [exact Hty|].
  exists (list_ascii_of_string "-level" ++ list_ascii_of_string (py_str_int n)), [].
  destruct (py_str_nonneg n Hn) as (c & l & E & D & V). rewrite E.
  split; [|split; [|left; reflexivity]].
  - rewrite !list_of_append, app_nil_r, E. destruct type as [t|]; [rewrite list_of_append|]; reflexivity.
  - exists (c :: l). split; [discriminate|]. split; [|reflexivity]. apply digits_value_spec. auto.
Qed.
Lemma plain_name tag type : In tag row_tags -> (forall t, type = Some t -> In t row_types) ->
  row_style_name (tag ++ (match type with Some t => "-" ++ t | None => "" end))%string tag type None.
Proof.
  intros Ht Hty. split; [exact Ht|]. split; [exact Hty|]. exists [], []. split; [|split; [reflexivity|left; reflexivity]].
  rewrite !list_of_append, !app_nil_r. destruct type as [t|]; [rewrite list_of_append|]; reflexivity.
Qed.
Lemma row_types_ne t : In t row_types -> t <> "".
Proof. unfold row_types. cbn. intros H ->. repeat (destruct H as [H|H]; [discriminate H|]). destruct H. Qed.

(** What the parser writes for a row, a title or a subtitle is read back. *)
Theorem C45_round_trip : forall type level, (forall t, type = Some t -> In t row_types) -> 0 <= level ->
    guess_row_info (fmx_row_style type level) = MkRowInfo "ROW" type level.
Proof.
  intros type level Hty Hl. unfold fmx_row_style. destruct type as [t|].
  - specialize (Hty t eq_refl). pose proof (row_types_ne t Hty) as Hne.
    assert (Htr : truthy (Some t) = true) by (destruct t; [congruence|reflexivity]). rewrite Htr. cbn [ostr].
    destruct (Z.eqb_spec level 0) as [->|Hz]; cbn [app String.concat].
    + rewrite (C45_decoded _ "ROW" (Some t) None); [reflexivity|].
      exact (plain_name "ROW" (Some t) (or_introl eq_refl) ltac:(intros ? [= <-]; exact Hty)).
    + rewrite (C45_decoded _ "ROW" (Some t) (Some level)); [reflexivity|].
      exact (level_name "ROW" (Some t) level (or_introl eq_refl) ltac:(intros ? [= <-]; exact Hty) Hl).
  - cbn [truthy app]. destruct (Z.eqb_spec level 0) as [->|Hz]; [reflexivity|]. cbn [String.concat].
    rewrite (C45_decoded _ "ROW" None (Some level)); [reflexivity|].
    exact (level_name "ROW" None level (or_introl eq_refl) ltac:(discriminate) Hl).
Qed.
Theorem C45_titles : forall tag level, tag = "TI.BLK" \/ tag = "STI.BLK" -> 0 <= level ->
    guess_row_info (Some (fmx_title_style tag level)) = MkRowInfo tag None level.
Proof.
  intros tag level Ht Hl. unfold fmx_title_style.
  rewrite (C45_decoded _ tag None (Some level)); [reflexivity|]. apply (level_name tag None level); [|discriminate|exact Hl].
  destruct Ht as [-> | ->]; cbn; auto.
Qed.
(** Another type makes the whole name unreadable: the level is lost. *)
Theorem C45_other_types_refuted : exists type level, 0 < level /\
    ri_level (guess_row_info (fmx_row_style (Some type) level)) = 0.
Proof. exists "OTHER", 2. split; [lia|reflexivity]. Qed.

Example C45_ex : row_style_name "TI.BLK-NORMAL-level12" "TI.BLK" (Some "NORMAL") (Some 12) /\
  guess_row_info (Some "TI.BLK-NORMAL-level12") = MkRowInfo "TI.BLK" (Some "NORMAL") 12 /\
  guess_row_info (Some "ROW-TOTAL-level02") = MkRowInfo "ROW" (Some "TOTAL") 2 /\
  guess_row_info (Some "ROW-level") = MkRowInfo "ROW" None 0 /\ guess_row_info (Some "TI.BLKS") = MkRowInfo "ROW" None 0 /\
  fmx_row_style (Some "TOTAL") 3 = Some "ROW-TOTAL-level3" /\ fmx_row_style None 0 = None.
Proof.
  split; [|vm_compute; auto 7].
  exact (level_name "TI.BLK" (Some "NORMAL") 12 (or_intror (or_introl eq_refl)) ltac:(intros ? [= <-]; cbn; tauto) ltac:(lia)).
Qed.

(** ** C48: the tree *)

(** The TBL shows the number of columns; the CORPUS shows each row, in order, but the first one when
    it is the title.  A row has a CELL for each of its cells. *)
Theorem C48_tree : forall o n t e, treachable t -> generate_tbl o n t = Ok e ->
    exists cols rows,
      view_count Cols t cols /\ table_views Rows t = Ok rows /\
      (forall i v, nth_error rows i = Some v -> reads Rows (Z.of_nat i + 1) t v) /\
      describes_tbl (fo_use_cals o) (fo_titles o) (co_ns (fo_cals o)) t cols rows e.
Proof.
  intros o n t e HR H. destruct (generate_tbl_spec o n t e HR H) as (cols & rows & Hc & Hr & _ & HD).
  exists cols, rows. split; [exact Hc|]. split; [exact Hr|]. split; [apply (table_views_spec _ _ _ HR Hr)|]. exact HD.
Qed.
(** If the rows list each cell once (see C26) and no title is looked for, each cell of the table has
    exactly one CELL, with its column, its spans and its content. *)
Theorem C48_cells_partial : forall o n t e, treachable t -> views_exact Rows t -> fo_titles o = false ->
    generate_tbl o n t = Ok e ->
    exists cells, Permutation cells (table_iter t) /\ Forall2 describes_fcell cells (tbl_cells e).
Proof.
  intros o n t e HR HX HT H. destruct (generate_tbl_spec o n t e HR H) as (cols & rows & Hc & Hr & _ & HD).
  destruct (tbl_cells_spec _ _ _ _ _ _ _ HD) as (rows' & Hrows & HF). exists (flat_map v_owned rows'). split; [|exact HF].
  destruct Hrows as [->|[E _]]; [|congruence]. apply owned_all; assumption.
Qed.
(** With titles, this holds for the rows after the title. *)
Theorem C48_titles : forall o n t e, treachable t -> views_exact Rows t -> generate_tbl o n t = Ok e ->
    exists title cells, Permutation (title ++ cells) (table_iter t) /\ Forall2 describes_fcell cells (tbl_cells e) /\
      (title <> [] -> fo_titles o = true /\ has_title t /\
         exists te rest parts, x_children e = te :: rest /\ te = XElem "TITLE" [] None (List.concat parts) None /\ Forall2 title_cell title parts).
Proof.
  intros o n t e HR HX H. destruct (generate_tbl_spec o n t e HR H) as (cols & rows & Hc & Hr & _ & HD).
  pose proof (owned_all t rows HR HX Hr) as HP. destruct HD as (Ht & Htx & Htl & Hco & corpus & HD).
  destruct (fo_titles o) eqn:Et.
  - destruct HD as [(HT & title & first & others & -> & Ech & (parts & -> & HF) & HC)|(HN & Ech & HC)].
    + exists (v_owned first), (flat_map v_owned others). split; [exact HP|]. split.
      * unfold tbl_cells. replace (children_named "CORPUS" [e]) with [corpus]; [apply (corpus_cells _ _ _ _ _ HC)|].
        unfold children_named. cbn [flat_map]. rewrite app_nil_r, Ech. cbn [filter x_has_tag]. cbn [String.eqb Ascii.eqb Bool.eqb].
        rewrite (tag_has corpus "CORPUS" (proj1 HC)). reflexivity.
      * intros _. split; [reflexivity|]. split; [exact HT|]. rewrite Ech. eexists _, _, parts. split; [reflexivity|]. auto.
    + exists [], (flat_map v_owned rows). split; [exact HP|]. split; [|congruence].
      unfold tbl_cells. replace (children_named "CORPUS" [e]) with [corpus]; [apply (corpus_cells _ _ _ _ _ HC)|].
      unfold children_named. cbn [flat_map]. rewrite app_nil_r, Ech. cbn [filter]. rewrite (tag_has corpus "CORPUS" (proj1 HC)). reflexivity.
  - destruct HD as [Ech HC]. exists [], (flat_map v_owned rows). split; [exact HP|]. split; [|congruence].
    unfold tbl_cells. replace (children_named "CORPUS" [e]) with [corpus]; [apply (corpus_cells _ _ _ _ _ HC)|].
    unfold children_named. cbn [flat_map]. rewrite app_nil_r, Ech. cbn [filter]. rewrite (tag_has corpus "CORPUS" (proj1 HC)). reflexivity.
Qed.
Definition fplain : fmx_opts := MkFmxOpts plain false false.
Definition ftitles : fmx_opts := MkFmxOpts plain false true.
Definition fcals : fmx_opts := MkFmxOpts (MkCalsOpts (Some "urn:cals") "mm" false default_sorting (fun _ => "")) true false.
(** Otherwise a cell may be written twice, as in CALS (C39). *)
Theorem C48_cells_refuted : exists t e, treachable t /\ generate_tbl fplain 1 t = Ok e /\
    List.length (table_iter t) = 1%nat /\ List.length (tbl_cells e) = 2%nat.
Proof.
  exists (trun et_start [TSet (PTuple [PInt 1; PInt 1]) (unit_cell (CText "x") None None (Coord 1 1))]). eexists.
  split; [apply et_reachable|]. split; [vm_compute; reflexivity|]. split; vm_compute; reflexivity.
Qed.

(** The tree can be built when the attributes have the right types and values. *)
Theorem C48_succeeds : forall o n t, treachable t -> fo_titles o = false -> In (co_unit (fo_cals o)) unit_names ->
    tbl_ready (fo_use_cals o) t -> exists e, generate_tbl o n t = Ok e.
Proof. exact generate_tbl_total. Qed.

Example C48_ex : exists e, generate_tbl fplain 12 et = Ok e /\ x_get e "NO.SEQ" = Some "0012" /\ x_get e "COLS" = Some "5" /\
  map (fun n => x_get n "COL") (tbl_cells e) = [Some "1"; Some "3"; Some "1"; Some "2"; Some "4"] /\
  map (fun n => x_get n "COLSPAN") (tbl_cells e) = [Some "2"; None; None; None; Some "2"] /\
  map (fun n => x_get n "ROWSPAN") (tbl_cells e) = [None; Some "2"; None; None; None].
Proof. eexists. split; [vm_compute; reflexivity|]. repeat (split; [vm_compute; reflexivity|]). vm_compute; reflexivity. Qed.

(** A title over two rows of cells *)
Definition et_title : table :=
  trun et_start [TInsert Rows 1 (CText "Title") (Some [("align", SStr "center")]) None 2 1;
    TInsert Rows 2 (CText "a") None None 1 1; TInsert Rows 2 (CText "b") None None 1 1].
Example C48_title_ex : exists e, generate_tbl ftitles 1 et_title = Ok e /\
  map x_tag (x_children e) = [Some "TITLE"; Some "CORPUS"] /\ List.length (tbl_cells e) = 2%nat.
Proof. eexists. split; [vm_compute; reflexivity|]. split; vm_compute; reflexivity. Qed.
Example C48_cals_ex : exists e, generate_tbl fcals 1 et_title = Ok e /\ List.length (tbl_cells e) = 3%nat /\
  map (fun n => x_get n "{urn:cals}nameend") (tbl_cells e) = [Some "c2"; None; None].
Proof. eexists. split; [vm_compute; reflexivity|]. split; vm_compute; reflexivity. Qed.
Example C48_succeeds_ex : treachable et_title /\ tbl_ready false et_title.
Proof.
  split; [apply et_reachable|]. split; [left; reflexivity|]. split; [|split; [|discriminate]].
  - intros c Hc. vm_compute in Hc. repeat (destruct Hc as [<-|Hc]; [split; [right; exact I|left; reflexivity]|]). destruct Hc.
  - intros p v Hp Hv.
    edestruct (reads_cases Rows p et_title) as [Hi|Hi]; [apply et_reachable|exact Hp|exact Hv|vm_compute; reflexivity| |].
    + repeat (destruct Hi as [<-|Hi]; [split; exact I|]). destruct Hi.
    + unfold text_or_absent. rewrite Hi. split; exact I.
Qed.

Print Assumptions C45_decoded.
Print Assumptions C45_others.
Print Assumptions C45_round_trip.
Print Assumptions C45_titles.
Print Assumptions C45_other_types_refuted.
Print Assumptions C48_tree.
Print Assumptions C48_cells_partial.
Print Assumptions C48_titles.
Print Assumptions C48_cells_refuted.
Print Assumptions C48_succeeds.
