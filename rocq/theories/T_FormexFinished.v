(** * Theorems about reading a finished Formex document (C69) *)
From Verif Require Import Base M_Geometry M_Xml M_Cell M_Grid M_Table M_Str M_Units M_Builder M_Cals M_CalsParser M_Formex M_FormexFinal M_FormexFinish M_FormexParser M_FormexRead.
From Verif Require Import S_Geometry S_Grid S_Table S_Units S_Builder S_Cals S_Int S_CalsParser S_RoundTrip S_Formex S_FormexFinal S_Attrs S_FormexRead S_FormexTrip S_FormexFinished S_Axes.
From Verif Require Import P_Table P_TableFacts P_TableMore P_Cals P_FormexBlk P_RoundTripMain P_FormexTripMain P_FormexFinishedMain.
From Verif Require Import T_Table T_Cals T_Formex T_CalsParser T_RoundTrip T_FormexRead T_FormexTrip.
Open Scope string_scope.
Open Scope list_scope.
Open Scope Z_scope.

(** Full statement: for each table whose cells tile an area, the tree of the builder can be finished, then read, and
    has the same cells at the same place with the same content, nature and styles.

    What holds: this is so if the rows list their cells from left to right, if there are no more rows and columns
    than the cells cover, if no row is written as TITLE or as the title of a block, if the footers are the last rows
    (each one of a cell, not all the rows) and if the contents have no element of a table, no notes and no IE.
    The notes are read as footers.  The natures of the other rows and cells are the ones of the types said by the
    styles of the rows.  The styles are kept as far as the attributes of CALS are written; the ones of a footer row go
    to its cell.  The styles of the columns are kept too.  The documents with other elements around the table are not
    considered. *)
Theorem C69_finished_partial : forall o p k t n m q e,
    treachable t -> pf_ns p = None -> pf_embed p = false -> (fo_use_cals o = true -> co_ns (fo_cals o) = pf_cals_ns p) ->
    (fo_titles o = true -> ~ has_title t) ->
    tiles (table_iter t) n m -> view_count Cols t n -> view_count Rows t m -> rows_ordered t ->
    plain_nodes (pf_cals_ns p) (table_iter t) -> no_tables (table_iter t) ->
    footers_after q t n m -> no_block_titles (fo_use_cals o) t q ->
    generate_tbl o k t = Ok e ->
    exists e' before corpus t', finalize_tree (co_ns (fo_cals o)) e = Ok e' /\ x_children e' = before ++ [corpus] /\
      parse_formex p (Some e') 0 before corpus = Ok t' /\
      (exists l, Permutation (table_iter t') l /\ Forall2 (fcell_finished (fo_use_cals o) q t t' n m) l (table_iter t)) /\
      view_count Cols t' n /\
      (forall r v v', 1 <= r <= m -> reads Rows r t v -> reads Rows r t' v' -> frow_finished (fo_use_cals o) q r t' v' v) /\
      ftable_kept (fo_use_cals o) t' t /\
      (forall j v v', 1 <= j <= n -> reads Cols j t v -> reads Cols j t' v' ->
         fcolumn_kept (fo_use_cals o) (co_unit (fo_cals o)) (co_fmt (fo_cals o)) t' v' v).
Proof.
  intros o p k t n m q e HR Epns Eem Ens Hti HT HC HW HO HP HN HF HB HE.
  destruct (finished_trip o p k t n m q e HR Epns Eem Ens Hti HT HC HW HO HP HN HF HB HE) as (e' & before & corpus & t' & E1 & ((attrs & ->) & _) & E3).
  exists (XElem "TBL" attrs None (before ++ [corpus]) None), before, corpus, t'. split; [exact E1|]. split; [reflexivity|exact E3].
Qed.

(** When the styles of the rows say their natures and when the cells have the natures of their rows, the cells and the
    natures of the rows are the same. *)
Theorem C69_same_cells_partial : forall o p k t n m q e,
    treachable t -> pf_ns p = None -> pf_embed p = false -> (fo_use_cals o = true -> co_ns (fo_cals o) = pf_cals_ns p) ->
    (fo_titles o = true -> ~ has_title t) ->
    tiles (table_iter t) n m -> view_count Cols t n -> view_count Rows t m -> rows_ordered t ->
    plain_nodes (pf_cals_ns p) (table_iter t) -> no_tables (table_iter t) ->
    footers_after q t n m -> no_block_titles (fo_use_cals o) t q ->
    (forall r v type level, 1 <= r <= q -> reads Rows r t v -> row_says (fo_use_cals o) v "ROW" type level -> v_nature v = Some (nature_or_body type)) ->
    (forall c v, In c (table_iter t) -> reads Rows (cy (bmin (c_box c))) t v -> c_nature c = v_nature v /\ (fo_use_cals o = true -> dget (c_styles c) "cellstyle" = None)) ->
    generate_tbl o k t = Ok e ->
    exists e' before corpus t', finalize_tree (co_ns (fo_cals o)) e = Ok e' /\ x_children e' = before ++ [corpus] /\
      parse_formex p (Some e') 0 before corpus = Ok t' /\
      (exists l, Permutation (table_iter t') l /\
        Forall2 (fun c' c => c_box c' = c_box c /\ fcontent_kept c' c /\ c_nature c' = c_nature c) l (table_iter t)) /\
      (forall r v v', 1 <= r <= m -> reads Rows r t v -> reads Rows r t' v' -> v_nature v' = v_nature v).
Proof.
  intros o p k t n m q e HR Epns Eem Ens Hti HT HC HW HO HP HN HF HB HRn HCn HE.
  destruct (C69_finished_partial o p k t n m q e HR Epns Eem Ens Hti HT HC HW HO HP HN HF HB HE) as (e' & before & corpus & t' & E1 & E2 & E3 & (l & P & F) & _ & HRw & _).
  destruct HF as (Hq & Hfn & _).
  exists e', before, corpus, t'. split; [exact E1|]. split; [exact E2|]. split; [exact E3|]. split.
  - exists l. split; [exact P|].
    assert (Hin : forall c, In c (table_iter t) -> 1 <= cy (bmin (c_box c)) <= m).
    { intros c Hc. destruct HT as (_ & _ & HV & _ & HS & _). unfold all_valid in HV. rewrite Forall_forall in HV. specialize (HV c Hc). unfold valid in HV.
      pose proof (HS c Hc (bmin (c_box c))) as H1. unfold covers in H1. cbn in H1. lia. }
    revert HCn Hin. clear - F HRn Hfn Hq. revert F. generalize (table_iter t) as L. intros L F HCn Hin.
    induction F as [|c' c l L HK F IH]; constructor; [|apply IH; intros x; [intros v Hx; apply HCn; right; exact Hx|intros Hx; apply Hin; right; exact Hx]].
    destruct HK as (K1 & K2 & v & Hv & KA & KB). split; [exact K1|]. split; [exact K2|].
    destruct (HCn c v (or_introl eq_refl) Hv) as [Hcv Hcs]. specialize (Hin c (or_introl eq_refl)). rewrite Hcv.
    destruct (Z_le_gt_dec (cy (bmin (c_box c))) q) as [D|D].
    + destruct (KA D) as [(type & level & own & HS & Hty & En & _) _]. rewrite (HRn (cy (bmin (c_box c))) v type level ltac:(lia) Hv HS). cbn zeta in En. rewrite En. unfold fcell_nature.
      destruct type as [s|]; [unfold nature_or_body; destruct (nature_of_type (Some s)); reflexivity|].
      pose proof (HRn (cy (bmin (c_box c))) v None level ltac:(lia) Hv HS) as Hvn. change (nature_or_body None) with "body" in *. unfold cell_type in Hty.
      replace (if fo_use_cals o then dget (c_styles c) "cellstyle" else None) with (@None sval) in Hty by (destruct (fo_use_cals o); [symmetry; auto|reflexivity]).
      rewrite Hcv, Hvn in Hty. cbn in Hty. rewrite Hty. reflexivity.
    + destruct (KB ltac:(lia)) as (En & _). rewrite En. symmetry. apply (Hfn _ v Hin Hv). lia.
  - intros r v v' Hr Hv Hv'. destruct (HRw r v v' Hr Hv Hv') as [KA KB]. destruct (Z_le_gt_dec r q) as [D|D].
    + destruct (KA D) as (type & level & HS & En & _). rewrite En. symmetry. exact (HRn r v type level ltac:(lia) Hv HS).
    + destruct (KB ltac:(lia)) as [En _]. rewrite En. symmetry. apply (Hfn r v Hr Hv). lia.
Qed.

(** *** The other cases *)

(** The nature of a header is lost when the style of the row does not say it. *)
Theorem C69_header_refuted : exists t e e' corpus t', treachable t /\ tiles (table_iter t) 1 1 /\
    generate_tbl fplain 1 t = Ok e /\ finalize_tree None e = Ok e' /\ x_children e' = [corpus] /\ parse_formex of0 (Some e') 0 [] corpus = Ok t' /\
    map c_nature (table_iter t) = [Some "header"] /\ map c_nature (table_iter t') = [Some "body"].
Proof.
  exists (one_cell (CText "x") (Some "header")). do 4 eexists. split; [apply et_reachable|]. split; [one_tile|].
  split; [vm_compute; reflexivity|]. split; [vm_compute; reflexivity|]. split; [reflexivity|]. split; [vm_compute; reflexivity|]. split; vm_compute; reflexivity.
Qed.
(** A footer which is not in the last row is moved. *)
Definition t_footer_first : table :=
  trun et_start [TReadViews Rows; TSetNature Rows 1 (Some "footer"); TSetNature Rows 2 (Some "body");
                 TInsert Rows 1 (CText "note") None None 1 1; TInsert Rows 2 (CText "a") None None 1 1].
Theorem C69_footer_first_refuted : exists t e e' note corpus t', treachable t /\ tiles (table_iter t) 1 2 /\
    generate_tbl fplain 1 t = Ok e /\ finalize_tree None e = Ok e' /\ x_children e' = [note; corpus] /\ parse_formex of0 (Some e') 0 [note] corpus = Ok t' /\
    texts t = [(MkBox (Coord 1 1) (Coord 1 1), CText "note"); (MkBox (Coord 1 2) (Coord 1 2), CText "a")] /\
    texts t' = [(MkBox (Coord 1 1) (Coord 1 1), CList [CText "a"]); (MkBox (Coord 1 2) (Coord 1 2), CList [CText "note"])].
Proof.
  exists t_footer_first. do 5 eexists. split; [apply et_reachable|]. split.
  - vm_compute table_iter. split; [lia|]. split; [lia|]. split; [repeat (constructor; [unfold valid; cbn; lia|]); constructor|].
    split.
    { repeat (constructor; [repeat (constructor; [intros (k & H1 & H2); unfold covers in *; cbn in *; lia|]); constructor|]). constructor. }
    split; [intros c Hc k; cbn in Hc; destruct Hc as [<-|[<-|[]]]; unfold covers; cbn; lia|].
    intros [x y] Hk. unfold covers in *. cbn in Hk. assert (HY : y = 1 \/ y = 2) by lia. destruct HY as [H|H]; first [pick 0%nat|pick 1%nat].
  - split; [vm_compute; reflexivity|]. split; [vm_compute; reflexivity|]. split; [reflexivity|]. split; [vm_compute; reflexivity|]. split; vm_compute; reflexivity.
Qed.
(** The second cell of a footer is lost. *)
Definition t_footer_two : table :=
  trun et_start [TReadViews Rows; TSetNature Rows 1 (Some "body"); TSetNature Rows 2 (Some "footer");
                 TInsert Rows 1 (CText "a") None None 2 1; TInsert Rows 2 (CText "b") None None 1 1; TInsert Rows 2 (CText "c") None None 1 1].
Theorem C69_footer_cells_refuted : exists t e e' note corpus t', treachable t /\ tiles (table_iter t) 2 2 /\
    generate_tbl fplain 1 t = Ok e /\ finalize_tree None e = Ok e' /\ x_children e' = [note; corpus] /\ parse_formex of0 (Some e') 0 [note] corpus = Ok t' /\
    texts t = [(MkBox (Coord 1 1) (Coord 2 1), CText "a"); (MkBox (Coord 1 2) (Coord 1 2), CText "b"); (MkBox (Coord 2 2) (Coord 2 2), CText "c")] /\
    texts t' = [(MkBox (Coord 1 1) (Coord 2 1), CList [CText "a"]); (MkBox (Coord 1 2) (Coord 2 2), CList [CText "b"])].
Proof.
  exists t_footer_two. do 5 eexists. split; [apply et_reachable|]. split.
  - vm_compute table_iter. split; [lia|]. split; [lia|]. split; [repeat (constructor; [unfold valid; cbn; lia|]); constructor|].
    split.
    { repeat (constructor; [repeat (constructor; [intros (k & H1 & H2); unfold covers in *; cbn in *; lia|]); constructor|]). constructor. }
    split; [intros c Hc k; cbn in Hc; destruct Hc as [<-|[<-|[<-|[]]]]; unfold covers; cbn; lia|].
    intros [x y] Hk. unfold covers in *. cbn in Hk. assert (HY : y = 1 \/ (x = 1 /\ y = 2) \/ (x = 2 /\ y = 2)) by lia. destruct HY as [H|[H|H]]; first [pick 0%nat|pick 1%nat|pick 2%nat].
  - split; [vm_compute; reflexivity|]. split; [vm_compute; reflexivity|]. split; [reflexivity|]. split; [vm_compute; reflexivity|]. split; vm_compute; reflexivity.
Qed.

(** *** Example: a header, a row in the body, a row in a block and a footer *)
Definition t_fin : table :=
  trun t_ex_start
    [TReadViews Rows; TSetNature Rows 1 (Some "header"); TSetStyles Rows 1 (Some [("rowstyle", SStr "ROW-HEADER"); ("vertical-align", SStr "middle")]);
     TSetNature Rows 2 (Some "body"); TSetNature Rows 3 (Some "body"); TSetStyles Rows 3 (Some [("rowstyle", SStr "ROW-level1")]); TSetNature Rows 4 (Some "footer");
     TSetStyles Rows 4 (Some [("background-color", SStr "blue")]);
     TInsert Rows 1 (CText "title") (Some [("align", SStr "center")]) None 2 1;
     TInsert Rows 2 (CList [CText "a"; CNode (XElem "p" [] None [] None)]) None None 1 2; TInsert Rows 2 (CText "b") None None 1 1;
     TInsert Rows 3 (CText "c") None None 1 1; TInsert Rows 4 (CText "note") None None 2 1].
Example t_fin_reachable : treachable t_fin.
Proof. apply trun_treachable. eapply treach_new. exact t_ex_new. Qed.
Example t_fin_tiles : tiles (table_iter t_fin) 2 4.
Proof.
  vm_compute table_iter. split; [lia|]. split; [lia|]. split; [repeat (constructor; [unfold valid; cbn; lia|]); constructor|].
  split.
  { repeat (constructor; [repeat (constructor; [intros (k & H1 & H2); unfold covers in *; cbn in *; lia|]); constructor|]). constructor. }
  split; [intros c Hc k; cbn in Hc; decompose [or] Hc; subst; try contradiction; unfold covers; cbn; lia|].
  intros [x y] Hk. unfold covers in *. cbn in Hk.
  assert (HY : y = 1 \/ (x = 1 /\ 2 <= y <= 3) \/ (x = 2 /\ y = 2) \/ (x = 2 /\ y = 3) \/ y = 4) by lia.
  destruct HY as [H|[H|[H|[H|H]]]]; first [pick 0%nat|pick 1%nat|pick 2%nat|pick 3%nat|pick 4%nat].
Qed.
Example t_fin_ordered : rows_ordered t_fin.
Proof.
  unfold t_fin. intros p v Hp Hv. eapply (C27_order_row_wise_partial _ _ _ _ p v); [exact t_ex_new| | |exact Hp|exact Hv].
  - repeat (apply Forall_cons; [cbn; auto; lia|]). apply Forall_nil.
  - intros bb ct s na H. clear Hv. cbn in H. repeat (destruct H as [H|H]; [discriminate H|]). destruct H.
Qed.
Example t_fin_counts : view_count Cols t_fin 2 /\ view_count Rows t_fin 4.
Proof. split; eexists; split; vm_compute; reflexivity. Qed.
Example t_fin_nodes : plain_nodes (Some "urn:cals") (table_iter t_fin) /\ no_tables (table_iter t_fin).
Proof.
  assert (K : forall c n, In c (table_iter t_fin) -> In (Node n) (content_pieces (c_content c)) -> n = XElem "p" [] None [] None).
  { intros c n Hc Hn. vm_compute in Hc. repeat (destruct Hc as [Hc|Hc]; [subst c; cbn in Hn; repeat (destruct Hn as [Hn|Hn]; [congruence|]); destruct Hn|]). destruct Hc. }
  split; intros c n Hc Hn; rewrite (K c n Hc Hn); [split; [stranger_tac|discriminate]|]. constructor; [intros s [= <-] H; cbn in H; intuition discriminate|intros d []].
Qed.
Lemma fin_reads r v : reads Rows r t_fin v -> 1 <= r <= 4 ->
  (r = 1 /\ v_nature v = Some "header" /\ dget (v_styles v) "rowstyle" = Some (SStr "ROW-HEADER")) \/
  (r = 2 /\ v_nature v = Some "body" /\ dget (v_styles v) "rowstyle" = None) \/
  (r = 3 /\ v_nature v = Some "body" /\ dget (v_styles v) "rowstyle" = Some (SStr "ROW-level1")) \/
  (r = 4 /\ v_nature v = Some "footer").
Proof.
  intros H Hr. assert (HY : r = 1 \/ r = 2 \/ r = 3 \/ r = 4) by lia.
  destruct HY as [->|[->|[->| ->]]]; vm_compute in H; injection H as <-; cbn; tauto.
Qed.
Example t_fin_footers : footers_after 3 t_fin 2 4.
Proof.
  split; [lia|]. split.
  - intros r v Hr Hv. destruct (fin_reads r v Hv Hr) as [(-> & -> & _)|[(-> & -> & _)|[(-> & -> & _)|(-> & ->)]]]; split; intros H; try discriminate H; try lia; reflexivity.
  - intros r Hr. assert (r = 4) as -> by lia. eexists. split; [apply (nth_error_In _ 4); vm_compute; reflexivity|reflexivity].
Qed.
(** What a style says is decided by [guess_row_info]. *)
Lemma says_guess use v tag type level : row_says use v tag type level ->
  let s := match (if use then dget (v_styles v) "rowstyle" else None) with Some (SStr s) => Some s | _ => None end in
  tag = ri_tag (guess_row_info s) /\ type = ri_type (guess_row_info s) /\ level = ri_level (guess_row_info s).
Proof.
  unfold row_says. destruct (if use then dget (v_styles v) "rowstyle" else None) as [[s| | |]|]; cbn zeta; intros H; try exact H.
  assert (HD : decoded None (XElem "ROW" [("rowstyle", s)] None [] None) tag type level) by exact H.
  apply decoded_is_guess in HD. change (guess_row_info (Some s) = MkRowInfo tag type level) in HD. rewrite HD. cbn [ri_tag ri_type ri_level]. auto.
Qed.
Example t_fin_titles : no_block_titles true t_fin 3.
Proof.
  intros r v tag type level Hr Hv HS. apply says_guess in HS as [HS _]. rewrite HS.
  destruct (fin_reads r v Hv ltac:(lia)) as [(_ & _ & ->)|[(_ & _ & ->)|[(_ & _ & ->)|(E & _)]]]; [reflexivity|reflexivity|reflexivity|lia].
Qed.
Example t_fin_said : forall r v type level, 1 <= r <= 3 -> reads Rows r t_fin v -> row_says true v "ROW" type level -> v_nature v = Some (nature_or_body type).
Proof.
  intros r v type level Hr Hv HS. apply says_guess in HS as (_ & HS & _). rewrite HS.
  destruct (fin_reads r v Hv ltac:(lia)) as [(_ & -> & ->)|[(_ & -> & ->)|[(_ & -> & ->)|(E & _)]]]; [reflexivity|reflexivity|reflexivity|lia].
Qed.
Example t_fin_cells : forall c v, In c (table_iter t_fin) -> reads Rows (cy (bmin (c_box c))) t_fin v ->
    c_nature c = v_nature v /\ (fo_use_cals fcals = true -> dget (c_styles c) "cellstyle" = None).
Proof.
  intros c v Hc Hv. vm_compute in Hc. destruct Hc as [<-|[<-|[<-|[<-|[<-|[]]]]]]; vm_compute in Hv; injection Hv as <-; split; reflexivity.
Qed.
Example C69_example : exists e e' note corpus t', generate_tbl fcals 1 t_fin = Ok e /\ finalize_tree (Some "urn:cals") e = Ok e' /\
    x_children e' = [note; corpus] /\ parse_formex of_cals (Some e') 0 [note] corpus = Ok t' /\
    ftable_kept true t' t_fin /\
    map c_box (table_iter t') = map c_box (table_iter t_fin) /\ map c_nature (table_iter t') = map c_nature (table_iter t_fin) /\
    x_tag note = Some "GR.NOTES" /\ (exists v, reads Rows 3 t' v /\ dget (v_styles v) "rowstyle" = Some (SStr "ROW-level1")) /\
    (exists c, In c (table_iter t') /\ c_nature c = Some "footer" /\ dget (c_styles c) "background-color" = Some (SStr "blue")).
Proof.
  assert (HX : exists e, generate_tbl fcals 1 t_fin = Ok e) by (eexists; vm_compute; reflexivity). destruct HX as (e & Ee).
  pose proof t_fin_counts as [HC HW]. pose proof t_fin_nodes as [HN1 HN2].
  destruct (C69_finished_partial fcals of_cals 1 t_fin 2 4 3 e t_fin_reachable eq_refl eq_refl ltac:(intros _; reflexivity) ltac:(discriminate) t_fin_tiles HC HW t_fin_ordered HN1 HN2 t_fin_footers t_fin_titles Ee)
    as (e' & before & corpus & t' & E1 & E2 & E3 & _ & _ & _ & HK & _).
  change (co_ns (fo_cals fcals)) with (Some "urn:cals") in E1.
  vm_compute in Ee. injection Ee as Ee. subst e. vm_compute in E1. injection E1 as E1. subst e'. destruct before as [|note [|x l]]; [discriminate E2| |destruct l; discriminate E2].
  injection E2 as En Eco. subst note corpus. do 4 eexists. exists t'. split; [vm_compute; reflexivity|]. split; [vm_compute; reflexivity|]. split; [reflexivity|]. split; [exact E3|].
  split; [exact HK|]. clear HK. vm_compute in E3. injection E3 as <-. split; [vm_compute; reflexivity|]. split; [vm_compute; reflexivity|]. split; [reflexivity|]. split.
  - eexists. split; [vm_compute; reflexivity|reflexivity].
  - eexists. split; [apply (nth_error_In _ 4); vm_compute; reflexivity|]. split; reflexivity.
Qed.

Print Assumptions C69_finished_partial.
Print Assumptions C69_same_cells_partial.
Print Assumptions C69_header_refuted.
Print Assumptions C69_footer_first_refuted.
Print Assumptions C69_footer_cells_refuted.
