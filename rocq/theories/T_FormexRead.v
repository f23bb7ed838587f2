(** * Theorems about the reading of Formex tables (C62 to C67) *)
From Verif Require Import Base M_Geometry M_Xml M_Cell M_Grid M_Table M_Regex M_Str M_Units M_Cals M_CalsParser M_FormexParser M_FormexRead.
From Verif Require Import S_Geometry S_Grid S_Table S_Units S_Cals S_Int S_CalsParser S_FormexRead.
From Verif Require Import P_Geometry P_Grid P_GridFacts P_Table P_TableFacts P_TableMore P_Int P_CalsParser P_CalsLayout P_CalsSim P_CalsEvents P_CalsTable P_CalsMore P_RoundTripMain P_Reading P_FormexEvents P_FormexSim P_FormexTable P_FormexMore P_FormexTight.
Open Scope string_scope.
Open Scope list_scope.
Open Scope Z_scope.

(** ** C62: the layout *)

Theorem C62_layout : forall o parent blks before e t,
    proper_corpus (pf_ns o) (pf_cals_ns o) e -> parse_formex o parent blks before e = Ok t ->
    exists l g, flaid_out (pf_ns o) (pf_cals_ns o) (pf_embed o) true blks before e l g /\
      mosaic (table_iter t) g /\ view_count Cols t (f_cols l) /\
      (forall r v, 1 <= r -> reads Rows r t v ->
         row_described (frow_items (pf_ns o) (pf_cals_ns o) (fitems (pf_ns o) (pf_cals_ns o) blks before e)) r v) /\
      (forall j v, 1 <= j -> reads Cols j t v -> column_described (f_looks l) j v).
Proof.
  intros o parent blks before e t Hreg E. pose proof (parse_formex_sim o parent blks before e Hreg) as H. rewrite E in H.
  destruct H as (l & g & HL & HF & _). exists l, g. split; [exact HL|]. split; [apply HF|]. split; [apply colcount_count; apply HF|].
  destruct (treachable_tinv t (fo_reach _ _ _ _ _ HF)) as (og & HT). split.
  - intros r v Hr Hv. pose proof (reads_attr Rows r t og v HT Hr Hv) as Ea. pose proof (fo_rows _ _ _ _ _ HF (Z.to_nat (r - 1))) as R.
    unfold row_described. unfold frow_ok in R. rewrite <- Ea in R.
    destruct (nth_error _ (Z.to_nat (r - 1))) as [[na lk]|]; [exact R|]. unfold vattr in R. split; congruence.
  - intros j v Hj Hv. pose proof (reads_attr Cols j t og v HT Hj Hv) as Ea. pose proof (fo_cols_ _ _ _ _ _ HF (Z.to_nat (j - 1))) as R.
    unfold column_described. unfold fcol_ok in R. rewrite <- Ea in R. replace (Z.of_nat (Z.to_nat (j - 1)) + 1) with j in R by lia. exact R.
Qed.

(** The layout is the only one and the parser finds it. *)
Theorem C62_one_layout : forall ns cns embed watch blks before e l g l' g',
    flaid_out ns cns embed watch blks before e l g -> flaid_out ns cns embed watch blks before e l' g' -> l = l' /\ g = g'.
Proof.
  intros ns cns embed watch blks before e l g l' g' (HL & bb & Hb & Hf) (HL' & bb' & Hb' & Hf'). pose proof (flays_fun _ _ _ _ _ _ _ _ HL HL') as <-.
  pose proof (bounds_fun _ _ _ Hb Hb') as <-. split; [reflexivity|]. eapply covered_fun; eassumption.
Qed.
Theorem C62_succeeds : forall o parent blks before e l g,
    proper_corpus (pf_ns o) (pf_cals_ns o) e -> frame_known (pf_cals_ns o) e ->
    flaid_out (pf_ns o) (pf_cals_ns o) (pf_embed o) true blks before e l g ->
    exists t, parse_formex o parent blks before e = Ok t /\ mosaic (table_iter t) g.
Proof.
  intros o parent blks before e l g Hreg Hfr HL. pose proof (parse_formex_sim o parent blks before e Hreg) as H.
  destruct (parse_formex o parent blks before e) as [t|x].
  - destruct H as (l' & g' & HL' & HF & _). destruct (C62_one_layout _ _ _ _ _ _ _ _ _ _ _ HL HL') as [<- <-]. exists t. split; [reflexivity|apply HF].
  - exfalso. destruct H as [(y & Hy)|H]; [|exact (H l g HL)].
    pose proof (corpus_attrs_spec o e parent) as HS. rewrite Hy in HS. exact (HS Hfr).
Qed.

(** Examples *)
Definition fel (name : string) (attrs : dict string) (children : list xnode) : xnode := XElem name attrs None children None.
Definition say (name : string) (attrs : dict string) (s : string) : xnode := XElem name attrs (Some s) [] None.
Definition of0 : pfmx_opts := MkPFmxOpts None (Some "cals") false.
Ltac each H := cbn [In fel say x_children] in H; repeat (destruct H as [<-|H]); try (destruct H).
Ltac no_elem :=
  let name := fresh in let Hin := fresh in let Hn := fresh in
  intros [(name & Hin & Hn)|Hn]; [cbn [fmx_names In] in Hin; repeat (destruct Hin as [<-|Hin]; [discriminate Hn|]); destruct Hin|discriminate Hn].
Ltac stranger_tac := constructor; [no_elem|let c := fresh in let H := fresh in intros c H; each H; stranger_tac].
Ltac unnoted :=
  let c := fresh in let d := fresh in let Hc := fresh in let Hd := fresh in let H1 := fresh in let H2 := fresh in
  intros c d Hc H1 Hd H2; each Hc; first [discriminate H1|each Hd; discriminate H2].
Ltac filling_tac :=
  first [apply filling_corpus; reflexivity
        |apply filling_other; [no_elem|unnoted|let c := fresh in let H := fresh in intros c H; each H; filling_tac]].
Ltac fills_tac := split; [unnoted|let c := fresh in let H := fresh in intros c H; each H; filling_tac].
Ltac part_tac :=
  first [apply pp_row; [reflexivity|let c := fresh in let H := fresh in intros c H; each H; first [right; split; [reflexivity|fills_tac]|left; stranger_tac]]
        |apply pp_title; [first [left; reflexivity|right; reflexivity]|fills_tac]
        |apply pp_colspec; [reflexivity|let c := fresh in let H := fresh in intros c H; each H; stranger_tac
           |intros ? ? Hs Hi; vm_compute in Hs; first [discriminate Hs|injection Hs as <-; apply py_int_spec in Hi; vm_compute in Hi; injection Hi as <-; lia]]
        |apply pp_blk; [reflexivity|let c := fresh in let H := fresh in intros c H; each H; part_tac]
        |apply pp_other; stranger_tac].
Ltac proper_tac := split; [reflexivity|let c := fresh in let H := fresh in intros c H; each H; part_tac].

Definition corpus_full : xnode :=
  fel "CORPUS" [] [
    fel "{cals}colspec" [("{cals}colwidth", "20mm")] []; fel "{cals}colspec" [("{cals}align", "char")] [];
    fel "ROW" [("TYPE", "HEADER")] [say "CELL" [("TYPE", "HEADER"); ("COLSPAN", "2")] "a"; say "CELL" [("TYPE", "NORMAL")] "b"];
    fel "BLK" [] [
      say "TI.BLK" [("COL.START", "1"); ("COL.END", "2")] "t";
      fel "ROW" [("{cals}valign", "top")] [say "CELL" [("ROWSPAN", "2")] "c"; fel "CELL" [] [fel "IE" [] []]];
      fel "ROW" [] [say "CELL" [] "d"]]].
Definition tbl_full : xnode := fel "TBL" [("CLASS", "GEN"); ("PAGE.SIZE", "SINGLE.LANDSCAPE")] [].
Definition notes_full : list xnode := [fel "GR.NOTES" [("{cals}bgcolor", "red")] []].
Example corpus_full_proper : proper_corpus None (Some "cals") corpus_full.
Proof. proper_tac. Qed.
Example C62_layout_example : exists t l g,
    parse_formex of0 (Some tbl_full) 0 notes_full corpus_full = Ok t /\
    flaid_out None (Some "cals") false true 0 notes_full corpus_full l g /\ f_cols l = 3 /\
    map (fun c => (c_box c, c_content c)) (table_iter t) = [
      (MkBox (Coord 1 1) (Coord 2 1), CList [CText "a"]); (MkBox (Coord 3 1) (Coord 3 1), CList [CText "b"]);
      (MkBox (Coord 1 2) (Coord 2 2), CList [CText "t"]); (MkBox (Coord 3 2) (Coord 3 2), CNone);
      (MkBox (Coord 1 3) (Coord 1 4), CList [CText "c"]); (MkBox (Coord 2 3) (Coord 2 3), CText ""); (MkBox (Coord 3 3) (Coord 3 3), CNone);
      (MkBox (Coord 2 4) (Coord 2 4), CList [CText "d"]); (MkBox (Coord 3 4) (Coord 3 4), CNone);
      (MkBox (Coord 1 5) (Coord 3 5), CList [])] /\
    map c_nature (table_iter t) = map Some ["header"; "body"; "body"; "body"; "body"; "body"; "body"; "body"; "body"; "footer"] /\
    (exists v, reads Rows 2 t v /\ dget (v_styles v) "rowstyle" = Some (SStr "TI.BLK-level1")) /\
    t_nature t = Some "GEN" /\ dget (t_styles t) "x-sect-orient" = Some (SStr "landscape").
Proof.
  assert (HX : exists t, parse_formex of0 (Some tbl_full) 0 notes_full corpus_full = Ok t) by (eexists; vm_compute; reflexivity). destruct HX as (t & Et).
  destruct (C62_layout of0 (Some tbl_full) 0 notes_full corpus_full t corpus_full_proper Et) as (l & g & HL & HP & HC & _).
  exists t, l, g. split; [exact Et|]. split; [exact HL|]. split.
  - eapply view_count_fun; [exact HC|]. clear - Et. vm_compute in Et; injection Et as <-. eexists; split; vm_compute; reflexivity.
  - vm_compute in Et; injection Et as <-. vm_compute. repeat (split; [reflexivity|]). split; [eexists; split; reflexivity|]. split; reflexivity.
Qed.

(** ** C63: no hole, no overlap *)

(** For all trees *)
Theorem C63_no_hole : forall o parent blks before e t,
    named (pf_ns o) "CORPUS" e -> parse_formex o parent blks before e = Ok t ->
    treachable t /\
    exists bb, table_bounding_box t = Ok (Some bb) /\ forall k, covers bb k -> exists c, In c (table_iter t) /\ covers (c_box c) k.
Proof.
  intros o parent blks before e t He E. destruct (parse_formex_ok o parent blks before e t He E) as (H1 & H2 & _). auto.
Qed.
Example C63_no_hole_example : exists t bb, parse_formex of0 None 0 [] corpus_full = Ok t /\ table_bounding_box t = Ok (Some bb) /\
    bb = MkBox (Coord 1 1) (Coord 3 4) /\ List.length (table_iter t) = 9%nat.
Proof. do 2 eexists. split; [vm_compute; reflexivity|]. split; [vm_compute; reflexivity|]. split; vm_compute; reflexivity. Qed.

(** Two cells may overlap. *)
Definition corpus_overlap : xnode :=
  fel "CORPUS" [] [
    fel "ROW" [] [fel "CELL" [] []; fel "CELL" [("ROWSPAN", "3")] []; fel "CELL" [] []];
    fel "ROW" [] [fel "CELL" [("COLSPAN", "3")] []]].
Theorem C63_overlap_refuted : exists o e t,
    proper_corpus (pf_ns o) (pf_cals_ns o) e /\ parse_formex o None 0 [] e = Ok t /\ ~ no_overlap (table_iter t).
Proof.
  exists of0, corpus_overlap. eexists. split; [proper_tac|]. split; [vm_compute; reflexivity|].
  intros H. vm_compute table_iter in H. inversion H as [|? ? _ H1]; subst. inversion H1 as [|? ? H2 _]; subst.
  rewrite Forall_forall in H2. eapply H2; [right; left; reflexivity|].
  exists (Coord 2 2). unfold covers. cbn. lia.
Qed.
(** ... not when all the cells are on one row. *)
Theorem C63_no_overlap_partial : forall o parent blks before e t,
    proper_corpus (pf_ns o) (pf_cals_ns o) e -> parse_formex o parent blks before e = Ok t ->
    (forall b row c, In (FLine b row) (fitems (pf_ns o) (pf_cals_ns o) blks before e) -> In c (of_name (pf_ns o) "CELL" (x_children row)) ->
       attribute (pf_ns o) c "ROWSPAN" = None /\ attribute (pf_cals_ns o) c "morerows" = None) ->
    no_overlap (table_iter t).
Proof.
  intros o parent blks before e t Hreg E HH. destruct (C62_layout o parent blks before e t Hreg E) as (l & g & HL & HP & _).
  destruct (C63_no_hole o parent blks before e t (proj1 Hreg) E) as [HR _]. destruct (treachable_tinv t HR) as (og & HS & HM).
  apply no_clash_thin; [apply HM|apply HM|]. left. intros c Hc. destruct (mosaic_tile _ _ _ HP Hc) as (s & Hs & _ & _ & Eb & _). rewrite Eb.
  exact (flat_tiles _ _ _ _ _ _ _ _ _ HL HH s Hs).
Qed.
Definition corpus_flat : xnode :=
  fel "CORPUS" [] [fel "ROW" [] [fel "CELL" [("COLSPAN", "2")] []]; fel "BLK" [] [fel "TI.BLK" [("COL.END", "2")] []; fel "ROW" [] [fel "CELL" [] []; fel "CELL" [] []]]].
Example C63_no_overlap_example : exists t, parse_formex of0 None 0 notes_full corpus_flat = Ok t /\ no_overlap (table_iter t) /\
    List.length (table_iter t) = 5%nat.
Proof.
  assert (HX : exists t, parse_formex of0 None 0 notes_full corpus_flat = Ok t) by (eexists; vm_compute; reflexivity).
  destruct HX as (t & Et). exists t. split; [exact Et|]. split.
  - refine (C63_no_overlap_partial of0 None 0 notes_full corpus_flat t ltac:(proper_tac) Et _). intros b row c Hin Hc. vm_compute in Hin.
    repeat (destruct Hin as [Hin|Hin]; [first [discriminate Hin|injection Hin as <- <-; vm_compute in Hc; repeat (destruct Hc as [<-|Hc]; [split; reflexivity|]); destruct Hc]|]). destruct Hin.
  - vm_compute in Et. injection Et as <-. reflexivity.
Qed.

(** ** C64: the attributes of the table *)

Theorem C64_table_attributes : forall o parent blks before e t,
    named (pf_ns o) "CORPUS" e -> parse_formex o parent blks before e = Ok t ->
    ftable_attributes (pf_ns o) (pf_cals_ns o) parent e t.
Proof.
  intros o parent blks before e t He E. destruct (parse_formex_ok o parent blks before e t He E) as (_ & _ & Ea).
  pose proof (corpus_attrs_spec o e parent) as H. rewrite Ea in H. apply H; reflexivity.
Qed.
Definition corpus_styled : xnode :=
  fel "CORPUS" [("{cals}frame", "topbot"); ("{cals}tabstyle", "wide"); ("{cals}orient", "port"); ("{cals}colsep", "0")]
    [fel "ROW" [] [fel "CELL" [] [fel "TBL" [] [fel "CORPUS" [("{cals}frame", "all")] [fel "ROW" [] [fel "CELL" [] []]]]]]].
Example C64_table_attributes_example : exists t, parse_formex of0 (Some tbl_full) 0 [] corpus_styled = Ok t /\
    t_nature t = Some "GEN-wide" /\ dget (t_styles t) "x-sect-orient" = Some (SStr "portrait") /\
    dget (t_styles t) "border-top" = Some (SStr "solid 1pt black") /\ dget (t_styles t) "border-left" = Some (SStr "none") /\
    dget (t_styles t) "x-cell-border-right" = Some (SStr "none").
Proof. eexists. split; [vm_compute; reflexivity|]. repeat (split; [vm_compute; reflexivity|]). vm_compute; reflexivity. Qed.

(** ** C65: the notes *)

(** The notes are below the table, each one in a row of nature footer which is as wide as the table and the rest is
    as without notes, when no cell hangs below the last row. *)
Theorem C65_notes_partial : forall o parent blks before e t t0 bb,
    proper_corpus (pf_ns o) (pf_cals_ns o) e ->
    parse_formex o parent blks before e = Ok t -> parse_formex o parent blks [] e = Ok t0 ->
    table_bounding_box t0 = Ok (Some bb) ->
    let r := Z.of_nat (List.length (frow_items (pf_ns o) (pf_cals_ns o) (fitems (pf_ns o) (pf_cals_ns o) blks [] e))) in
    1 <= r -> cy (bmax bb) = r ->
    cx (bmin bb) = 1 /\
    exists g0, mosaic (table_iter t0) g0 /\
      mosaic (table_iter t) (note_tiles (pf_ns o) (pf_cals_ns o) (pf_embed o) (cx (bmax bb)) (r + 1) (of_name (pf_ns o) "GR.NOTES" before) ++ g0).
Proof.
  intros o parent blks before e t t0 bb Hreg E E0 Hbb. cbv zeta. intros Hr Hlast.
  destruct (C62_layout o parent blks before e t Hreg E) as (l & g & HL & HP & _).
  destruct (C62_layout o parent blks [] e t0 Hreg E0) as (l0 & g0 & HL0 & HP0 & _).
  destruct (C63_no_hole o parent blks [] e t0 (proj1 Hreg) E0) as [HR0 _].
  assert (Hb : bounds (map snd g0) bb).
  { apply (mosaic_bounds _ _ _ HP0). destruct (treachable_tinv t0 HR0) as (og & HS & HM). assert (HV : all_valid (t_grid t0)) by apply HM.
    apply grid_bounds; [exact HV| |exact Hbb]. intros Eg. unfold table_bounding_box in Hbb.
    destruct (bounding_box_spec (t_grid t0) HV) as [[_ Eb]|(Hne & _)]; [congruence|contradiction]. }
  destruct (notes_below _ _ _ _ _ _ _ _ _ _ _ HL HL0 bb Hb Hr Hlast) as [H1 HPerm]. split; [exact H1|].
  exists g0. split; [exact HP0|]. destruct HP as (cells & Hperm & HF).
  destruct (Forall2_perm_r _ _ _ _ HF HPerm) as (cells' & Hp' & HF'). exists cells'. split; [|exact HF'].
  transitivity cells; [symmetry; exact Hp'|exact Hperm].
Qed.
Definition notes_two : list xnode := [say "GR.NOTES" [] "n1"; fel "P" [] []; say "GR.NOTES" [] "n2"].
Example C65_notes_example : exists t t0 bb,
    parse_formex of0 None 0 notes_two corpus_flat = Ok t /\ parse_formex of0 None 0 [] corpus_flat = Ok t0 /\
    table_bounding_box t0 = Ok (Some bb) /\ bb = MkBox (Coord 1 1) (Coord 2 3) /\
    List.length (frow_items None (Some "cals") (fitems None (Some "cals") 0 [] corpus_flat)) = 3%nat /\
    map c_content (filter (fun c => 3 <? cy (bmin (c_box c))) (table_iter t)) = [CList [CText "n1"]; CList [CText "n2"]] /\
    map c_box (filter (fun c => 3 <? cy (bmin (c_box c))) (table_iter t)) = [MkBox (Coord 1 4) (Coord 2 4); MkBox (Coord 1 5) (Coord 2 5)].
Proof.
  do 3 eexists. split; [vm_compute; reflexivity|]. split; [vm_compute; reflexivity|]. split; [vm_compute; reflexivity|].
  repeat (split; [vm_compute; reflexivity|]). vm_compute; reflexivity.
Qed.
(** Below a cell which hangs, the notes are moved and the table becomes wider. *)
Definition corpus_hanging : xnode := fel "CORPUS" [] [fel "ROW" [] [fel "CELL" [("ROWSPAN", "2")] []; fel "CELL" [] []]].
Theorem C65_hanging_refuted : exists o before e t c n,
    proper_corpus (pf_ns o) (pf_cals_ns o) e /\ before = [n] /\ named (pf_ns o) "GR.NOTES" n /\ parse_formex o None 0 before e = Ok t /\
    In c (table_iter t) /\ c_content c = fcontent_of (pf_ns o) n /\ c_box c = MkBox (Coord 2 2) (Coord 3 2) /\
    table_bounding_box t = Ok (Some (MkBox (Coord 1 1) (Coord 3 2))).
Proof.
  exists of0, [say "GR.NOTES" [] "n"], corpus_hanging. do 3 eexists. split; [proper_tac|]. split; [reflexivity|]. split; [reflexivity|].
  split; [vm_compute; reflexivity|]. split; [vm_compute; do 3 right; left; reflexivity|]. repeat (split; [vm_compute; reflexivity|]). vm_compute; reflexivity.
Qed.

(** ** C66: nested tables *)

(** The notes of a nested table become a row of the outer table, with the cells which follow. *)
Definition corpus_outer (inner : list xnode) : xnode :=
  fel "CORPUS" [] [fel "ROW" [] [fel "CELL" [] [fel "TBL" [] inner]; say "CELL" [] "b"]].
Definition corpus_inner : xnode := fel "CORPUS" [] [fel "ROW" [] [fel "CELL" [] []]].
Theorem C66_nested_notes_refuted : exists o inner e e' t t',
    e = corpus_outer inner /\ e' = corpus_outer (filter (fun n => negb (has_name (pf_ns o) "GR.NOTES" n)) inner) /\
    parse_formex o None 0 [] e = Ok t /\ parse_formex o None 0 [] e' = Ok t' /\
    map c_box (table_iter t') = [MkBox (Coord 1 1) (Coord 1 1); MkBox (Coord 2 1) (Coord 2 1)] /\
    map c_box (table_iter t) = [MkBox (Coord 1 1) (Coord 1 1); MkBox (Coord 2 1) (Coord 2 1); MkBox (Coord 1 2) (Coord 1 2); MkBox (Coord 2 2) (Coord 2 2)] /\
    exists c v, In c (table_iter t) /\ c_content c = CList [CText "b"] /\ c_box c = MkBox (Coord 2 2) (Coord 2 2) /\
      reads Rows 2 t v /\ v_nature v = Some "footer".
Proof.
  exists of0, [say "GR.NOTES" [] "n"; corpus_inner]. do 4 eexists. split; [reflexivity|]. split; [reflexivity|].
  split; [vm_compute; reflexivity|]. split; [vm_compute; reflexivity|]. split; [vm_compute; reflexivity|]. split; [vm_compute; reflexivity|].
  do 2 eexists. split; [vm_compute; do 3 right; left; reflexivity|]. repeat (split; [vm_compute; reflexivity|]). vm_compute; reflexivity.
Qed.
(** A nested table without notes may change the layout: the holes are filled too early. *)
Definition corpus_two (inner : list xnode) : xnode :=
  fel "CORPUS" [] [fel "ROW" [] [fel "CELL" [] []; fel "CELL" [] []]; fel "ROW" [] [fel "CELL" [] inner; say "CELL" [] "b"]].
Theorem C66_nested_refuted : exists o t t',
    proper_corpus (pf_ns o) (pf_cals_ns o) (corpus_two [corpus_inner]) /\
    parse_formex o None 0 [] (corpus_two [corpus_inner]) = Ok t /\ parse_formex o None 0 [] (corpus_two []) = Ok t' /\
    map c_box (table_iter t) <> map c_box (table_iter t').
Proof.
  exists of0. do 2 eexists. split; [proper_tac|]. split; [vm_compute; reflexivity|]. split; [vm_compute; reflexivity|]. vm_compute. discriminate.
Qed.
(** Without nested tables the layout is the plain one ([watch = false]).  Missing: the nested tables which do no harm. *)
Theorem C66_nested_partial : forall o parent blks before e t,
    proper_corpus (pf_ns o) (pf_cals_ns o) e -> parse_formex o parent blks before e = Ok t ->
    (forall b line, In (FLine b line) (fitems (pf_ns o) (pf_cals_ns o) blks before e) -> no_nested (pf_ns o) line) ->
    exists l g, flaid_out (pf_ns o) (pf_cals_ns o) (pf_embed o) false blks before e l g /\ mosaic (table_iter t) g.
Proof.
  intros o parent blks before e t Hreg E Hn. destruct (C62_layout o parent blks before e t Hreg E) as (l & g & (HL & HB) & HP & _).
  exists l, g. split; [|exact HP]. split; [|exact HB]. eapply flays_watch; [|exact HL]. exact Hn.
Qed.
Example C66_nested_example : forall b line, In (FLine b line) (fitems None (Some "cals") 0 [] corpus_full) -> no_nested None line.
Proof.
  assert (HN : forall n, In n [fel "IE" [] []] -> ~ holds_corpus None n).
  { intros n [<-|[]] H. inversion H as [? H1|? c H1 _]; subst; [discriminate H1|destruct H1]. }
  intros b line Hin. vm_compute in Hin.
  repeat (destruct Hin as [Hin|Hin]; [first [discriminate Hin|injection Hin as _ Hl; subst line;
    intros c [Hc|[Hc Ht]] n Hn; [vm_compute in Hc; repeat (destruct Hc as [Hc|Hc]; [subst c; first [apply HN; exact Hn|destruct Hn]|]); destruct Hc|
      first [destruct Ht as [Ht|Ht]; discriminate Ht|subst c; destruct Hn]]]|]). destruct Hin.
Qed.

(** Nested tables are ignored whenever the enclosing table has no hole at that moment. *)
Theorem C66_nested_read_partial : forall o parent blks before e t,
    proper_corpus (pf_ns o) (pf_cals_ns o) e -> parse_formex o parent blks before e = Ok t ->
    (forall c gg, freaches (pf_ns o) (pf_cals_ns o) (pf_embed o) blks before e c gg -> has_corpus (pf_ns o) c -> no_hole (map snd gg)) ->
    exists l g, flaid_out (pf_ns o) (pf_cals_ns o) (pf_embed o) false blks before e l g /\ mosaic (table_iter t) g.
Proof.
  intros o parent blks before e t Hreg E Hn. destruct (C62_layout o parent blks before e t Hreg E) as (l & g & HL & HP & _).
  exists l, g. split; [|exact HP]. apply (flaid_tight _ _ _ _ _ _ Hn), HL.
Qed.
Theorem C66_nested_succeeds_partial : forall o parent blks before e l g,
    proper_corpus (pf_ns o) (pf_cals_ns o) e -> frame_known (pf_cals_ns o) e ->
    flaid_out (pf_ns o) (pf_cals_ns o) (pf_embed o) false blks before e l g ->
    (forall c gg, freaches (pf_ns o) (pf_cals_ns o) (pf_embed o) blks before e c gg -> has_corpus (pf_ns o) c -> no_hole (map snd gg)) ->
    exists t, parse_formex o parent blks before e = Ok t /\ mosaic (table_iter t) g.
Proof.
  intros o parent blks before e l g Hreg Hfr HL Hn. apply (C62_succeeds o parent blks before e l g Hreg Hfr), (flaid_tight _ _ _ _ _ _ Hn), HL.
Qed.
(** In particular the tables which are in the first row, when its cells are on one row. *)
Theorem C66_first_row_partial : forall o parent blks before e t its0 b line its,
    proper_corpus (pf_ns o) (pf_cals_ns o) e -> parse_formex o parent blks before e = Ok t ->
    fitems (pf_ns o) (pf_cals_ns o) blks before e = its0 ++ FLine b line :: its -> (forall i, In i its0 -> exists c, i = FColumn c) ->
    (forall c, In c (of_name (pf_ns o) "CELL" (x_children line)) -> attribute (pf_ns o) c "ROWSPAN" = None /\ attribute (pf_cals_ns o) c "morerows" = None) ->
    (forall b' line', In (FLine b' line') its -> no_nested (pf_ns o) line') ->
    exists l g, flaid_out (pf_ns o) (pf_cals_ns o) (pf_embed o) false blks before e l g /\ mosaic (table_iter t) g.
Proof.
  intros o parent blks before e t its0 b line its Hreg E Hits H0 Hlow Hn. apply (C66_nested_read_partial o parent blks before e t Hreg E).
  exact (first_line_tight _ _ _ _ _ _ _ _ _ _ Hits H0 Hlow Hn).
Qed.
Definition corpus_first : xnode :=
  fel "CORPUS" [] [fel "ROW" [] [fel "CELL" [] [corpus_inner]; fel "CELL" [("COLSPAN", "2")] [corpus_inner]]; fel "ROW" [] [fel "CELL" [] []]].
Example C66_first_row_example : exists t line its, let o := of0 in
  proper_corpus (pf_ns o) (pf_cals_ns o) corpus_first /\ parse_formex o None 0 [] corpus_first = Ok t /\
  fitems (pf_ns o) (pf_cals_ns o) 0 [] corpus_first = [] ++ FLine 0 line :: its /\
  (exists c, In c (of_name (pf_ns o) "CELL" (x_children line)) /\ has_corpus (pf_ns o) c) /\
  (forall c, In c (of_name (pf_ns o) "CELL" (x_children line)) -> attribute (pf_ns o) c "ROWSPAN" = None /\ attribute (pf_cals_ns o) c "morerows" = None) /\
  (forall b' line', In (FLine b' line') its -> no_nested (pf_ns o) line') /\
  map c_box (table_iter t) = [MkBox (Coord 1 1) (Coord 1 1); MkBox (Coord 2 1) (Coord 3 1); MkBox (Coord 1 2) (Coord 1 2); MkBox (Coord 2 2) (Coord 2 2); MkBox (Coord 3 2) (Coord 3 2)].
Proof.
  do 3 eexists. cbv zeta. split; [proper_tac|]. split; [vm_compute; reflexivity|]. split; [vm_compute; reflexivity|].
  split; [eexists; split; [vm_compute; left; reflexivity|exists corpus_inner; split; [left; reflexivity|apply holds_here; reflexivity]]|].
  split; [intros c Hc; vm_compute in Hc; destruct Hc as [<-|[<-|[]]]; vm_compute; auto|].
  split; [|vm_compute; reflexivity].
  intros b' line' [[= <- <-]|[]] c [Hc|[_ [Ht|Ht]]] n Hn; [|discriminate Ht|discriminate Ht]. vm_compute in Hc. destruct Hc as [<-|[]]. destruct Hn.
Qed.

(** ** C67: the styles of the cells are texts *)

(** A cell without TYPE in a row of type HEADER gets a style which is no text. *)
Theorem C67_style_refuted : exists o e t c,
    proper_corpus (pf_ns o) (pf_cals_ns o) e /\ parse_formex o None 0 [] e = Ok t /\ In c (table_iter t) /\ dget (c_styles c) "cellstyle" = Some SNone.
Proof.
  exists of0, (fel "CORPUS" [] [fel "ROW" [("TYPE", "HEADER")] [fel "CELL" [] []]]). do 2 eexists. split; [proper_tac|].
  split; [vm_compute; reflexivity|]. split; [vm_compute; left; reflexivity|]. reflexivity.
Qed.
(** ... not when all the cells of the other rows have a TYPE. *)
Theorem C67_style_partial : forall o parent blks before e t,
    proper_corpus (pf_ns o) (pf_cals_ns o) e -> parse_formex o parent blks before e = Ok t ->
    (forall b row c, In (FLine b row) (fitems (pf_ns o) (pf_cals_ns o) blks before e) -> In c (of_name (pf_ns o) "CELL" (x_children row)) ->
       attribute (pf_ns o) c "TYPE" <> None \/ type_or_normal (attribute (pf_ns o) row "TYPE") = "NORMAL") ->
    forall c k v, In c (table_iter t) -> dget (c_styles c) k = Some v -> exists s, v = SStr s.
Proof.
  intros o parent blks before e t Hreg E Hty c k v Hc Hv. destruct (C62_layout o parent blks before e t Hreg E) as (l & g & HL & HP & _).
  destruct (mosaic_tile _ _ _ HP Hc) as (s & Hs & _ & _ & _ & Hst). apply (text_tiles _ _ _ _ _ _ _ _ _ HL Hty s Hs k). rewrite <- Hst. exact Hv.
Qed.
Example C67_style_example : exists t c, parse_formex of0 None 0 [] corpus_full = Ok t /\ In c (table_iter t) /\
    dget (c_styles c) "cellstyle" = Some (SStr "NORMAL").
Proof. do 2 eexists. split; [vm_compute; reflexivity|]. split; [vm_compute; right; left; reflexivity|]. reflexivity. Qed.

(** ** C62: titles *)

(** A title with COL.START and without COL.END stops the parser. *)
Theorem C62_title_refuted : exists o e ti,
    proper_corpus (pf_ns o) (pf_cals_ns o) e /\ In ti (x_children e) /\ named (pf_ns o) "TI.BLK" ti /\
    attribute (pf_ns o) ti "COL.START" = Some "2" /\ parse_formex o None 0 [] e = Err EValueError.
Proof.
  exists of0, (fel "CORPUS" [] [fel "ROW" [] [fel "CELL" [] []; fel "CELL" [] []]; fel "TI.BLK" [("COL.START", "2")] []]). eexists.
  split; [proper_tac|]. split; [right; left; reflexivity|]. repeat (split; [reflexivity|]). vm_compute. reflexivity.
Qed.

Print Assumptions C62_layout.
Print Assumptions C62_one_layout.
Print Assumptions C62_succeeds.
Print Assumptions C62_title_refuted.
Print Assumptions C63_no_hole.
Print Assumptions C63_overlap_refuted.
Print Assumptions C63_no_overlap_partial.
Print Assumptions C64_table_attributes.
Print Assumptions C65_notes_partial.
Print Assumptions C65_hanging_refuted.
Print Assumptions C66_nested_notes_refuted.
Print Assumptions C66_nested_refuted.
Print Assumptions C66_nested_partial.
Print Assumptions C67_style_refuted.
Print Assumptions C67_style_partial.
Print Assumptions C66_nested_read_partial.
Print Assumptions C66_nested_succeeds_partial.
Print Assumptions C66_first_row_partial.
