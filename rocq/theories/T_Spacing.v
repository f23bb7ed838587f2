(** * C90: the spacing and the shadow of the borders of Word tables *)
From Coq Require Import QArith.
From Verif Require Import Base M_Geometry M_Xml M_Cell M_Grid M_Table M_Str M_CalsParser M_Ooxml.
From Verif Require Import S_Geometry S_Grid S_Table S_Int S_Cell S_CalsParser S_Ooxml S_OoxmlStyle S_Spacing.
From Verif Require Import P_Geometry P_Grid P_GridFacts P_TableFacts P_TableMore P_Str P_Int P_Cals P_CalsParser P_CalsLayout P_OoxmlPath P_OoxmlRegions P_OoxmlLayout P_OoxmlRun P_OoxmlTable P_OoxmlStyle P_OoxmlCell P_Spacing T_Ooxml T_OoxmlCell.
Open Scope string_scope.
Open Scope list_scope.
Open Scope Z_scope.

(** The cell which starts at the place of a Word cell has the model of borders, the spacing and the shadow which the
    borders of this cell give, and no other. *)
Theorem C90_cells : forall o sect tbl cols trs rows t,
    word_table tbl cols trs -> Forall2 row_reads trs rows -> regular rows -> ox_parse_table o sect tbl = Ok t ->
    forall r row c d, row_at rows r row -> In c (wr_slots row) -> sl_continues c = false ->
    In d (table_iter t) -> bmin (c_box d) = Coord (sl_start c) r ->
    forall k v, In k SPACING -> (dget (c_styles d) k = Some v <->
      exists b u, element_at ["tcPr"; "tcBorders"] (sl_cell c) b /\ spacing o OUTER_SIDES b k u /\ v = SStr u).
Proof.
  intros o sect tbl cols trs rows t HW HF HR H r row c d Hr Hc Hk Hd Hb k v Hin.
  destruct (word_read _ _ _ _ _ _ _ HW HF HR H) as (st & sts & cw & _ & _ & _ & _ & _ & HD).
  pose proof (rows_sound _ _ HF HR) as (HN & _).
  assert (Hneat : neat row). { destruct Hr as [_ Hr]. apply nth_error_In in Hr. rewrite Forall_forall in HN. exact (HN _ Hr). }
  assert (Hdis : displayed (Z.of_nat (List.length cols)) rows (c_content d) (c_nature d) (c_box d)).
  { apply (rd_cells _ _ _ _ _ _ HD). exists (c_styles d). rewrite <- cell_eta. exact Hd. }
  destruct (rd_looks _ _ _ _ _ _ HD d Hd) as [[Hn Hs]|(r' & row' & c' & Hr' & Hc' & Hk' & Hb' & Hl)].
  - exfalso. revert Hn Hb. destruct Hdis as [|r2 row2 x Hr2 Hx]; intros Hn Hb; [discriminate|]. cbn in Hb. injection Hb as -> ->.
    assert (row2 = row) by (eapply row_at_fun; eauto). subst row2. pose proof (tiled_in _ _ _ Hneat Hc). unfold row_width, total in *. lia.
  - rewrite Hb in Hb'. injection Hb' as Es ->. assert (row' = row) by (eapply row_at_fun; eauto). subst row'.
    assert (c' = c) by (apply (neat_same row); auto). subst c'. apply tc_spacing; assumption.
Qed.
(** A cell has a spacing exactly when its borders are separate. *)
Theorem C90_separate : forall o sect tbl cols trs rows t,
    word_table tbl cols trs -> Forall2 row_reads trs rows -> regular rows -> ox_parse_table o sect tbl = Ok t ->
    forall d, In d (table_iter t) ->
    (dget (c_styles d) "border-collapse" = Some (SStr "separate") <-> exists v, dget (c_styles d) "border-spacing" = Some v).
Proof.
  intros o sect tbl cols trs rows t HW HF HR H d Hd.
  destruct (word_read _ _ _ _ _ _ _ HW HF HR H) as (st & sts & cw & _ & _ & _ & _ & _ & HD).
  destruct (rd_looks _ _ _ _ _ _ HD d Hd) as [[Hn Hs]|(r' & row' & c' & Hr' & Hc' & Hk' & Hb' & Hl)].
  - rewrite Hs. split; [discriminate|intros (v & Hv); discriminate].
  - rewrite (tc_spacing o _ _ Hl "border-collapse" _ (or_introl eq_refl)). split.
    + intros (b & u & Hb & Hu & [= <-]). unfold spacing in Hu. destruct Hu as [(_ & _ & l & Hl' & [(E & _)|(_ & Hx)])|[(E & _)|(E & _)]]; try discriminate.
      exists (SStr (spaced (map snd l))). apply (tc_spacing o _ _ Hl "border-spacing" _ (or_intror (or_introl eq_refl))).
      exists b, (spaced (map snd l)). split; [exact Hb|]. split; [|reflexivity]. right. left. split; [reflexivity|]. exists l. auto.
    + intros (v & Hv). apply (tc_spacing o _ _ Hl "border-spacing" _ (or_intror (or_introl eq_refl))) in Hv as (b & u & Hb & Hu & ->).
      unfold spacing in Hu. destruct Hu as [(E & _)|[(_ & l & Hl' & Hx & _)|(E & _)]]; [discriminate| |discriminate].
      exists b, "separate". split; [exact Hb|]. split; [|reflexivity]. left. split; [reflexivity|]. split; [|exists l; auto].
      clear - Hl' Hx. induction Hl' as [|n p ns ps Hp _ IH]; [inversion Hx|]. inversion Hx as [? ? Hz|? ? Hz]; subst.
      * destruct Hp as [(v & Hg & _)|(_ & E & _)]; [exists n, v; split; [left; reflexivity|exact Hg]|]. rewrite E in Hz. destruct (Hz (Qeq_refl _)).
      * destruct (IH Hz) as (n' & v & Hn & Hv). exists n', v. split; [right; exact Hn|exact Hv].
Qed.

(** Those of a table come from its own borders, otherwise from the nearest of its styles which gives them. *)
Theorem C90_table : forall o sect tbl cols trs rows t id sheet l,
    word_table tbl cols trs -> Forall2 row_reads trs rows -> regular rows -> ox_parse_table o sect tbl = Ok t ->
    table_style tbl id -> ox_styles o = Some sheet -> ancestry sheet id l ->
    forall k, In k (SPACING ++ CELL_SPACING) -> forall v, dget (t_styles t) k = Some v <->
      exists u, v = SStr u /\ (table_spacing o tbl k u \/ (~ (exists w, table_spacing o tbl k w) /\ nearest_spacing o l k u)).
Proof.
  intros o sect tbl cols trs rows t id sheet l HW HF HR H Hid Hsh HA. destruct (word_read _ _ _ _ _ _ _ HW HF HR H) as (st & sts & cw & Est & Et & Ena & _).
  assert (Eid : tbl_style_id tbl = id).
  { unfold tbl_style_id. destruct Hid as [(v & Hv & ->)|[Hn ->]]; [apply w_attr_spec, Hv|apply w_attr_none, Hn]. }
  rewrite Et. clear Et Ena HW HF HR H. unfold tbl_styles in Est. rewrite Hsh, Eid in Est.
  destruct (get_style_borders o (ox_limit o) (Some sheet) id) as [d|] eqn:Ed; cbn [rbind] in Est; [|discriminate].
  pose proof (inherited_spacing o sheet id l HA _ d Ed) as Nd.
  destruct (get_table_borders o (w_first ["tblPr"; "tblBorders"] tbl)) as [b1|] eqn:E1; cbn [rbind] in Est; [|discriminate].
  destruct (pg_styles o (on_node (w_first ["pgSz"]) sect)) as [pg|] eqn:Epg; cbn [rbind] in Est; [|discriminate]. injection Est as <-.
  intros k Hk v.
  assert (Hshd : dget (shd_styles (w_first ["tblPr"; "shd"] tbl)) k = None /\ dict_ok (shd_styles (w_first ["tblPr"; "shd"] tbl))).
  { unfold shd_styles. destruct (on_node (fun n => x_get n (wq "fill")) _) as [f|]; [|split; [reflexivity|constructor]]. destruct (String.eqb f "auto"); [split; [reflexivity|constructor]|].
    split; [|repeat constructor; intros []]. cbn [dget]. cbn in Hk. repeat (destruct Hk as [<-|Hk]; [reflexivity|]). destruct Hk. }
  assert (Hpg : dget pg k = None /\ dict_ok pg).
  { unfold pg_styles in Epg. cbv zeta in Epg.
    destruct (match on_node _ _ with Some _ => _ | None => _ end) as [sz|] eqn:Es in Epg; cbn [rbind] in Epg; [|discriminate]. injection Epg as <-.
    assert (Hs : sz = [] \/ exists p, sz = [("x-sect-size", p)]).
    { destruct (on_node (fun n => x_get n (wq "w")) _) as [w|], (on_node (fun n => x_get n (wq "h")) _) as [h|].
      - destruct (ox_page o w h) as [p|]; cbn [rbind] in Es; [|discriminate]. injection Es as <-. right. exists p. reflexivity.
      - destruct (ox_float o w); cbn [rbind] in Es; [|discriminate]. injection Es as <-. auto.
      - destruct (ox_float o h); cbn [rbind] in Es; [|discriminate]. injection Es as <-. auto.
      - injection Es as <-. auto. }
    clear - Hs Hk. cbn in Hk. split.
    - destruct Hs as [->|(p & ->)]; destruct (on_node (fun n => x_get n (wq "orient")) _);
        repeat (destruct Hk as [<-|Hk]; [reflexivity|]); destruct Hk.
    - unfold dict_ok. destruct Hs as [->|(p & ->)]; destruct (on_node (fun n => x_get n (wq "orient")) _); apply distinct_NoDup; reflexivity. }
  rewrite dget_dset_other.
  2: { cbn in Hk. intros E. rewrite <- E in Hk. intuition discriminate. }
  rewrite (dget_dupdate _ _ _ (proj2 Hpg)), (proj1 Hpg), (dget_dupdate _ _ _ (proj2 Hshd)), (proj1 Hshd). cbn [or_opt].
  rewrite svals_get.
  assert (H1 : dict_ok b1 /\ (forall u, dget b1 k = Some u <-> table_spacing o tbl k u)).
  { destruct (w_first ["tblPr"; "tblBorders"] tbl) as [b|] eqn:Eb.
    - destruct (get_borders_line o TABLE_BORDERS b b1 E1 (proj1 keys_outer) (proj2 keys_outer)) as (O1 & _ & N1). split; [exact O1|].
      intros u. apply in_app_iff in Hk as [Hk|Hk].
      + rewrite (extra_spec o TABLE_BORDERS b b1 E1 (proj2 keys_outer) k Hk u). split.
        * intros Hl. exists b. split; [apply w_first_spec, Eb|exact Hl].
        * intros (b' & Hb & Hl). apply w_first_spec in Hb. assert (b' = b) by congruence. subst b'. exact Hl.
      + rewrite N1; [|cbn in Hk |- *; intuition (subst; discriminate)|cbn in Hk |- *; intuition (subst; discriminate)].
        split; [discriminate|]. intros (b' & _ & Hl). apply spacing_key in Hl. cbn in Hk, Hl. intuition (subst; discriminate).
    - cbn in E1. injection E1 as <-. split; [constructor|]. intros u. split; [discriminate|]. intros (b & Hb & _). apply w_first_spec in Hb. congruence. }
  destruct H1 as [O1 D1]. split.
  - intros (u & -> & Hu). exists u. split; [reflexivity|]. rewrite (dget_dupdate _ _ _ O1) in Hu. destruct (dget b1 k) as [w|] eqn:Ew; cbn [or_opt] in Hu.
    + left. apply D1. congruence.
    + right. split; [intros (w & Hw); apply D1 in Hw; discriminate|]. apply Nd; assumption.
  - intros (u & -> & Hu). exists u. split; [reflexivity|]. rewrite (dget_dupdate _ _ _ O1). destruct Hu as [Hu|[Hn Hu]].
    + apply D1 in Hu. rewrite Hu. reflexivity.
    + destruct (dget b1 k) as [w|] eqn:Ew; cbn [or_opt]; [exfalso; apply Hn; exists w; apply D1; reflexivity|]. apply Nd; assumption.
Qed.

(** ** A table *)

Definition edge (name : string) (attrs : list (string * string)) : xnode := w name (("val", "single") :: attrs) [].
Definition sp_cell (borders : list xnode) (s : string) : xnode := tc [w "tcBorders" [] borders] s.
Definition sp_a : xnode := sp_cell [edge "top" [("sz", "16"); ("space", "3"); ("shadow", "true")]; edge "left" [("space", "0"); ("shadow", "false")]] "a".
Definition sp_b : xnode := sp_cell [edge "end" [("space", "0")]; edge "bottom" [("sz", "8")]] "b".
Definition sp_trs : list xnode := [tr [] [sp_a; sp_b]].
Definition sp_sheet : xnode :=
  w "styles" [] [style "base" [] [edge "top" [("space", "4")]; edge "insideH" [("space", "0")]];
                 style "fine" [based "base"] [edge "insideV" [("space", "5")]]].
Definition sp_tbl : xnode :=
  w "tbl" [] (w "tblPr" [] [w "tblStyle" [("val", "fine")] []; w "tblBorders" [] [edge "bottom" [("space", "0")]]] :: grid 2 :: sp_trs).
Definition sp_rows : list wrow := [MkWRow "body" [MkSlot sp_a 1 1 false; MkSlot sp_b 2 1 false]].
Lemma sp_word : word_table sp_tbl (repeat (w "gridCol" [("w", "400")] []) 2) sp_trs.
Proof.
  split; [reflexivity|]. split; [reflexivity|]. split; [repeat constructor|].
  repeat (apply Forall_cons || apply Forall_nil); (split; [reflexivity|]);
    (repeat (apply Forall_cons || apply Forall_nil)); (split; [reflexivity|constructor]).
Qed.
Lemma sp_reads : Forall2 row_reads sp_trs sp_rows.
Proof.
  apply Forall2_cons; [|apply Forall2_nil]; (split; [some_row|]);
    (right; split; [|reflexivity]; left; intros HX; apply w_first_exists in HX; apply HX; reflexivity).
Qed.
Lemma sp_regular : regular sp_rows.
Proof.
  intros r row s' w' [Hr Hrow] (c & Hc & [<- <-] & Hk). unfold sp_rows in Hrow.
  destruct (Z.to_nat (r - 1)) as [|[|n]] eqn:En; cbn in Hrow; try discriminate; injection Hrow as <-.
  destruct Hc as [<-|[<-|[]]]; discriminate.
Qed.
Example C90_ex : word_table sp_tbl (repeat (w "gridCol" [("w", "400")] []) 2) sp_trs /\ Forall2 row_reads sp_trs sp_rows /\ regular sp_rows /\
  table_style sp_tbl (Some "fine") /\ (exists l, ancestry sp_sheet (Some "fine") l /\ List.length l = 2%nat) /\
  exists t, ox_parse_table (opts (Some sp_sheet)) None sp_tbl = Ok t /\
  map (fun c => map (fun k => dget (c_styles c) k) SPACING) (t_grid t) =
    [[Some (SStr "separate"); Some (SStr "3pt 0pt 0pt 0pt 0pt 0pt"); Some (SStr "2pt 0ptpt 0ptpt 0ptpt 0ptpt 0ptpt")];
     [Some (SStr "collapse"); None; None]] /\
  map (fun k => dget (t_styles t) k) (SPACING ++ CELL_SPACING) =
    [Some (SStr "collapse"); Some (SStr "4pt 0pt 0pt 0pt 0pt 0pt"); None; Some (SStr "separate"); Some (SStr "0pt 5pt 0pt 5pt"); None].
Proof.
  split; [exact sp_word|]. split; [exact sp_reads|]. split; [exact sp_regular|].
  split; [left; exists "fine"; split; [apply w_attr_spec; reflexivity|reflexivity]|].
  split.
  { eexists. split; [eapply anc_style; [apply find_style_spec; reflexivity|apply parent_spec; reflexivity|]; eapply anc_style; [apply find_style_spec; reflexivity|apply parent_spec; reflexivity|]; apply anc_none|reflexivity]. }
  eexists. split; [vm_compute; reflexivity|]. split; vm_compute; reflexivity.
Qed.

(** The borders of a table may at once be collapsed (the table says so) and spaced (its style says so). *)
Theorem C90_both_refuted : exists o sect tbl cols trs rows t,
    word_table tbl cols trs /\ Forall2 row_reads trs rows /\ regular rows /\ ox_parse_table o sect tbl = Ok t /\
    dget (t_styles t) "border-collapse" = Some (SStr "collapse") /\ exists v, dget (t_styles t) "border-spacing" = Some v.
Proof.
  exists (opts (Some sp_sheet)), None, sp_tbl, (repeat (w "gridCol" [("w", "400")] []) 2), sp_trs, sp_rows.
  destruct C90_ex as (H1 & H2 & H3 & _ & _ & t & Ht & _ & Hs). exists t. cbn [map SPACING CELL_SPACING app] in Hs.
  injection Hs as E1 E2 _ _ _ _. split; [exact H1|]. split; [exact H2|]. split; [exact H3|]. split; [exact Ht|]. split; [exact E1|]. exists (SStr "4pt 0pt 0pt 0pt 0pt 0pt"). exact E2.
Qed.
(** Not every shadow is written as lengths: the sides without shadow are "0ptpt". *)
Definition length_text (s : string) : Prop :=
  exists n, s = (n ++ "pt")%string /\ forall c, In c (list_ascii_of_string n) -> In c (list_ascii_of_string "0123456789.-").
Theorem C90_lengths_refuted : exists o sect tbl cols trs rows t,
    word_table tbl cols trs /\ Forall2 row_reads trs rows /\ regular rows /\ ox_parse_table o sect tbl = Ok t /\
    (forall q, length_text (ox_repr o q ++ "pt")) /\
    exists d l, In d (table_iter t) /\ dget (c_styles d) "box-shadow" = Some (SStr (spaced l)) /\ exists s, In s l /\ ~ length_text s.
Proof.
  exists (MkOoxmlOpts None (fun s => n <-? py_int s ;; Ok (inject_Z n)) (fun q => "2") (fun q => "2") (fun a b => Ok (SStr a)) 1000),
    None, sp_tbl, (repeat (w "gridCol" [("w", "400")] []) 2), sp_trs, sp_rows.
  eexists. split; [exact sp_word|]. split; [exact sp_reads|]. split; [exact sp_regular|]. split; [vm_compute; reflexivity|].
  split; [intros q; exists "2"; split; [reflexivity|]; intros c [<-|[]]; cbn; tauto|].
  eexists. exists ["2pt"; "0ptpt"; "0ptpt"; "0ptpt"; "0ptpt"; "0ptpt"]. split; [left; reflexivity|]. split; [reflexivity|].
  exists "0ptpt". split; [right; left; reflexivity|]. intros (n & E & Hn).
  assert (n = "0pt").
  { destruct n as [|c1 [|c2 [|c3 [|c4 [|c5 n]]]]]; cbn in E; try discriminate.
    - injection E as <- <- <-. reflexivity.
    - destruct n; discriminate. }
  subst n. specialize (Hn "p"%char). cbn in Hn. assert (HX : False) by (intuition discriminate). exact HX.
Qed.
(** A shadow on a border without size stops the parsing. *)
Definition sp_bad_trs : list xnode := [tr [] [sp_cell [edge "top" [("shadow", "true")]] "a"]].
Definition sp_bad_tbl : xnode := w "tbl" [] (grid 1 :: sp_bad_trs).
Theorem C90_shadow_refuted : exists o sect tbl cols trs rows,
    word_table tbl cols trs /\ Forall2 row_reads trs rows /\ regular rows /\ ox_parse_table o sect tbl = Err EKeyError.
Proof.
  exists (opts None), None, sp_bad_tbl, (repeat (w "gridCol" [("w", "400")] []) 1), sp_bad_trs,
    [MkWRow "body" [MkSlot (sp_cell [edge "top" [("shadow", "true")]] "a") 1 1 false]].
  split; [|split; [|split; [|vm_compute; reflexivity]]].
  - split; [reflexivity|]. split; [reflexivity|]. split; [repeat constructor|].
    repeat (apply Forall_cons || apply Forall_nil); (split; [reflexivity|]);
      (repeat (apply Forall_cons || apply Forall_nil)); (split; [reflexivity|constructor]).
  - apply Forall2_cons; [|apply Forall2_nil]; (split; [some_row|]);
      (right; split; [|reflexivity]; left; intros HX; apply w_first_exists in HX; apply HX; reflexivity).
  - intros r row s' w' [Hr Hrow] (c & Hc & [<- <-] & Hk).
    destruct (Z.to_nat (r - 1)) as [|[|n]] eqn:En; cbn in Hrow; try discriminate; injection Hrow as <-.
    destruct Hc as [<-|[]]; discriminate.
Qed.

Print Assumptions C90_cells.
Print Assumptions C90_separate.
Print Assumptions C90_table.
Print Assumptions C90_both_refuted.
Print Assumptions C90_lengths_refuted.
Print Assumptions C90_shadow_refuted.
