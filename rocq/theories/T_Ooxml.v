(** * C49, C50: Word tables *)
From Coq Require Import QArith.
From Verif Require Import Base M_Geometry M_Xml M_Cell M_Grid M_Table M_Str M_CalsParser M_Ooxml.
From Verif Require Import S_Geometry S_Grid S_Table S_Int S_CalsParser S_Ooxml S_OoxmlStyle.
From Verif Require Import P_Geometry P_Grid P_GridFacts P_TableFacts P_TableMore P_Int P_Cals P_CalsParser P_CalsLayout P_OoxmlPath P_OoxmlRegions P_OoxmlLayout P_OoxmlRun P_OoxmlTable P_OoxmlStyle.
Open Scope string_scope.
Open Scope list_scope.
Open Scope Z_scope.

(** A table read without error *)
Lemma word_read o sect tbl cols trs rows t :
  word_table tbl cols trs -> Forall2 row_reads trs rows -> regular rows -> ox_parse_table o sect tbl = Ok t ->
  exists st sts cw, tbl_styles o sect tbl = Ok st /\ t_styles t = st /\ t_nature t = tbl_style_id tbl /\
       Forall2 (fun n st => grid_col_styles o n = Ok st) cols sts /\
       (forall i, snd (cw i) = None /\ forall k, dget (fst (cw i)) k = dget (nth i sts []) k) /\
       read (List.length cols) cw (tc_styles o) (fun i => nth i (map (row_look o) trs) []) t rows.
Proof.
  intros HW HF HR H. destruct (word_outcome o sect tbl cols trs rows HW HF HR) as [(e & E & _)|(t' & st & sts & cw & E & X)]; [congruence|].
  assert (t' = t) by congruence. subst t'. exists st, sts, cw. exact X.
Qed.
Lemma rows_sound trs rows : Forall2 row_reads trs rows -> regular rows -> sound rows (MkWRow "" []).
Proof.
  intros HF HR. split; [|split].
  - induction HF as [|n row l l' H HF' IH]; constructor; [exact (seated_tiled _ _ _ (proj1 H))|].
    clear - HF'. induction HF' as [|n row l l' H HF' IH]; constructor; [exact (seated_tiled _ _ _ (proj1 H))|exact IH].
  - constructor.
  - intros q row s w Hrow Hc. apply row_at_app in Hrow as [Hrow|[_ ->]].
    + destruct (HR q row s w Hrow Hc) as (above & c & Ha & X). exists above, c. split; [apply row_at_app; left; exact Ha|exact X].
    + destruct Hc as (c & [] & _).
Qed.

(** ** C49 *)

(** The cells of the parsed table are the visible regions, with their content and their area, and the
    empty cells which complete the rows: nothing else, nothing less. *)
Theorem C49_layout : forall o sect tbl cols trs rows t,
    word_table tbl cols trs -> Forall2 row_reads trs rows -> regular rows -> ox_parse_table o sect tbl = Ok t ->
    forall ct na b, (exists st, In (MkCell ct st na b) (table_iter t)) <-> displayed (Z.of_nat (List.length cols)) rows ct na b.
Proof.
  intros o sect tbl cols trs rows t HW HF HR H. destruct (word_read _ _ _ _ _ _ _ HW HF HR H) as (st & sts & cw & _ & _ & _ & _ & _ & HD).
  exact (rd_cells _ _ _ _ _ _ HD).
Qed.
(** One cell for each of them: two cells have no common coordinate. *)
Theorem C49_no_overlap : forall o sect tbl cols trs rows t,
    word_table tbl cols trs -> Forall2 row_reads trs rows -> regular rows -> ox_parse_table o sect tbl = Ok t ->
    no_overlap (table_iter t).
Proof.
  intros o sect tbl cols trs rows t HW HF HR H. destruct (word_read _ _ _ _ _ _ _ HW HF HR H) as (st & sts & cw & _ & _ & _ & _ & _ & HD).
  pose proof (rows_sound _ _ HF HR) as HS. pose proof (rd_reach _ _ _ _ _ _ HD) as HT.
  assert (HI : grid_inv (t_grid t)) by apply reachable_inv, treachable_grid, HT.
  assert (HC : forall d, In d (table_iter t) -> drawn (Z.of_nat (List.length cols)) rows (MkWRow "" []) (c_content d) (c_nature d) (c_box d)).
  { intros d Hd. apply drawn_begin. apply (rd_cells _ _ _ _ _ _ HD). exists (c_styles d). rewrite <- cell_eta. exact Hd. }
  assert (HV : all_valid (t_grid t)) by apply HI.
  assert (HNC : no_clash (t_grid t)) by apply HI.
  change (table_iter t) with (t_grid t) in *. revert HC HV HNC. clear - HS. unfold no_clash, no_overlap.
  induction (t_grid t) as [|a l IH]; intros HC HV HNC; [constructor|]. inversion HNC as [|? ? Ha HNC']; subst. inversion HV as [|? ? Va HV']; subst.
  constructor; [|apply IH; auto; intros d Hd; apply HC; right; exact Hd].
  rewrite Forall_forall in *. intros b Hb ([x y] & H1 & H2). apply (Ha b Hb).
  assert (E : c_box a = c_box b).
  { eapply (drawn_disjoint _ _ _ _ _ _ _ _ _ x y HS); [apply HC; left; reflexivity|apply HC; right; exact Hb|exact H1|exact H2]. }
  rewrite <- E. left. unfold covers, valid in *. lia.
Qed.
(** When no row is wider than the grid, the cells cover it. *)
Theorem C49_no_hole : forall o sect tbl cols trs rows t,
    word_table tbl cols trs -> Forall2 row_reads trs rows -> regular rows -> ox_parse_table o sect tbl = Ok t ->
    Forall (fun row => row_width row <= Z.of_nat (List.length cols)) rows ->
    forall x y, (1 <= x <= Z.of_nat (List.length cols) /\ 1 <= y <= Z.of_nat (List.length rows)) <->
                exists c, In c (table_iter t) /\ covers (c_box c) (Coord x y).
Proof.
  intros o sect tbl cols trs rows t HW HF HR H Hwid x y. destruct (word_read _ _ _ _ _ _ _ HW HF HR H) as (st & sts & cw & _ & _ & _ & _ & _ & HD).
  pose proof (rows_sound _ _ HF HR) as HS.
  assert (Hw : forall r, widest (Z.of_nat (List.length cols)) rows r = Z.of_nat (List.length cols)).
  { intros r. unfold widest. assert (HA : Forall (fun row => row_width row <= Z.of_nat (List.length cols)) (firstn (Z.to_nat r) rows)).
    { rewrite Forall_forall in *. intros row Hrow. apply Hwid. rewrite <- (firstn_skipn (Z.to_nat r) rows). apply in_or_app. left. exact Hrow. }
    induction HA as [|row l Hl _ IH]; cbn [map fold_right]; lia. }
  split.
  - intros [Hx Hy]. destruct (covers_drawn (Z.of_nat (List.length cols)) rows (MkWRow "" []) x y HS) as (ct & na & b & Hd & Hc).
    + lia.
    + left. rewrite Hw. lia.
    + apply drawn_begin in Hd. apply (rd_cells _ _ _ _ _ _ HD) in Hd as (st' & Hin). exists (MkCell ct st' na b). split; [exact Hin|exact Hc].
  - intros (c & Hc & Hcov). assert (Hd : drawn (Z.of_nat (List.length cols)) rows (MkWRow "" []) (c_content c) (c_nature c) (c_box c)).
    { apply drawn_begin. apply (rd_cells _ _ _ _ _ _ HD). exists (c_styles c). rewrite <- cell_eta. exact Hc. }
    pose proof (drawn_covers _ _ _ _ _ _ x y HS Hd Hcov) as (H1 & [[H2 H3]|[_ H3]]).
    + rewrite Hw in H3. lia.
    + cbn in H3. lia.
Qed.
(** The nature of each row *)
Theorem C49_rows : forall o sect tbl cols trs rows t,
    word_table tbl cols trs -> Forall2 row_reads trs rows -> regular rows -> ox_parse_table o sect tbl = Ok t ->
    forall r row v, row_at rows r row -> reads Rows r t v -> v_nature v = Some (wr_nature row).
Proof.
  intros o sect tbl cols trs rows t HW HF HR H r row v Hr Hv. destruct (word_read _ _ _ _ _ _ _ HW HF HR H) as (st & sts & cw & _ & _ & _ & _ & _ & HD).
  rewrite <- (rd_rows _ _ _ _ _ _ HD r row Hr). rewrite (attr_at Rows r t v (rd_reach _ _ _ _ _ _ HD) (proj1 Hr) Hv). reflexivity.
Qed.
(** The width of each column, in points *)
Theorem C49_columns : forall o sect tbl cols trs rows t,
    word_table tbl cols trs -> Forall2 row_reads trs rows -> regular rows -> ox_parse_table o sect tbl = Ok t ->
    forall i n v, 1 <= i -> nth_error cols (Z.to_nat (i - 1)) = Some n -> reads Cols i t v ->
    exists w q, dget (x_attrs n) (word "w") = Some w /\ ox_float o w = Ok q /\
      dget (v_styles v) "width" = Some (SStr (ox_fixed o (q / 20)%Q ++ "pt")).
Proof.
  intros o sect tbl cols trs rows t HW HF HR H i n v Hi Hn Hv. destruct (word_read _ _ _ _ _ _ _ HW HF HR H) as (st & sts & cw & _ & _ & _ & HC & Hcw & HD).
  assert (Hlt : (Z.to_nat (i - 1) < List.length cols)%nat) by (apply nth_error_Some; congruence).
  pose proof (attr_at Cols i t v (rd_reach _ _ _ _ _ _ HD) Hi Hv) as E. rewrite (rd_cols _ _ _ _ _ _ HD _ Hlt) in E.
  assert (Ev : v_styles v = fst (cw (Z.to_nat (i - 1)))) by (rewrite E; reflexivity). rewrite Ev.
  rewrite (proj2 (Hcw _) "width"). revert Hn. generalize (Z.to_nat (i - 1)). clear - HC.
  induction HC as [|m st' l l' E HC IH]; intros [|k] Hn; cbn in Hn; [discriminate|discriminate| |apply IH, Hn].
  injection Hn as ->. cbn [nth]. unfold grid_col_styles, lookup in E. change (wq "w") with (word "w") in E.
  destruct (dget (x_attrs n) (word "w")) as [w|]; cbn [rbind] in E; [|discriminate].
  destruct (ox_float o w) as [q|] eqn:Eq; cbn [rbind] in E; [|discriminate]. injection E as <-. exists w, q. auto.
Qed.
(** A table whose measures, alignments and styles can be read is read. *)
Theorem C49_succeeds : forall o sect tbl cols trs rows id,
    word_table tbl cols trs -> Forall2 row_reads trs rows -> regular rows ->
    table_style tbl id -> readable_sheet o id -> readable_style o tbl -> readable_section o sect ->
    Forall (readable_col o) cols -> Forall plain_row trs ->
    (forall tr tc, In tr trs -> In tc (parts tr) -> readable_cell o tc) ->
    (cols <> [] \/ Forall (fun row => wr_slots row <> []) rows) ->
    exists t, ox_parse_table o sect tbl = Ok t.
Proof.
  intros o sect tbl cols trs rows id HW HF HR Hid [Hlim Hsh] Htb Hsec Hcols Htrs Htcs Hne.
  destruct (word_outcome o sect tbl cols trs rows HW HF HR) as [(e & _ & [E|E])|(t & st & sts & cw & E & _)]; [|exfalso|eauto].
  - exfalso. unfold tbl_styles in E.
    assert (Eid : tbl_style_id tbl = id).
    { unfold tbl_style_id. destruct Hid as [(v & Hv & ->)|[Hn ->]]; [apply w_attr_spec, Hv|apply w_attr_none, Hn]. }
    rewrite Eid in E.
    assert (E0 : exists d, get_style_borders o (ox_limit o) (ox_styles o) id = Ok d).
    { destruct (ox_styles o) as [sheet|].
      - destruct (Hsh sheet eq_refl) as (l & Hl & Hrd & Hlen). eapply readable_ancestry; eauto.
      - destruct (ox_limit o); [lia|]. cbn. eauto. }
    destruct E0 as (d & E0). rewrite E0 in E. cbn [rbind] in E. unfold get_table_borders in E.
    destruct (readable_get o TABLE_BORDERS (w_first ["tblPr"; "tblBorders"] tbl)) as (b & Eb); [intros n En; apply Htb, w_first_spec, En|].
    rewrite Eb in E. cbn [rbind] in E.
    assert (E1 : exists pg, pg_styles o (on_node (w_first ["pgSz"]) sect) = Ok pg).
    { destruct sect as [s|]; [|cbn; eauto]. cbn [on_node]. destruct (w_first ["pgSz"] s) as [pg|] eqn:Epg; [|cbn; eauto].
      apply w_first_spec in Epg. destruct (Hsec s pg eq_refl Epg) as (w & h & p & Hw & Hh & Hp). unfold pg_styles. cbn [on_node]. unfold x_get.
      change (wq "w") with (word "w"). change (wq "h") with (word "h"). rewrite Hw, Hh, Hp. cbn [rbind]. eauto. }
    destruct E1 as (pg & E1). rewrite E1 in E. cbn [rbind] in E. discriminate.
  - destruct E as [(n & Hn & E)|[(n & Hn & E)|(-> & -> & row & Hrow & Hr)]].
    + rewrite Forall_forall in Hcols. destruct (readable_grid_col o n (Hcols n Hn)) as (st & E'). congruence.
    + destruct E as [E|(c & Hc & _ & E)].
      * rewrite Forall_forall in Htrs. rewrite (plain_height o n (Htrs n Hn)) in E. discriminate.
      * destruct (readable_tc o c (Htcs n c Hn Hc)) as (st & E'). congruence.
    + destruct Hne as [Hne|Hne]; [congruence|]. rewrite Forall_forall in Hne. exact (Hne row Hrow Hr).
Qed.

(** ** C50 *)

(** The borders of a style: each one is set by the nearest style of its ancestry which sets it. *)
Theorem C50_nearest : forall o sheet id l fuel d,
    ancestry sheet id l -> get_style_borders o fuel (Some sheet) id = Ok d ->
    forall k, In k (map fst (OUTER ++ INNER)) -> forall t, dget d k = Some t <-> nearest o l k t.
Proof. intros o sheet id l fuel d HA H. apply (inherited o sheet id l HA fuel d H). Qed.
(** The computation ends for each finite chain of styles, and only for them. *)
Theorem C50_terminates_partial : forall o sheet id l, ancestry sheet id l -> Forall (readable_style o) l ->
    forall fuel, (List.length l < fuel)%nat -> exists d, get_style_borders o fuel (Some sheet) id = Ok d.
Proof. intros o sheet id l HA. exact (readable_ancestry o sheet id l HA). Qed.
Theorem C50_only_finite : forall o sheet id fuel d, get_style_borders o fuel (Some sheet) id = Ok d ->
    exists l, ancestry sheet id l /\ forall l', ancestry sheet id l' -> l' = l.
Proof.
  intros o sheet id fuel d H. destruct (finite_ancestry o sheet fuel id d H) as (l & Hl & _). exists l. split; [exact Hl|].
  intros l' Hl'. symmetry. exact (ancestry_fun sheet id l Hl l' Hl').
Qed.
(** The borders of the table itself come first; for the others (and for the borders of the cells) the
    style of the table is used. *)
Theorem C50_table : forall o sect tbl cols trs rows t id sheet l,
    word_table tbl cols trs -> Forall2 row_reads trs rows -> regular rows -> ox_parse_table o sect tbl = Ok t ->
    table_style tbl id -> ox_styles o = Some sheet -> ancestry sheet id l ->
    t_nature t = id /\
    forall k, In k (map fst (OUTER ++ INNER)) -> forall v, dget (t_styles t) k = Some v <->
      exists u, v = SStr u /\ (declares o OUTER tbl k u \/ (~ (exists w, declares o OUTER tbl k w) /\ nearest o l k u)).
Proof.
  intros o sect tbl cols trs rows t id sheet l HW HF HR H Hid Hsh HA. destruct (word_read _ _ _ _ _ _ _ HW HF HR H) as (st & sts & cw & Est & Et & Ena & _).
  assert (Eid : tbl_style_id tbl = id).
  { unfold tbl_style_id. destruct Hid as [(v & Hv & ->)|[Hn ->]]; [apply w_attr_spec, Hv|apply w_attr_none, Hn]. }
  split; [congruence|]. rewrite Et. clear Et Ena HW HF HR H. unfold tbl_styles in Est. rewrite Hsh, Eid in Est.
  destruct (get_style_borders o (ox_limit o) (Some sheet) id) as [d|] eqn:Ed; cbn [rbind] in Est; [|discriminate].
  destruct (inherited o sheet id l HA _ d Ed) as [Od Nd].
  destruct (get_table_borders o (w_first ["tblPr"; "tblBorders"] tbl)) as [b1|] eqn:E1; cbn [rbind] in Est; [|discriminate].
  destruct (pg_styles o (on_node (w_first ["pgSz"]) sect)) as [pg|] eqn:Epg; cbn [rbind] in Est; [|discriminate]. injection Est as <-.
  intros k Hk v.
  assert (Hshd : dget (shd_styles (w_first ["tblPr"; "shd"] tbl)) k = None /\ dict_ok (shd_styles (w_first ["tblPr"; "shd"] tbl))).
  { unfold shd_styles. destruct (on_node (fun n => x_get n (wq "fill")) _) as [f|]; [|split; [reflexivity|constructor]]. destruct (String.eqb f "auto"); [split; [reflexivity|constructor]|].
    split; [|repeat constructor; intros []]. cbn [dget]. cbn in Hk. repeat (destruct Hk as [<-|Hk]; [reflexivity|]). destruct Hk. }
  assert (Hpg : dget pg k = None /\ dict_ok pg).
  { assert (HX : forall m, In m (map fst pg) -> In m ["x-sect-size"; "x-sect-orient"]).
    { clear - Epg. unfold pg_styles in Epg. cbv zeta in Epg.
      destruct (match on_node _ _ with Some _ => _ | None => _ end) as [sz|] eqn:Es in Epg; cbn [rbind] in Epg; [|discriminate]. injection Epg as <-.
      assert (Hs : forall m, In m (map fst sz) -> m = "x-sect-size").
      { destruct (on_node (fun n => x_get n (wq "w")) _) as [w|], (on_node (fun n => x_get n (wq "h")) _) as [h|].
        - destruct (ox_page o w h); cbn [rbind] in Es; [|discriminate]. injection Es as <-. intros m [<-|[]]. reflexivity.
        - destruct (ox_float o w); cbn [rbind] in Es; [|discriminate]. injection Es as <-. intros m [].
        - destruct (ox_float o h); cbn [rbind] in Es; [|discriminate]. injection Es as <-. intros m [].
        - injection Es as <-. intros m []. }
      intros m Hm. rewrite map_app in Hm. apply in_app_iff in Hm as [Hm|Hm]; [left; symmetry; apply Hs, Hm|].
      destruct (on_node (fun n => x_get n (wq "orient")) _); [destruct Hm as [<-|[]]; cbn; auto|destruct Hm]. }
    split.
    - destruct (dget pg k) as [x|] eqn:Ex; [|reflexivity]. exfalso. assert (HI : In k (map fst pg)).
      { clear - Ex. induction pg as [|[a b] pg IH]; [discriminate|]. cbn in *. destruct (String.eqb_spec k a) as [->|_]; auto. }
      apply HX in HI. cbn in Hk, HI. destruct HI as [<-|[<-|[]]]; intuition discriminate.
    - clear - Epg. unfold pg_styles in Epg. cbv zeta in Epg.
      destruct (match on_node _ _ with Some _ => _ | None => _ end) as [sz|] eqn:Es in Epg; cbn [rbind] in Epg; [|discriminate]. injection Epg as <-.
      assert (Hs : sz = [] \/ exists p, sz = [("x-sect-size", p)]).
      { destruct (on_node (fun n => x_get n (wq "w")) _) as [w|], (on_node (fun n => x_get n (wq "h")) _) as [h|].
        - destruct (ox_page o w h) as [p|]; cbn [rbind] in Es; [|discriminate]. injection Es as <-. right. exists p. reflexivity.
        - destruct (ox_float o w); cbn [rbind] in Es; [|discriminate]. injection Es as <-. auto.
        - destruct (ox_float o h); cbn [rbind] in Es; [|discriminate]. injection Es as <-. auto.
        - injection Es as <-. auto. }
      unfold dict_ok. destruct Hs as [->|(p & ->)]; destruct (on_node (fun n => x_get n (wq "orient")) _); apply distinct_NoDup; reflexivity. }
  rewrite dget_dset_other.
  2: { cbn in Hk. intros E. rewrite <- E in Hk. intuition discriminate. }
  rewrite (dget_dupdate _ _ _ (proj2 Hpg)), (proj1 Hpg), (dget_dupdate _ _ _ (proj2 Hshd)), (proj1 Hshd). cbn [or_opt].
  assert (HSV : forall dd, dget (svals dd) k = Some v <-> exists u, v = SStr u /\ dget dd k = Some u).
  { clear. induction dd as [|[a b] dd IH]; cbn [svals map fst snd dget]; [split; [discriminate|intros (u & _ & E); discriminate]|].
    fold (svals dd). destruct (String.eqb k a); [|exact IH]. split; [intros [= <-]; exists b; auto|intros (u & -> & [= ->]); reflexivity]. }
  rewrite HSV.
  assert (H1 : dict_ok b1 /\ (forall u, dget b1 k = Some u <-> declares o OUTER tbl k u)).
  { destruct (w_first ["tblPr"; "tblBorders"] tbl) as [b|] eqn:Eb.
    - destruct (get_borders_line o TABLE_BORDERS b b1 E1 (proj1 keys_outer) (proj2 keys_outer)) as (O1 & L1 & N1). split; [exact O1|].
      intros u. destruct (in_dec String.string_dec k (map fst TABLE_BORDERS)) as [Hin|Hin].
      + apply in_map_iff in Hin as ([k' names] & E & Hin). cbn in E. subst k'. rewrite (L1 k names Hin u). split.
        * intros Hl. exists b, names. split; [apply w_first_spec, Eb|]. split; [exact Hin|exact Hl].
        * intros (b' & names' & Hb & Hin' & Hl). apply w_first_spec in Hb. assert (b' = b) by congruence. subst b'.
          apply (dget_ok_In TABLE_BORDERS k names (proj1 keys_outer)) in Hin. apply (dget_ok_In TABLE_BORDERS k names' (proj1 keys_outer)) in Hin'.
          assert (names' = names) by congruence. subst. exact Hl.
      + rewrite N1; [|exact Hin|].
        * split; [discriminate|]. intros (b' & names & _ & Hin' & _). exfalso. apply Hin. apply (in_map fst) in Hin'. exact Hin'.
        * cbn in Hk |- *. intuition (subst; discriminate).
    - cbn in E1. injection E1 as <-. split; [constructor|]. intros u. split; [discriminate|]. intros (b & names & Hb & _). apply w_first_spec in Hb. congruence. }
  destruct H1 as [O1 D1]. split.
  - intros (u & -> & Hu). exists u. split; [reflexivity|]. rewrite (dget_dupdate _ _ _ O1) in Hu. destruct (dget b1 k) as [w|] eqn:Ew; cbn [or_opt] in Hu.
    + left. apply D1. congruence.
    + right. split; [intros (w & Hw); apply D1 in Hw; discriminate|]. apply Nd; assumption.
  - intros (u & -> & Hu). exists u. split; [reflexivity|]. rewrite (dget_dupdate _ _ _ O1). destruct Hu as [Hu|[Hn Hu]].
    + apply D1 in Hu. rewrite Hu. reflexivity.
    + destruct (dget b1 k) as [w|] eqn:Ew; cbn [or_opt]; [exfalso; apply Hn; exists w; apply D1; reflexivity|]. apply Nd; assumption.
Qed.
(** The names of the styles of borders: those of CSS, or the name of Word with hyphens after "w-" *)
Theorem C50_border_names : forall v x, border_name v x ->
    In (v, x) CSS_BORDERS \/ x = ("w-" ++ hyphens v)%string \/ ((forall y, ~ In (v, y) BORDER_STYLES) /\ x = ("w-" ++ v)%string).
Proof.
  intros v x [[-> ->]|[_ [H|H]]].
  - left. cbn. auto.
  - destruct (border_names_table v x H); auto.
  - right. right. exact H.
Qed.

(** ** A table *)

Definition w (name : string) (attrs : list (string * string)) (children : list xnode) : xnode :=
  XElem (word name) (map (fun kv => (word (fst kv), snd kv)) attrs) None children None.
Definition text_p (s : string) : xnode := w "p" [] [XElem (word "t") [] (Some s) [] None].
Definition tc (props : list xnode) (s : string) : xnode := w "tc" [] [w "tcPr" [] props; text_p s].
Definition tr (props : list xnode) (cells : list xnode) : xnode := w "tr" [] (w "trPr" [] props :: cells).
Definition span (n : string) : xnode := w "gridSpan" [("val", n)] [].
Definition restart : xnode := w "vMerge" [("val", "restart")] [].
Definition continue : xnode := w "vMerge" [] [].
Definition header (v : list (string * string)) : xnode := w "tblHeader" v [].
Definition grid (n : nat) : xnode := w "tblGrid" [] (repeat (w "gridCol" [("w", "400")] []) n).
Definition side (name : string) (v : string) : xnode := w name [("val", v); ("sz", "16"); ("color", "auto")] [].
Definition style (id : string) (up : list xnode) (borders : list xnode) : xnode :=
  w "style" [("styleId", id)] (up ++ [w "tblPr" [] [w "tblBorders" [] borders]]).
Definition based (id : string) : xnode := w "basedOn" [("val", id)] [].
(** Numbers without decimals are enough here. *)
Definition opts (sheet : option xnode) : ooxml_opts :=
  MkOoxmlOpts sheet (fun s => n <-? py_int s ;; Ok (inject_Z n)) (fun q => py_str_int (Qnum q / Zpos (Qden q)))
    (fun q => (py_str_int (Qnum q / Zpos (Qden q)) ++ ".00")%string) (fun a b => Ok (SStr (a ++ "x" ++ b))) 1000.

Definition ex_trs : list xnode :=
  [tr [header []] [tc [span "2"] "a"; tc [restart] "b"];
   tr [] [tc [] "c"; tc [] "d"; tc [continue] ""];
   tr [] [tc [] "e"]].
Definition ex_sheet : xnode :=
  w "styles" [] [style "base" [] [side "top" "single"; side "insideH" "dotted"];
                 style "fine" [based "base"] [side "top" "thinThickSmallGap"; side "start" "nil"]].
Definition ex_tbl : xnode :=
  w "tbl" [] (w "tblPr" [] [w "tblStyle" [("val", "fine")] []; w "tblBorders" [] [side "bottom" "wave"]] :: grid 3 :: ex_trs).
Definition ex_rows : list wrow :=
  [MkWRow "header" [MkSlot (tc [span "2"] "a") 1 2 false; MkSlot (tc [restart] "b") 3 1 false];
   MkWRow "body" [MkSlot (tc [] "c") 1 1 false; MkSlot (tc [] "d") 2 1 false; MkSlot (tc [continue] "") 3 1 true];
   MkWRow "body" [MkSlot (tc [] "e") 1 1 false]].
Definition ex_cell (s : string) (st : styles) (na : string) (b : box) : cell :=
  MkCell (CList [CNode (text_p s)]) st (Some na) b.

Lemma ex_word : word_table ex_tbl (repeat (w "gridCol" [("w", "400")] []) 3) ex_trs.
Proof.
  split; [reflexivity|]. split; [reflexivity|]. split; [repeat constructor|].
  repeat (apply Forall_cons || apply Forall_nil); (split; [reflexivity|]);
    (repeat (apply Forall_cons || apply Forall_nil)); (split; [reflexivity|constructor]).
Qed.
Ltac some_columns := first [left; eexists; split; [apply w_attr_spec; reflexivity|apply py_int_spec; reflexivity]
                           |right; split; [apply w_attr_none; reflexivity|reflexivity]].
Ltac some_begin := first [left; intros HX; apply w_first_exists in HX; apply HX; reflexivity|right; apply w_attr_spec; reflexivity].
Lemma seat_begin k tc w tcs l s : s = k + 1 -> columns tc w -> 1 <= w -> begins tc -> seated (k + w) tcs l ->
  seated k (tc :: tcs) (MkSlot tc s w false :: l).
Proof. intros ->. apply seated_begin. Qed.
Lemma seat_continue k tc w tcs l s : s = k + 1 -> columns tc w -> 1 <= w -> continues tc -> seated (k + w) tcs l ->
  seated k (tc :: tcs) (MkSlot tc s w true :: l).
Proof. intros ->. apply seated_continue. Qed.
Ltac some_slot := first [apply seat_begin; [reflexivity|some_columns|lia|some_begin|]
                        |apply seat_continue; [reflexivity|some_columns|lia|split; [apply w_first_exists; discriminate|right; apply w_attr_none; reflexivity]|]].
Ltac some_row := match goal with |- seated ?k _ (wr_slots ?row) => change (seated k (map sl_cell (wr_slots row)) (wr_slots row)) end;
  cbn [map sl_cell wr_slots]; repeat some_slot; apply seated_nil.
Lemma ex_reads : Forall2 row_reads ex_trs ex_rows.
Proof.
  apply Forall2_cons; [|apply Forall2_cons; [|apply Forall2_cons; [|apply Forall2_nil]]];
    (split; [some_row|]).
  - left. split; [|reflexivity]. split; [apply w_first_exists; discriminate|right; apply w_attr_none; reflexivity].
  - right. split; [|reflexivity]. left. intros HX. apply w_first_exists in HX. apply HX. reflexivity.
  - right. split; [|reflexivity]. left. intros HX. apply w_first_exists in HX. apply HX. reflexivity.
Qed.
Lemma ex_regular : regular ex_rows.
Proof.
  intros r row s' w' [Hr Hrow] (c & Hc & [<- <-] & Hk). unfold ex_rows in Hrow.
  destruct (Z.to_nat (r - 1)) as [|[|[|n]]] eqn:En; cbn in Hrow.
  - injection Hrow as <-. destruct Hc as [<-|[<-|[]]]; discriminate.
  - injection Hrow as <-. destruct Hc as [<-|[<-|[<-|[]]]]; try discriminate.
    eexists _, _. split; [split; [lia|]; replace (Z.to_nat (r - 1 - 1)) with 0%nat by lia; reflexivity|].
    split; [right; left; reflexivity|split; reflexivity].
  - injection Hrow as <-. destruct Hc as [<-|[]]. discriminate.
  - destruct n; discriminate.
Qed.
Example C49_ex : word_table ex_tbl (repeat (w "gridCol" [("w", "400")] []) 3) ex_trs /\ Forall2 row_reads ex_trs ex_rows /\ regular ex_rows /\
  exists t, ox_parse_table (opts (Some ex_sheet)) None ex_tbl = Ok t /\
  t_grid t = [ex_cell "a" [] "header" (MkBox (Coord 1 1) (Coord 2 1)); ex_cell "b" [] "header" (MkBox (Coord 3 1) (Coord 3 2));
              ex_cell "c" [] "body" (MkBox (Coord 1 2) (Coord 1 2)); ex_cell "d" [] "body" (MkBox (Coord 2 2) (Coord 2 2));
              ex_cell "e" [] "body" (MkBox (Coord 1 3) (Coord 1 3));
              MkCell CNone [] (Some "body") (MkBox (Coord 2 3) (Coord 2 3)); MkCell CNone [] (Some "body") (MkBox (Coord 3 3) (Coord 3 3))] /\
  t_styles t = [("border-top", SStr "w-thin-thick-small-gap 2pt"); ("x-cell-border-top", SStr "dotted 2pt"); ("x-cell-border-bottom", SStr "dotted 2pt");
                ("border-left", SStr "none 2pt"); ("border-bottom", SStr "w-wave 2pt"); ("x-sect-cols", SStr "1")].
Proof.
  split; [exact ex_word|]. split; [exact ex_reads|]. split; [exact ex_regular|].
  eexists. split; [vm_compute; reflexivity|]. split; vm_compute; reflexivity.
Qed.

Lemma ex_parse_is (e : xnode) (P : table -> Prop) o sect : (match ox_parse_table o sect e with Ok t => P t | Err _ => False end) -> exists t, ox_parse_table o sect e = Ok t /\ P t.
Proof. destruct (ox_parse_table o sect e); [eauto|intros []]. Qed.

(** The hypotheses of [C49_succeeds] for this table *)
Lemma ex_borders_readable o l : (forall s, In s ["16"] -> exists q, ox_float o s = Ok q) ->
  (forall c, In c l -> exists name v, c = side name v) -> readable_borders o (w "tblBorders" [] l).
Proof.
  intros Ho H c Hc. destruct (H c Hc) as (name & v & ->). split.
  - intros u E. vm_compute in E. discriminate.
  - intros a u [<-|[<-|[]]] E; vm_compute in E; [discriminate|]. injection E as <-. apply Ho. left. reflexivity.
Qed.
Lemma ex_sheet_ancestry : ancestry ex_sheet (Some "fine")
  [style "fine" [based "base"] [side "top" "thinThickSmallGap"; side "start" "nil"]; style "base" [] [side "top" "single"; side "insideH" "dotted"]].
Proof.
  eapply anc_style; [apply find_style_spec; reflexivity|apply parent_spec; reflexivity|].
  eapply anc_style; [apply find_style_spec; reflexivity|apply parent_spec; reflexivity|]. apply anc_none.
Qed.
Lemma ex_sheet_readable : Forall (readable_style (opts (Some ex_sheet)))
  [style "fine" [based "base"] [side "top" "thinThickSmallGap"; side "start" "nil"]; style "base" [] [side "top" "single"; side "insideH" "dotted"]].
Proof.
  assert (Hf : forall s, In s ["16"] -> exists q, ox_float (opts (Some ex_sheet)) s = Ok q) by (intros s [<-|[]]; eexists; reflexivity).
  apply Forall_cons; [|apply Forall_cons; [|apply Forall_nil]]; intros b Hb; apply w_first_spec in Hb; vm_compute in Hb;
    injection Hb as <-; apply (ex_borders_readable _ _ Hf); intros c [<-|[<-|[]]]; eexists _, _; reflexivity.
Qed.
Example C49_succeeds_ex : table_style ex_tbl (Some "fine") /\ readable_sheet (opts (Some ex_sheet)) (Some "fine") /\
  readable_style (opts (Some ex_sheet)) ex_tbl /\ readable_section (opts (Some ex_sheet)) (Some (w "sectPr" [] [w "pgSz" [("w", "3"); ("h", "4")] []])) /\
  Forall (readable_col (opts (Some ex_sheet))) (repeat (w "gridCol" [("w", "400")] []) 3) /\ Forall plain_row ex_trs /\
  forall tr tc, In tr ex_trs -> In tc (parts tr) -> readable_cell (opts (Some ex_sheet)) tc.
Proof.
  split; [left; exists "fine"; split; [apply w_attr_spec; reflexivity|reflexivity]|].
  split; [split; [cbn; lia|]; intros sheet E; injection E as <-; eexists; split; [apply ex_sheet_ancestry|split; [apply ex_sheet_readable|cbn; lia]]|].
  split.
  { intros b Hb. apply w_first_spec in Hb. vm_compute in Hb. injection Hb as <-. apply ex_borders_readable; [intros s [<-|[]]; eexists; reflexivity|].
    intros c [<-|[]]; eexists _, _; reflexivity. }
  split.
  { intros s pg E Hp. injection E as <-. apply w_first_spec in Hp. vm_compute in Hp. injection Hp as <-.
    eexists _, _, _. split; [reflexivity|]. split; reflexivity. }
  split.
  { repeat (apply Forall_cons || apply Forall_nil); exists "400"; eexists; (split; [reflexivity|]); reflexivity. }
  split.
  { repeat (apply Forall_cons || apply Forall_nil); intros HX; apply w_first_exists in HX; apply HX; reflexivity. }
  assert (HG : forall p, (forall q, In q p -> exists t a, q = w t a [] /\ t <> "vAlign" /\ t <> "tcBorders") -> forall s, readable_cell (opts (Some ex_sheet)) (tc p s)).
  { intros p Hp s. split; [|split; [|split]].
    - exists (text_p s). split; [right; left; reflexivity|]. split; [reflexivity|exact I].
    - intros v Hv. exfalso. apply w_attr_spec in Hv. unfold w_attr, tc in Hv. cbn [w_path] in Hv.
      change (w_children "tcPr" (w "tc" [] [w "tcPr" [] p; text_p s])) with [w "tcPr" [] p] in Hv. cbn [flat_map] in Hv. rewrite app_nil_r in Hv.
      assert (E : w_children "vAlign" (w "tcPr" [] p) = []).
      { unfold w_children. cbn [w x_children]. clear - Hp. induction p as [|q p IH]; [reflexivity|]. cbn [filter].
        destruct (Hp q (or_introl eq_refl)) as (t & a & -> & Ht & _). destruct (x_has_tag (w t a []) (wq "vAlign")) eqn:E.
        - apply has_word in E. apply is_word_fun with (a := t) in E; [congruence|reflexivity].
        - apply IH. intros q Hq. apply Hp. right. exact Hq. }
      rewrite E in Hv. discriminate.
    - intros q v [<-|[<-|[]]] Hw Hv; [discriminate|]. apply w_attr_spec in Hv. discriminate.
    - intros b Hb. exfalso. apply w_first_spec in Hb. unfold w_first, tc in Hb. cbn [w_path] in Hb.
      change (w_children "tcPr" (w "tc" [] [w "tcPr" [] p; text_p s])) with [w "tcPr" [] p] in Hb. cbn [flat_map] in Hb. rewrite app_nil_r in Hb.
      assert (E : w_children "tcBorders" (w "tcPr" [] p) = []).
      { unfold w_children. cbn [w x_children]. clear - Hp. induction p as [|q p IH]; [reflexivity|]. cbn [filter].
        destruct (Hp q (or_introl eq_refl)) as (t & a & -> & _ & Ht). destruct (x_has_tag (w t a []) (wq "tcBorders")) eqn:E.
        - apply has_word in E. apply is_word_fun with (a := t) in E; [congruence|reflexivity].
        - apply IH. intros q Hq. apply Hp. right. exact Hq. }
      rewrite E in Hb. discriminate. }
  intros tr0 tc0 Htr Htc.
  assert (HI : exists p s, tc0 = tc p s /\ In p [[]; [span "2"]; [restart]; [continue]]).
  { destruct Htr as [<-|[<-|[<-|[]]]]; repeat (destruct Htc as [<-|Htc]; [eexists _, _; split; [reflexivity|cbn; auto 6]|]); destruct Htc. }
  destruct HI as (p & s & -> & Hp). apply HG. intros q Hq.
  destruct Hp as [<-|Hp]; [destruct Hq|]. destruct Hp as [<-|[<-|[<-|[]]]]; destruct Hq as [<-|[]]; eexists _, _; (split; [reflexivity|split; discriminate]).
Qed.

(** The rows are not completed to the width of the rows below when there is no grid. *)
Theorem C49_ragged_refuted : exists o tbl trs rows t x y,
    word_table tbl [] trs /\ Forall2 row_reads trs rows /\ regular rows /\ ox_parse_table o None tbl = Ok t /\
    1 <= x <= widest 0 rows (Z.of_nat (List.length rows)) /\ 1 <= y <= Z.of_nat (List.length rows) /\
    forall c, In c (table_iter t) -> ~ covers (c_box c) (Coord x y).
Proof.
  set (trs := [tr [] [tc [] "a"]; tr [] [tc [] "b"; tc [] "c"]]).
  set (rows := [MkWRow "body" [MkSlot (tc [] "a") 1 1 false]; MkWRow "body" [MkSlot (tc [] "b") 1 1 false; MkSlot (tc [] "c") 2 1 false]]).
  exists (opts None), (w "tbl" [] trs), trs, rows.
  destruct (ex_parse_is (w "tbl" [] trs) (fun t => t_grid t =
    [ex_cell "a" [] "body" (MkBox (Coord 1 1) (Coord 1 1)); ex_cell "b" [] "body" (MkBox (Coord 1 2) (Coord 1 2)); ex_cell "c" [] "body" (MkBox (Coord 2 2) (Coord 2 2))])
    (opts None) None) as (t & E & Hg); [vm_compute; reflexivity|].
  exists t, 2, 1. split; [|split; [|split; [|split; [exact E|]]]].
  - split; [reflexivity|]. split; [reflexivity|]. split; [constructor|].
    repeat (apply Forall_cons || apply Forall_nil); (split; [reflexivity|]);
      (repeat (apply Forall_cons || apply Forall_nil)); (split; [reflexivity|constructor]).
  - apply Forall2_cons; [|apply Forall2_cons; [|apply Forall2_nil]]; (split; [some_row|]);
      (right; split; [|reflexivity]; left; intros HX; apply w_first_exists in HX; apply HX; reflexivity).
  - intros r row s' w' [Hr Hrow] (c & Hc & _ & Hk). unfold rows in Hrow.
    destruct (Z.to_nat (r - 1)) as [|[|n]] eqn:En; cbn in Hrow.
    + injection Hrow as <-. destruct Hc as [<-|[]]. discriminate.
    + injection Hrow as <-. destruct Hc as [<-|[<-|[]]]; discriminate.
    + destruct n; discriminate.
  - split; [change (1 <= 2 <= 2); lia|]. split; [change (1 <= 1 <= 2); lia|]. change (table_iter t) with (t_grid t). rewrite Hg.
    intros c Hc HX. unfold covers in HX. cbn in Hc. destruct Hc as [<-|[<-|[<-|[]]]]; cbn in HX; lia.
Qed.
(** The columns which a row leaves out at its start (w:gridBefore) are ignored. *)
Theorem C49_before_refuted : exists o tbl t r c,
    In r (parts tbl) /\ is_word "tr" r /\ value_at ["trPr"; "gridBefore"] "val" r "1" /\ parts r = [c] /\ begins c /\
    ox_parse_table o None tbl = Ok t /\ exists d, In d (table_iter t) /\ paragraphs c (match c_content d with CList l => l | _ => [] end) /\
    cx (bmin (c_box d)) = 1.
Proof.
  set (r := tr [w "gridBefore" [("val", "1")] []] [tc [] "a"]).
  exists (opts None), (w "tbl" [] [grid 2; r]).
  destruct (ex_parse_is (w "tbl" [] [grid 2; r]) (fun t => In (ex_cell "a" [] "body" (MkBox (Coord 1 1) (Coord 1 1))) (t_grid t)) (opts None) None) as (t & E & Hg);
    [vm_compute; left; reflexivity|].
  exists t, r, (tc [] "a"). split; [right; right; left; reflexivity|]. split; [reflexivity|]. split; [apply w_attr_spec; reflexivity|]. split; [reflexivity|].
  split; [left; intros HX; apply w_first_exists in HX; apply HX; reflexivity|]. split; [exact E|].
  eexists. split; [exact Hg|]. split; [|reflexivity]. cbn [ex_cell c_content]. exact (tc_content_spec (tc [] "a")).
Qed.
(** The flags "1", "on", "0", "off" of the header rows are refused... *)
Theorem C49_flag_refuted : forall v, In v ["1"; "0"; "on"; "off"] -> exists o tbl r,
    In r (parts tbl) /\ is_word "tr" r /\ value_at ["trPr"; "tblHeader"] "val" r v /\ ox_parse_table o None tbl = Err EKeyError.
Proof.
  intros v Hv. exists (opts None), (w "tbl" [] [grid 1; tr [header [("val", v)]] [tc [] "a"]]), (tr [header [("val", v)]] [tc [] "a"]).
  split; [right; left; reflexivity|]. split; [reflexivity|].
  destruct Hv as [<-|[<-|[<-|[<-|[]]]]]; (split; [apply w_attr_spec; reflexivity|vm_compute; reflexivity]).
Qed.
(** ... and so are the cells whose paragraphs are in a content control. *)
Theorem C49_control_refuted : exists o tbl r c,
    In r (parts tbl) /\ In c (parts r) /\ is_word "tc" c /\ exists_at ["sdt"; "sdtContent"; "p"] c /\ ox_parse_table o None tbl = Err EIndexError.
Proof.
  set (c := w "tc" [] [w "sdt" [] [w "sdtContent" [] [text_p "a"]]]).
  exists (opts None), (w "tbl" [] [grid 1; tr [] [c]]), (tr [] [c]), c. split; [right; left; reflexivity|]. split; [left; reflexivity|].
  split; [reflexivity|]. split; [apply w_first_exists; discriminate|vm_compute; reflexivity].
Qed.

(** ** Styles *)

Example C50_ex : exists d, get_style_borders (opts (Some ex_sheet)) 1000 (Some ex_sheet) (Some "fine") = Ok d /\
  dget d "border-top" = Some "w-thin-thick-small-gap 2pt" /\ dget d "x-cell-border-top" = Some "dotted 2pt" /\ dget d "border-left" = Some "none 2pt" /\
  dget d "border-right" = None.
Proof. eexists. split; [vm_compute; reflexivity|]. repeat split; vm_compute; reflexivity. Qed.
Example C50_nearest_ex : nearest (opts (Some ex_sheet))
  [style "fine" [based "base"] [side "top" "thinThickSmallGap"; side "start" "nil"]; style "base" [] [side "top" "single"; side "insideH" "dotted"]]
  "x-cell-border-top" "dotted 2pt".
Proof.
  destruct C50_ex as (d & E & _ & Hd & _). apply (C50_nearest _ _ _ _ _ _ ex_sheet_ancestry E); [cbn; auto 12|exact Hd].
Qed.
(** A style based on itself: no computation ends. *)
Theorem C50_every_sheet_refuted : exists o sheet id, (forall l, ~ ancestry sheet id l) /\
    forall fuel, get_style_borders o fuel (Some sheet) id = Err ERecursionError.
Proof.
  set (sheet := w "styles" [] [style "a" [based "b"] []; style "b" [based "a"] []]).
  exists (opts None), sheet, (Some "a").
  assert (HE : forall fuel, get_style_borders (opts None) fuel (Some sheet) (Some "a") = Err ERecursionError /\
                            get_style_borders (opts None) fuel (Some sheet) (Some "b") = Err ERecursionError).
  { induction fuel as [|fuel [IHa IHb]]; [split; reflexivity|]. split; cbn [get_style_borders].
    - change (find_style sheet "a") with (Some (style "a" [based "b"] [])). cbv iota. change (w_attr ["basedOn"] "val" (style "a" [based "b"] [])) with (Some "b").
      rewrite IHb. reflexivity.
    - change (find_style sheet "b") with (Some (style "b" [based "a"] [])). cbv iota. change (w_attr ["basedOn"] "val" (style "b" [based "a"] [])) with (Some "a").
      rewrite IHa. reflexivity. }
  split; [|intros fuel; apply HE].
  assert (HAll : forall id l, ancestry sheet id l -> Forall (readable_style (opts None)) l).
  { intros id l Hl. induction Hl as [|id Hno|id st up l Hst Hup _ IH]; [constructor|constructor|]. constructor; [|exact IH].
    apply find_style_spec in Hst. unfold find_style in Hst. apply find_some in Hst as [Hin _]. vm_compute in Hin.
    destruct Hin as [<-|[<-|[]]]; intros b Hb; apply w_first_spec in Hb; vm_compute in Hb; injection Hb as <-; intros c []. }
  intros l Hl.
  assert (HR : exists d, get_style_borders (opts None) (S (List.length l)) (Some sheet) (Some "a") = Ok d).
  { apply (readable_ancestry (opts None) sheet (Some "a") l Hl); [|lia].
    exact (HAll _ _ Hl). }
  destruct HR as (d & E). rewrite (proj1 (HE _)) in E. discriminate.
Qed.
(** The borders between the cells which the table itself sets are lost. *)
Theorem C50_inside_refuted : exists o tbl t k u, declares o INNER tbl k u /\ ox_parse_table o None tbl = Ok t /\ dget (t_styles t) k = None.
Proof.
  set (tbl := w "tbl" [] [w "tblPr" [] [w "tblBorders" [] [side "insideH" "single"]]; grid 1; tr [] [tc [] "a"]]).
  destruct (ex_parse_is tbl (fun t => dget (t_styles t) "x-cell-border-top" = None) (opts None) None) as (t & E & Hg); [vm_compute; reflexivity|].
  exists (opts None), tbl, t, "x-cell-border-top", "solid 2pt". split; [|split; [exact E|exact Hg]].
  exists (w "tblBorders" [] [side "insideH" "single"]), ["insideH"]. split; [apply w_first_spec; reflexivity|]. split; [left; reflexivity|].
  eapply border_line; [vm_compute; reflexivity|]. split; [discriminate|vm_compute; reflexivity].
Qed.

Print Assumptions C49_layout.
Print Assumptions C49_no_overlap.
Print Assumptions C49_no_hole.
Print Assumptions C49_rows.
Print Assumptions C49_columns.
Print Assumptions C49_succeeds.
Print Assumptions C49_ragged_refuted.
Print Assumptions C49_before_refuted.
Print Assumptions C49_flag_refuted.
Print Assumptions C49_control_refuted.
Print Assumptions C50_nearest.
Print Assumptions C50_terminates_partial.
Print Assumptions C50_only_finite.
Print Assumptions C50_table.
Print Assumptions C50_border_names.
Print Assumptions C50_every_sheet_refuted.
Print Assumptions C50_inside_refuted.
