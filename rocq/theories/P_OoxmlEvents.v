(** * Word documents: the events of the parser *)
From Verif Require Import Base M_Geometry M_Xml M_Cell M_Grid M_Table M_Regex M_Str M_Units M_Cals M_CalsParser M_Ooxml.
From Verif Require Import S_Geometry S_Grid S_Table S_Units S_Int S_Ooxml.
From Verif Require Import P_Table P_TableMore P_Builder P_Cals P_CalsParser P_CalsLayout P_CalsEvents P_CalsSim P_OoxmlPath.
Open Scope string_scope.
Open Scope list_scope.
Open Scope Z_scope.

Section Events.
  Variable o : ooxml_opts.
  Variable sect : option xnode.
  Notation tags := ox_elements.
  Notation step := (ox_event o sect).
  Notation run := (siter (ox_event o sect)).

  Lemma ox_walk_eq p n :
    walk tags p n =
    if matching tags n then MkEvent true n p :: flat_map (walk tags (Some n)) (x_children n) ++ [MkEvent false n p]
    else flat_map (walk tags (Some n)) (x_children n).
  Proof. destruct n; reflexivity. Qed.
  Lemma ox_matching name n : In name ["tbl"; "tblGrid"; "gridCol"; "tr"; "tc"] -> is_word name n -> matching tags n = true.
  Proof.
    intros Hin Hn. unfold matching. rewrite Hn. unfold str_mem. apply existsb_exists. exists (wq name).
    split; [apply in_map, Hin|]. apply String.eqb_eq. reflexivity.
  Qed.
  Lemma ox_tag_is name n : is_word name n -> ostr (x_tag n) = wq name.
  Proof. intros H. rewrite H. reflexivity. Qed.
  Lemma wq_neq a b : a <> b -> String.eqb (wq a) (wq b) = false.
  Proof. intros H. apply String.eqb_neq. intros E. apply H, word_inj. exact E. Qed.

  (** The depth after an event *)
  Lemma depth_tbl b n p d : is_word "tbl" n -> ox_depth (MkEvent b n p) d = (if b then d + 1 else d - 1).
  Proof. intros H. unfold ox_depth. cbn [ev_elem ev_start]. rewrite (ox_tag_is _ _ H), String.eqb_refl. reflexivity. Qed.
  Lemma depth_other b n p d : ~ is_word "tbl" n -> x_tag n <> None -> ox_depth (MkEvent b n p) d = d.
  Proof.
    intros H Ht. unfold ox_depth. cbn [ev_elem]. destruct (x_tag n) as [t|] eqn:E; [|congruence]. cbn [ostr].
    destruct (String.eqb_spec t (wq "tbl")) as [->|]; [|reflexivity]. exfalso. apply H. exact E.
  Qed.
  Lemma depth_named name b n p d : is_word name n -> name <> "tbl" -> ox_depth (MkEvent b n p) d = d.
  Proof.
    intros H Hne. apply depth_other.
    - intros H'. apply Hne. exact (is_word_fun _ _ _ H H').
    - rewrite H. discriminate.
  Qed.
  Lemma ox_with_depth s : with_depth (ps_depth s) s = s.
  Proof. destruct s; reflexivity. Qed.

  Lemma step_eq ev s : step ev s =
    let s' := with_depth (ox_depth ev (ps_depth s)) s in
    if 1 <? ps_depth s' then (s', Ok tt)
    else (if ev_start ev then ox_start o sect (ev_elem ev) else ox_end (ev_elem ev)) s'.
  Proof.
    unfold ox_event, sbind. rewrite smodify_eq. cbn [sget]. unfold sget. cbv zeta.
    destruct (1 <? ps_depth (with_depth (ox_depth ev (ps_depth s)) s)); [reflexivity|]. destruct (ev_start ev); reflexivity.
  Qed.
  Lemma step_skip ev s : 1 < ox_depth ev (ps_depth s) -> step ev s = (with_depth (ox_depth ev (ps_depth s)) s, Ok tt).
  Proof. intros H. rewrite step_eq. cbv zeta. cbn [with_depth ps_depth]. rewrite (proj2 (Z.ltb_lt _ _) H). reflexivity. Qed.
  (** The other events of a part, in the table itself *)
  Lemma step_named name b n p s : is_word name n -> name <> "tbl" -> ps_depth s <= 1 ->
    step (MkEvent b n p) s = (if b then ox_start o sect n else ox_end n) s.
  Proof.
    intros H Hne Hd. rewrite step_eq. rewrite (depth_named name) by assumption. rewrite ox_with_depth. cbv zeta.
    cbn [ev_start ev_elem]. destruct (Z.ltb_spec 1 (ps_depth s)); [lia|reflexivity].
  Qed.
  Lemma step_parent b n p p' s : step (MkEvent b n p) s = step (MkEvent b n p') s.
  Proof. reflexivity. Qed.

  Lemma ox_run_app l m s : run (l ++ m) s = (run l ;;; run m) s.
  Proof. rewrite siter_app. reflexivity. Qed.
  Lemma ox_run_flat {A} (f : A -> list event) cs s : (forall c, In c cs -> run (f c) s = (s, Ok tt)) -> run (flat_map f cs) s = (s, Ok tt).
  Proof.
    induction cs as [|c cs IH]; intros H; [reflexivity|]. cbn [flat_map]. rewrite ox_run_app. unfold sbind.
    rewrite H by (left; reflexivity). apply IH. intros d Hd. apply H. right. exact Hd.
  Qed.
  Lemma run_parent n p p' s : run (walk tags p n) s = run (walk tags p' n) s.
  Proof.
    rewrite (ox_walk_eq p), (ox_walk_eq p'). destruct (matching tags n); [|reflexivity].
    cbn [siter]. unfold sbind. rewrite (step_parent true n p p'). destruct (step (MkEvent true n p') s) as [s1 [[]|e]]; [|reflexivity].
    rewrite !ox_run_app. unfold sbind. destruct (run _ s1) as [s2 [[]|e]]; [|reflexivity]. reflexivity.
  Qed.

  Lemma ox_deep n : forall p s, 1 < ps_depth s -> run (walk tags p n) s = (s, Ok tt).
  Proof.
    induction n as [tag at0 text children tail IH| |] using xnode_ind'; intros p s Hd; [|reflexivity..].
    rewrite Forall_forall in IH. rewrite ox_walk_eq. set (n := XElem tag at0 text children tail).
    assert (Hch : forall s, 1 < ps_depth s -> run (flat_map (walk tags (Some n)) (x_children n)) s = (s, Ok tt)).
    { intros s' Hs'. apply ox_run_flat. intros c Hc. apply IH; assumption. }
    destruct (matching tags n); [|apply Hch, Hd].
    assert (HD : forall b q d, ox_depth (MkEvent b n q) d = (if String.eqb tag (wq "tbl") then (if b then d + 1 else d - 1) else d)) by reflexivity.
    cbn [siter]. unfold sbind. destruct (String.eqb tag (wq "tbl")).
    - rewrite step_skip by (rewrite HD; lia). rewrite HD. rewrite ox_run_app. unfold sbind. rewrite Hch by (cbn; lia).
      cbn [siter]. unfold sbind. rewrite step_skip by (rewrite HD; cbn; lia). rewrite HD. cbn [ps_depth with_depth].
      unfold sret. f_equal. destruct s; cbn. unfold with_depth. cbn. f_equal. lia.
    - rewrite step_skip by (rewrite HD; lia). rewrite HD, ox_with_depth. rewrite ox_run_app. unfold sbind. rewrite Hch by exact Hd.
      cbn [siter]. unfold sbind. rewrite step_skip by (rewrite HD; lia). rewrite HD, ox_with_depth. reflexivity.
  Qed.
  (** A table in a cell is not read. *)
  Lemma ox_nested n p s : is_word "tbl" n -> ps_depth s = 1 -> run (walk tags p n) s = (s, Ok tt).
  Proof.
    intros Hn Hd. rewrite ox_walk_eq, (ox_matching "tbl") by (try exact Hn; cbn; tauto). cbn [siter]. unfold sbind at 1.
    rewrite step_skip by (rewrite depth_tbl by exact Hn; lia). rewrite depth_tbl by exact Hn. rewrite ox_run_app. unfold sbind at 1.
    rewrite ox_run_flat by (intros c _; apply ox_deep; cbn; lia).
    cbn [siter]. unfold sbind. rewrite step_eq, depth_tbl by exact Hn. cbn [ps_depth with_depth].
    replace (with_depth (ps_depth s + 1 - 1) (with_depth (ps_depth s + 1) s)) with s
      by (destruct s; unfold with_depth; cbn; f_equal; lia).
    cbn [ev_start ev_elem]. cbv zeta. destruct (Z.ltb_spec 1 (ps_depth s + 1 - 1)); [lia|].
    unfold ox_end. rewrite (ox_tag_is _ _ Hn), wq_neq by discriminate. reflexivity.
  Qed.

  Lemma part_spec n : part n = true <-> exists name, In name ["tbl"; "gridCol"; "tr"; "tc"] /\ is_word name n.
  Proof.
    unfold part, is_word. destruct (x_tag n) as [t|].
    - rewrite existsb_exists. split.
      + intros (name & Hin & E). apply String.eqb_eq in E. subst. eauto.
      + intros (name & Hin & E). injection E as ->. exists name. split; [exact Hin|apply String.eqb_refl].
    - split; [discriminate|]. intros (name & _ & E). discriminate.
  Qed.
  Lemma not_part n : part n = false -> matching tags n = true -> is_word "tblGrid" n.
  Proof.
    intros Hp Hm. unfold matching in Hm. destruct (x_tag n) as [t|] eqn:E; [|discriminate].
    unfold str_mem in Hm. apply existsb_exists in Hm as (x & Hx & Ex). apply String.eqb_eq in Ex. subst x.
    apply in_map_iff in Hx as (name & <- & Hin). destruct (String.eqb_spec name "tblGrid") as [->|Hne]; [exact E|].
    assert (part n = true); [|congruence]. apply part_spec. exists name. split; [|exact E].
    cbn in *. destruct Hin as [<-|[<-|[<-|[<-|[<-|[]]]]]]; tauto.
  Qed.
  Lemma grid_event b n p s : is_word "tblGrid" n -> step (MkEvent b n p) s = (s, Ok tt).
  Proof.
    intros Hn. rewrite step_eq. rewrite (depth_named "tblGrid") by (try exact Hn; discriminate). rewrite ox_with_depth. cbv zeta.
    destruct (1 <? ps_depth s); [reflexivity|]. cbn [ev_start ev_elem]. unfold ox_start, ox_end.
    rewrite (ox_tag_is _ _ Hn). cbv zeta. rewrite !wq_neq by discriminate. rewrite String.eqb_refl. destruct b; reflexivity.
  Qed.
  (** Only the parts matter. *)
  Lemma run_parts n : forall q s, run (flat_map (walk tags q) (x_children n)) s = run (flat_map (walk tags None) (parts n)) s.
  Proof.
    induction n as [tag at0 text children tail IH| |] using xnode_ind'; intros q s; [|reflexivity..].
    cbn [x_children parts]. revert s. induction IH as [|c l Hc _ IHl]; intros s; [reflexivity|].
    cbn [flat_map]. rewrite flat_map_app, !ox_run_app. unfold sbind.
    assert (E : run (walk tags q c) s = run (flat_map (walk tags None) (if part c then [c] else parts c)) s).
    { destruct (part c) eqn:Ep.
      - cbn [flat_map]. rewrite app_nil_r. apply run_parent.
      - rewrite ox_walk_eq. destruct (matching tags c) eqn:Em; [|apply Hc].
        pose proof (not_part c Ep Em) as Hg. cbn [siter]. unfold sbind. rewrite grid_event by exact Hg.
        rewrite ox_run_app. unfold sbind. rewrite Hc. destruct (run (flat_map (walk tags None) (parts c)) s) as [s1 [[]|e]]; [|reflexivity].
        cbn [siter]. unfold sbind. rewrite grid_event by exact Hg. reflexivity. }
    rewrite E. destruct (run (flat_map (walk tags None) (if part c then [c] else parts c)) s) as [s1 [[]|e]]; [|reflexivity]. apply IHl.
  Qed.

  (** ** The chunks *)

  Lemma run_grid_col n s : is_grid_col n -> ps_depth s = 1 -> run (walk tags None n) s = parse_grid_col o n (next_col s).
  Proof.
    intros [Hn Hp] Hd. rewrite ox_walk_eq, (ox_matching "gridCol") by (try exact Hn; cbn; tauto). cbn [siter]. unfold sbind at 1.
    rewrite (step_named "gridCol") by (try exact Hn; try discriminate; lia).
    unfold ox_start. rewrite (ox_tag_is _ _ Hn). cbv zeta. rewrite !wq_neq by discriminate. rewrite String.eqb_refl.
    unfold sbind at 1. rewrite smodify_eq.
    assert (Hpd : ps_depth (fst (parse_grid_col o n (next_col s))) = 1).
    { unfold parse_grid_col, sbind, slift, sget. destruct (grid_col_styles o n); [|exact Hd].
      unfold on_table. cbn [ps_table next_col]. destruct (ps_table s) as [t|]; [|exact Hd].
      destruct (view_update_styles Cols _ _ t) as [t' r]. exact Hd. }
    destruct (parse_grid_col o n (next_col s)) as [s1 [[]|e]] eqn:E; [|reflexivity]. cbn [fst] in Hpd.
    rewrite ox_run_app. unfold sbind. rewrite run_parts, Hp. cbn [flat_map siter]. unfold sret, sbind.
    rewrite (step_named "gridCol") by (try exact Hn; try discriminate; lia).
    unfold ox_end. rewrite (ox_tag_is _ _ Hn), wq_neq by discriminate. reflexivity.
  Qed.

  Lemma on_table_depth {A} (m : SM table A) s : ps_depth (fst (on_table m s)) = ps_depth s.
  Proof. unfold on_table. destruct (ps_table s) as [t|]; [|reflexivity]. destruct (m t). reflexivity. Qed.
  Lemma parse_tc_depth n s : ps_depth (fst (parse_tc o n s)) = ps_depth s.
  Proof.
    assert (Hput : forall w s, ps_depth (fst (put_tc o n w s)) = ps_depth s).
    { intros w s'. unfold put_tc, sbind, slift, sget. destruct (tc_styles o n); [|reflexivity].
      destruct (ps_row s'); [apply on_table_depth|reflexivity]. }
    unfold parse_tc, sbind, slift. destruct (tc_width n) as [w|]; [|reflexivity]. rewrite smodify_eq.
    destruct (tc_merge n) as [m|]; [|rewrite Hput; reflexivity].
    destruct (String.eqb m "continue").
    - unfold sget. cbn [ps_row add_col]. destruct (ps_row s); [|reflexivity]. rewrite on_table_depth. reflexivity.
    - destruct (String.eqb m "restart"); [rewrite Hput; reflexivity|reflexivity].
  Qed.
  Lemma run_cell n s : is_cell n -> ps_depth s = 1 -> run (walk tags None n) s = parse_tc o n (next_col s).
  Proof.
    intros [Hn Hp] Hd. rewrite ox_walk_eq, (ox_matching "tc") by (try exact Hn; cbn; tauto). cbn [siter]. unfold sbind at 1.
    rewrite (step_named "tc") by (try exact Hn; try discriminate; lia).
    unfold ox_start. rewrite (ox_tag_is _ _ Hn). cbv zeta. rewrite !wq_neq by discriminate. rewrite String.eqb_refl.
    unfold sbind at 1. rewrite smodify_eq. pose proof (parse_tc_depth n (next_col s)) as Hpd.
    destruct (parse_tc o n (next_col s)) as [s1 [[]|e]] eqn:E; [|reflexivity]. cbn [fst] in Hpd.
    assert (H1 : ps_depth s1 = 1) by (rewrite Hpd; exact Hd).
    rewrite ox_run_app. unfold sbind. rewrite run_parts.
    rewrite ox_run_flat by (intros c Hc; apply ox_nested; [rewrite Forall_forall in Hp; apply Hp, Hc|exact H1]).
    cbn [siter]. unfold sbind. rewrite (step_named "tc") by (try exact Hn; try discriminate; lia).
    unfold ox_end. rewrite (ox_tag_is _ _ Hn), wq_neq by discriminate. reflexivity.
  Qed.
  Fixpoint cells_run (cells : list xnode) : SM pstate unit :=
    match cells with
    | [] => sret tt
    | c :: cells' => fun s => (parse_tc o c ;;; cells_run cells') (next_col s)
    end.
  Lemma run_cells cells s : Forall is_cell cells -> ps_depth s = 1 -> run (flat_map (walk tags None) cells) s = cells_run cells s.
  Proof.
    intros H. revert s. induction H as [|c cells Hc _ IH]; intros s Hd; [reflexivity|].
    cbn [flat_map cells_run]. rewrite ox_run_app. unfold sbind. rewrite run_cell by assumption.
    pose proof (parse_tc_depth c (next_col s)) as Hpd. destruct (parse_tc o c (next_col s)) as [s1 [[]|e]]; [|reflexivity].
    apply IH. cbn [fst] in Hpd. rewrite Hpd. exact Hd.
  Qed.
  Lemma cells_run_depth cells s : ps_depth (fst (cells_run cells s)) = ps_depth s.
  Proof.
    revert s. induction cells as [|c cells IH]; intros s; [reflexivity|]. cbn [cells_run]. unfold sbind.
    pose proof (parse_tc_depth c (next_col s)) as Hpd. destruct (parse_tc o c (next_col s)) as [s1 [[]|e]]; cbn [fst] in *; [|exact Hpd].
    rewrite IH, Hpd. reflexivity.
  Qed.
  Lemma parse_tr_depth n s : ps_depth (fst (parse_tr o n s)) = ps_depth s.
  Proof.
    unfold parse_tr, sbind, slift, sget. destruct (tr_nature n) as [na|]; [|reflexivity].
    pose proof (on_table_depth (unit_of (view_get Rows (ps_row_pos s))) s) as H1.
    destruct (on_table _ s) as [s1 [[]|e]]; [|exact H1]. cbn [fst] in H1. rewrite smodify_eq.
    pose proof (on_table_depth (view_set_nature Rows (ps_row_pos s) (Some na)) (with_row (Some (ps_row_pos s)) s1)) as H2.
    destruct (on_table _ _) as [s2 [[]|e]]; cbn [fst] in H2; [|rewrite <- H1; exact H2].
    assert (H3 : ps_depth s2 = ps_depth s) by (rewrite H2, <- H1; reflexivity).
    destruct (tr_height o n) as [st|e]; [|exact H3].
    pose proof (on_table_depth (view_update_styles Rows (ps_row_pos s) st) s2) as H4.
    destruct (on_table _ s2) as [s3 [[]|e]]; cbn [fst] in *; [|congruence].
    rewrite on_table_depth. congruence.
  Qed.
  Definition row_run (n : xnode) : SM pstate unit := parse_tr o n ;;; cells_run (parts n) ;;; end_row.
  Lemma run_row n s : is_row n -> ps_depth s = 1 -> run (walk tags None n) s = row_run n (next_row s).
  Proof.
    intros [Hn Hp] Hd. rewrite ox_walk_eq, (ox_matching "tr") by (try exact Hn; cbn; tauto). cbn [siter]. unfold sbind at 1.
    rewrite (step_named "tr") by (try exact Hn; try discriminate; lia).
    unfold ox_start. rewrite (ox_tag_is _ _ Hn). cbv zeta. rewrite !wq_neq by discriminate. rewrite String.eqb_refl.
    unfold sbind at 1. rewrite smodify_eq. unfold row_run, sbind. pose proof (parse_tr_depth n (next_row s)) as Hpd.
    destruct (parse_tr o n (next_row s)) as [s1 [[]|e]]; [|reflexivity]. cbn [fst] in Hpd.
    assert (H1 : ps_depth s1 = 1) by (rewrite Hpd; exact Hd).
    rewrite ox_run_app. unfold sbind. rewrite run_parts. rewrite run_cells by assumption.
    pose proof (cells_run_depth (parts n) s1) as Hc. destruct (cells_run (parts n) s1) as [s2 [[]|e]]; [|reflexivity]. cbn [fst] in Hc.
    cbn [siter]. unfold sbind. rewrite (step_named "tr") by (try exact Hn; try discriminate; lia).
    unfold ox_end. rewrite (ox_tag_is _ _ Hn), String.eqb_refl.
    destruct (end_row s2) as [s3 [[]|e]]; reflexivity.
  Qed.
  Lemma row_run_depth n s : ps_depth (fst (row_run n s)) = ps_depth s.
  Proof.
    unfold row_run, sbind. pose proof (parse_tr_depth n s) as Hpd.
    destruct (parse_tr o n s) as [s1 [[]|e]]; cbn [fst] in *; [|exact Hpd].
    pose proof (cells_run_depth (parts n) s1) as Hc. destruct (cells_run (parts n) s1) as [s2 [[]|e]]; cbn [fst] in *; [|congruence].
    rewrite <- Hpd, <- Hc. unfold end_row, sbind, sget.
    pose proof (on_table_depth (views_get Cols) s2) as H1. destruct (on_table (views_get Cols) s2) as [s3 [vs|e]]; cbn [fst] in *; [|exact H1].
    unfold slift. destruct (box_new _); [|exact H1]. destruct (ps_row s2); [|exact H1]. rewrite on_table_depth. exact H1.
  Qed.
  Fixpoint rows_run (rows : list xnode) : SM pstate unit :=
    match rows with
    | [] => sret tt
    | n :: rows' => fun s => (row_run n ;;; rows_run rows') (next_row s)
    end.
  Lemma run_rows rows s : Forall is_row rows -> ps_depth s = 1 -> run (flat_map (walk tags None) rows) s = rows_run rows s.
  Proof.
    intros H. revert s. induction H as [|n rows Hn _ IH]; intros s Hd; [reflexivity|].
    cbn [flat_map rows_run]. rewrite ox_run_app. unfold sbind. rewrite run_row by assumption.
    pose proof (row_run_depth n (next_row s)) as Hpd. destruct (row_run n (next_row s)) as [s1 [[]|e]]; [|reflexivity].
    apply IH. cbn [fst] in Hpd. rewrite Hpd. exact Hd.
  Qed.
  Fixpoint cols_run (cols : list xnode) : SM pstate unit :=
    match cols with
    | [] => sret tt
    | n :: cols' => fun s => (parse_grid_col o n ;;; cols_run cols') (next_col s)
    end.
  Lemma parse_grid_col_depth n s : ps_depth (fst (parse_grid_col o n s)) = ps_depth s.
  Proof.
    unfold parse_grid_col, sbind, slift, sget. destruct (grid_col_styles o n); [|reflexivity]. apply on_table_depth.
  Qed.
  Lemma run_cols cols s : Forall is_grid_col cols -> ps_depth s = 1 -> run (flat_map (walk tags None) cols) s = cols_run cols s.
  Proof.
    intros H. revert s. induction H as [|n cols Hn _ IH]; intros s Hd; [reflexivity|].
    cbn [flat_map cols_run]. rewrite ox_run_app. unfold sbind. rewrite run_grid_col by assumption.
    pose proof (parse_grid_col_depth n (next_col s)) as Hpd. destruct (parse_grid_col o n (next_col s)) as [s1 [[]|e]]; [|reflexivity].
    apply IH. cbn [fst] in Hpd. rewrite Hpd. exact Hd.
  Qed.
  Lemma cols_run_depth cols s : ps_depth (fst (cols_run cols s)) = ps_depth s.
  Proof.
    revert s. induction cols as [|c cols IH]; intros s; [reflexivity|]. cbn [cols_run]. unfold sbind.
    pose proof (parse_grid_col_depth c (next_col s)) as Hpd. destruct (parse_grid_col o c (next_col s)) as [s1 [[]|e]]; cbn [fst] in *; [|exact Hpd].
    rewrite IH, Hpd. reflexivity.
  Qed.

  (** The whole table *)
  Lemma parse_word_table tbl cols rows : word_table tbl cols rows ->
    ox_parse_table o sect tbl =
    (st <-? tbl_styles o sect tbl ;;
     let (s, r) := (cols_run cols ;;; rows_run rows) (MkPState 1 0 0 None (Some (MkTable [] None None st (tbl_style_id tbl)))) in
     _ <-? r ;;
     match ps_table s with Some t => Ok t | None => Err EAttributeError end).
  Proof.
    intros (Hn & Hp & Hc & Hr). unfold ox_parse_table.
    rewrite ox_walk_eq, (ox_matching "tbl") by (try exact Hn; cbn; tauto). cbn [siter]. unfold sbind at 1.
    rewrite step_eq, depth_tbl by exact Hn. cbn [ps_depth pstate_reset with_depth ev_start ev_elem]. cbv zeta.
    change (1 <? 0 + 1) with false. cbv iota. unfold ox_start. rewrite (ox_tag_is _ _ Hn), String.eqb_refl.
    assert (Et : forall s, parse_tbl o sect tbl s =
      match tbl_styles o sect tbl with
      | Ok st => (with_table (Some (MkTable [] None None st (tbl_style_id tbl))) s, Ok tt)
      | Err e => (s, Err e)
      end) by (intros s; unfold parse_tbl, sbind, slift; destruct (tbl_styles o sect tbl); reflexivity).
    rewrite Et. destruct (tbl_styles o sect tbl) as [st|e]; [|reflexivity]. cbn [rbind].
    unfold with_table, with_depth, pstate_reset. cbn [ps_depth ps_col ps_row_pos ps_row Z.add].
    set (s0 := MkPState 1 0 0 None _).
    rewrite ox_run_app. unfold sbind at 1. rewrite run_parts, Hp, flat_map_app, ox_run_app. unfold sbind at 1 2.
    rewrite run_cols by (try assumption; reflexivity).
    pose proof (cols_run_depth cols s0) as H1. destruct (cols_run cols s0) as [s1 [[]|e]]; cbn [fst] in H1; [|reflexivity].
    rewrite run_rows by assumption.
    assert (H2 : ps_depth (fst (rows_run rows s1)) = ps_depth s1).
    { clear. revert s1. induction rows as [|n rows IH]; intros s; [reflexivity|]. cbn [rows_run]. unfold sbind.
      pose proof (row_run_depth n (next_row s)) as Hpd. destruct (row_run n (next_row s)) as [s1 [[]|e]]; cbn [fst] in *; [|exact Hpd].
      rewrite IH, Hpd. reflexivity. }
    destruct (rows_run rows s1) as [s2 [[]|e]]; cbn [fst] in H2; [|reflexivity].
    cbn [siter]. unfold sbind. rewrite step_eq, depth_tbl by exact Hn. cbn [with_depth ps_depth ev_start ev_elem]. cbv zeta.
    rewrite H2, H1. change (ps_depth s0) with 1. change (1 <? 1 - 1) with false. cbv iota.
    unfold ox_end. rewrite (ox_tag_is _ _ Hn), wq_neq by discriminate. reflexivity.
  Qed.
End Events.
