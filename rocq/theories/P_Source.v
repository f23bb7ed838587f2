(** * Proofs: what is in the cells of a parsed table comes from the source *)
From Verif Require Import Base M_Geometry M_Xml M_Cell M_Grid M_Table M_Str M_Cals M_CalsParser M_FormexParser M_FormexRead M_Ooxml M_ConvertDoc S_Builder P_Grid P_Str P_Cals P_CalsSim P_Fit.
Open Scope string_scope.
Open Scope list_scope.
Open Scope Z_scope.

Section Source.
Variable Q : piece -> Prop.

Definition from (ct : content) : Prop := Forall Q (content_pieces ct) /\ match ct with CNum _ => False | _ => True end.
Definition good (t : table) : Prop := Forall (fun c => from (c_content c)) (t_grid t).

Lemma from_add a b c : from a -> from b -> content_add a b = Ok c -> from c.
Proof.
  intros [Ha Ha'] [Hb Hb'] E. destruct a, b; cbn in E; try discriminate; injection E as <-; try contradiction; split; try exact I.
  - cbn in *. unfold text_pieces in *. rewrite list_of_append, map_app. apply Forall_app. split; assumption.
  - cbn in *. rewrite flat_map_app. apply Forall_app. split; assumption.
Qed.
Lemma from_merge a b c : from a -> from b -> merge_content content_add a b = Ok c -> from c.
Proof. intros Ha Hb. destruct a, b; cbn [merge_content]; try (intros [= <-]; assumption); apply from_add; assumption. Qed.
Lemma from_none : from CNone.
Proof. split; [constructor|exact I]. Qed.

(** ** Tables *)
Definition gk {A} (m : SM table A) : Prop := forall t, good t -> good (fst (m t)).
Definition same_grid {A} (m : SM table A) : Prop := forall t, t_grid (fst (m t)) = t_grid t.
Lemma gk_bind {A B} (m : SM table A) (f : A -> SM table B) : gk m -> (forall a, gk (f a)) -> gk (sbind m f).
Proof.
  intros Hm Hf t Ht. unfold sbind. specialize (Hm t Ht). destruct (m t) as [t' [a|x]]; cbn [fst] in *; [apply Hf, Hm|exact Hm].
Qed.
Lemma gk_same {A} (m : SM table A) : same_grid m -> gk m.
Proof. intros H t Ht. unfold good. rewrite H. exact Ht. Qed.
Lemma same_bind {A B} (m : SM table A) (f : A -> SM table B) : same_grid m -> (forall a, same_grid (f a)) -> same_grid (sbind m f).
Proof.
  intros Hm Hf t. unfold sbind. specialize (Hm t). destruct (m t) as [t' [a|x]]; cbn [fst] in *; [rewrite Hf; exact Hm|exact Hm].
Qed.
Lemma same_get {A} (f : table -> SM table A) : (forall t, same_grid (f t)) -> same_grid (t <- sget ;; f t).
Proof. intros H. apply same_bind; [intros t; reflexivity|exact H]. Qed.
Lemma same_lift {A} (r : result A) : same_grid (slift r).
Proof. intros t. unfold slift. destruct r; reflexivity. Qed.
Lemma same_put ax vs : same_grid (views_put ax vs).
Proof. intros t. destruct ax; reflexivity. Qed.
Lemma same_views ax : same_grid (views_get ax).
Proof.
  intros t. unfold views_get, sbind, sget. destruct (t_views ax t); [reflexivity|]. unfold slift. destruct (vl_refresh _ _ _); [|reflexivity]. destruct ax; reflexivity.
Qed.
Lemma same_view ax p : same_grid (view_get ax p).
Proof. unfold view_get. apply same_bind; [apply same_views|]. intros vs. apply same_bind; [apply same_put|]. intros _. apply same_lift. Qed.
Lemma same_modify ax p f : same_grid (view_modify ax p f).
Proof.
  unfold view_modify. apply same_bind; [apply same_view|]. intros _. apply same_bind; [apply same_views|]. intros vs.
  apply same_bind; [apply same_lift|]. intros vs'. apply same_put.
Qed.
Lemma same_refresh_cell c : same_grid (refresh_cell c).
Proof.
  unfold refresh_cell. apply same_bind; [apply same_views|]. intros. apply same_bind; [apply same_lift|]. intros. apply same_bind; [apply same_put|]. intros.
  apply same_bind; [apply same_views|]. intros. apply same_bind; [apply same_lift|]. intros. apply same_put.
Qed.
Lemma same_refresh_all : same_grid refresh_all.
Proof.
  unfold refresh_all. apply same_bind; [apply same_views|]. intros. apply same_get. intros t0. apply same_bind; [apply same_lift|]. intros. apply same_bind; [apply same_put|]. intros.
  apply same_bind; [apply same_views|]. intros. apply same_bind; [apply same_lift|]. intros. apply same_put.
Qed.

Lemma in_insert {A} (l : list A) i x y : In y (insert_at l i x) -> y = x \/ In y l.
Proof. unfold insert_at. rewrite <- (firstn_skipn i l) at 3. rewrite !in_app_iff. cbn. intuition. Qed.

Lemma cell_new_content ct s na x y w h c : cell_new ct s na x y w h = Ok c -> c_content c = ct.
Proof. unfold cell_new. intros H. bind H as b Eb. injection H as <-. reflexivity. Qed.
Lemma transform_content c co sz c' : cell_transform c co sz = Ok c' -> c_content c' = c_content c.
Proof. unfold cell_transform. intros H. bind H as b Eb. exact (cell_new_content _ _ _ _ _ _ _ _ H). Qed.

Definition rk_grid {A} (m : SM grid A) : Prop :=
  forall g, Forall (fun c => from (c_content c)) g -> Forall (fun c => from (c_content c)) (fst (m g)).
Lemma gk_grid {A} (m : SM grid A) : rk_grid m -> gk (on_grid m).
Proof. intros H t Ht. unfold on_grid. specialize (H (t_grid t) Ht). destruct (m (t_grid t)) as [g' r]. exact H. Qed.
Lemma sorted_grid c : from (c_content c) -> rk_grid (grid_insert_sorted c).
Proof.
  intros Hc g Hg. unfold grid_insert_sorted, sbind, sget, slift. destruct (box_new _); [|exact Hg]. destruct (bisect_left _ _); [|exact Hg].
  cbn [fst sput]. rewrite Forall_forall in *. intros y Hy. apply in_insert in Hy as [->|Hy]; [exact Hc|exact (Hg y Hy)].
Qed.
Lemma setitem_grid v c : from (c_content c) -> rk_grid (grid_setitem v c).
Proof.
  intros Hc g Hg. unfold grid_setitem. unfold sbind, sget, slift. destruct (coord_from_value v); [|exact Hg].
  destruct (cell_move_to c _) as [c'|] eqn:Em; [|exact Hg]. destruct (existsb _ g); [exact Hg|].
  apply sorted_grid; [|exact Hg]. rewrite (transform_content _ _ _ _ Em). exact Hc.
Qed.
Lemma split_in b cells mu : merge_split b cells = Ok mu -> forall c, In c (fst mu) \/ In c (snd mu) -> In c cells.
Proof.
  revert mu. induction cells as [|d l IH]; intros mu E c Hc; cbn [merge_split] in E.
  - injection E as <-. cbn in Hc. tauto.
  - destruct (box_has_box b (c_box d)).
    + bind E as mu' E'. injection E as <-. cbn [fst snd] in Hc. specialize (IH _ eq_refl c). cbn. cbn in Hc. tauto.
    + destruct (box_intersect (c_box d) b); [discriminate|]. bind E as mu' E'. injection E as <-. cbn [fst snd] in Hc. specialize (IH _ eq_refl c). cbn. cbn in Hc. tauto.
Qed.
Lemma merge_from l : forall c c', from (c_content c) -> (forall d, In d l -> from (c_content d)) -> merge_cells content_add c l = Ok c' -> from (c_content c').
Proof.
  induction l as [|d l IH]; intros c c' Hc Hl E; cbn [merge_cells] in E; [injection E as <-; exact Hc|].
  bind E as ct Ec. apply (IH _ _) in E; [exact E| |intros x Hx; apply Hl; right; exact Hx].
  apply (from_merge _ _ _ Hc (Hl d (or_introl eq_refl)) Ec).
Qed.
Lemma merge_grid a b : rk_grid (grid_merge a b None).
Proof.
  intros g Hg. unfold grid_merge. unfold sbind at 1 2, slift at 1 2. destruct (coord_from_value a); [|exact Hg]. destruct (coord_from_value b); [|exact Hg].
  cbv zeta. unfold sbind at 1, slift at 1. destruct (box_new _) as [nb|]; [|exact Hg]. unfold sbind at 1, sget. unfold sbind at 1, slift at 1.
  destruct (merge_split nb g) as [mu|] eqn:Em; [|exact Hg]. pose proof (split_in _ _ _ Em) as Hin.
  rewrite Forall_forall in Hg.
  destruct (fst mu) as [|f merged]; [cbn; apply Forall_forall; exact Hg|].
  unfold sbind at 1, slift at 1. destruct (cell_transform f _ _) as [c0|] eqn:Ef; [|apply Forall_forall; exact Hg].
  unfold sbind at 1, slift at 1. destruct (merge_cells content_add c0 merged) as [c1|] eqn:E1; [|apply Forall_forall; exact Hg].
  assert (H1 : from (c_content c1)).
  { refine (merge_from _ _ _ _ _ E1).
    - rewrite (transform_content _ _ _ _ Ef). apply Hg, Hin. left. left. reflexivity.
    - intros d Hd. apply Hg, Hin. left. right. exact Hd. }
  unfold sbind at 1, sput. unfold sbind at 1.
  assert (H2 : Forall (fun c => from (c_content c)) (snd mu)) by (apply Forall_forall; intros d Hd; apply Hg, Hin; right; exact Hd).
  pose proof (sorted_grid c1 H1 (snd mu) H2) as H3. destruct (grid_insert_sorted c1 (snd mu)) as [g' [u|]]; cbn [fst sret] in *; exact H3.
Qed.
Lemma expand_grid v w h : rk_grid (grid_expand v w h None).
Proof.
  intros g Hg. unfold grid_expand. unfold sbind at 1, sget. unfold sbind at 1, slift at 1. destruct (grid_getitem g v); [|exact Hg].
  cbv zeta. unfold sbind at 1, slift at 1. destruct (coord_add _ _); [|exact Hg]. apply merge_grid, Hg.
Qed.
Lemma gk_setitem v c : from (c_content c) -> gk (table_setitem v c).
Proof.
  intros Hc. unfold table_setitem. apply gk_bind; [apply gk_grid, setitem_grid, Hc|]. intros _. apply gk_same. apply same_get. intros t0.
  apply same_bind; [apply same_lift|]. intros c'. apply same_refresh_cell.
Qed.
Lemma gk_known {A B} (r : result A) (f : A -> SM table B) : (forall a, r = Ok a -> gk (f a)) -> gk (sbind (slift r) f).
Proof. intros H t Ht. unfold sbind, slift. destruct r as [a|x]; [apply (H a eq_refl), Ht|exact Ht]. Qed.
Lemma gk_insert ax p ct s na w h : from ct -> gk (insert_cell ax p ct s na w h).
Proof.
  intros Hc. unfold insert_cell. apply gk_bind; [apply gk_same, same_view|]. intros v. apply gk_known. intros i _. cbv zeta.
  apply gk_known. intros c Ec. apply gk_setitem. rewrite (cell_new_content _ _ _ _ _ _ _ _ Ec). exact Hc.
Qed.
Lemma gk_fill bb s na : gk (table_fill_missing bb CNone s na).
Proof.
  unfold table_fill_missing. induction (fill_positions bb) as [|xy l IH]; cbn [siter]; [intros t Ht; exact Ht|]. apply gk_bind; [|intros _; exact IH].
  unfold fill_one. apply gk_bind; [apply gk_same; intros t; reflexivity|]. intros t0. apply gk_known. intros [|] _; [intros t Ht; exact Ht|].
  apply gk_known. intros c Ec. apply gk_setitem. rewrite (cell_new_content _ _ _ _ _ _ _ _ Ec). exact from_none.
Qed.
Lemma gk_expand v w h : gk (table_expand v w h None).
Proof. unfold table_expand. apply gk_bind; [apply gk_grid, expand_grid|]. intros _. apply gk_same, same_refresh_all. Qed.

(** ** Parsers *)
Definition pgood (s : pstate) : Prop := match ps_table s with Some t => good t | None => True end.
Definition pk {A} (m : SM pstate A) : Prop := forall s, pgood s -> pgood (fst (m s)).
Lemma pk_bind {A B} (m : SM pstate A) (f : A -> SM pstate B) : pk m -> (forall a, pk (f a)) -> pk (sbind m f).
Proof.
  intros Hm Hf s Hs. unfold sbind. specialize (Hm s Hs). destruct (m s) as [s' [a|x]]; cbn [fst] in *; [apply Hf, Hm|exact Hm].
Qed.
Lemma pk_get : pk sget.
Proof. intros s Hs. exact Hs. Qed.
Lemma pk_lift {A} (r : result A) : pk (slift r).
Proof. intros s Hs. unfold slift. destruct r; exact Hs. Qed.
Lemma pk_ret {A} (a : A) : pk (sret a).
Proof. intros s Hs. exact Hs. Qed.
Lemma pk_raise {A} x : pk (sraise x : SM pstate A).
Proof. intros s Hs. exact Hs. Qed.
Lemma pk_modify f : (forall s, ps_table (f s) = ps_table s) -> pk (smodify f).
Proof. intros H s Hs. rewrite smodify_eq. unfold pgood. cbn [fst]. rewrite H. exact Hs. Qed.
Ltac pk_modify := apply pk_modify; intros ?; reflexivity.
Lemma pk_table {A} (m : SM table A) : gk m -> pk (on_table m).
Proof.
  intros Hm s Hs. unfold on_table, pgood in *. destruct (ps_table s) as [t|] eqn:E; [|cbn [fst]; rewrite E; exact I].
  specialize (Hm t Hs). destruct (m t) as [t' r]. exact Hm.
Qed.
Lemma pk_iter {A} (f : A -> SM pstate unit) l : (forall a, In a l -> pk (f a)) -> pk (siter f l).
Proof.
  intros H. induction l as [|a l IH]; cbn [siter]; [apply pk_ret|]. apply pk_bind; [apply H; left; reflexivity|]. intros _. apply IH. intros x Hx. apply H. right. exact Hx.
Qed.
Lemma pk_new s na : pk (t <- slift (table_new [] s na) ;; smodify (with_table (Some t))).
Proof.
  intros st Hs. unfold sbind, slift. destruct (table_new [] s na) as [t|] eqn:E; [|exact Hs]. rewrite smodify_eq. cbn in E. injection E as <-. constructor.
Qed.
Lemma pk_end_row : pk end_row.
Proof.
  unfold end_row. apply pk_bind; [apply pk_get|]. intros s. apply pk_bind; [apply pk_table, gk_same, same_views|]. intros vs. apply pk_bind; [apply pk_lift|]. intros bb.
  destruct (ps_row s); [|apply pk_raise]. apply pk_table, gk_bind; [apply gk_same, same_view|]. intros v. apply gk_fill.
Qed.
Lemma pk_end_table : pk end_table.
Proof.
  unfold end_table. apply pk_table, gk_bind; [apply gk_same; intros t; reflexivity|]. intros t. apply gk_known. intros [bb|] _; [apply gk_fill|intros t' Ht; exact Ht].
Qed.

(** the name of an element *)
Lemma named n s : s <> "" -> String.eqb (ostr (x_tag n)) s = true -> x_tag n = Some s.
Proof. intros Hs E. apply String.eqb_eq in E. destruct (x_tag n) as [x|]; cbn in E; congruence. Qed.
Lemma qname_some ns s : s <> "" -> qname ns s <> "".
Proof. destruct ns; [discriminate|exact (fun h => h)]. Qed.

(** *** CALS *)
Section Cals.
  Variable o : pcals_opts.
  Lemma pk_cals_event ev : (x_tag (ev_elem ev) = Some (pcals o "entry") -> from (CList (entry_content (ev_elem ev)))) -> pk (parse_event o ev).
  Proof.
    intros Hc. unfold parse_event. apply pk_bind; [pk_modify|]. intros _. apply pk_bind; [apply pk_get|]. intros s.
    destruct (1 <? ps_depth s); [apply pk_ret|]. destruct (ev_start ev).
    - unfold on_start. cbv zeta. destruct (String.eqb _ _) eqn:Eq; [|clear Eq].
      { apply named in Eq; [|apply qname_some; discriminate]. specialize (Hc Eq). apply pk_bind; [pk_modify|]. intros _. unfold parse_cals_entry. apply pk_bind; [apply pk_get|]. intros s'.
        apply pk_bind; [apply pk_lift|]. intros wh. destruct (ps_row s'); [|apply pk_raise]. apply pk_table, gk_bind; [apply gk_same, same_view|]. intros v. apply gk_insert, Hc. }
      destruct (String.eqb _ _).
      { apply pk_bind; [pk_modify|]. intros _. unfold parse_cals_row. apply pk_bind; [apply pk_lift|]. intros na.
        apply pk_bind; [apply pk_get|]. intros s'. apply pk_bind; [apply pk_table; intros t Ht; rewrite unit_of_state; apply (gk_same _ (same_view _ _)), Ht|]. intros _.
        apply pk_bind; [pk_modify|]. intros _. apply pk_bind; [apply pk_table, gk_same, same_modify|]. intros _. apply pk_table, gk_same, same_modify. }
      destruct (str_mem _ _); [apply pk_ret|]. destruct (String.eqb _ _).
      { apply pk_bind; [pk_modify|]. intros _. unfold parse_cals_colspec. apply pk_bind; [apply pk_lift|]. intros _.
        apply pk_bind; [apply pk_get|]. intros s'. apply pk_bind; [apply pk_lift|]. intros c. apply pk_table, gk_same, same_modify. }
      destruct (String.eqb _ _); [apply pk_table; intros t Ht; exact Ht|].
      destruct (String.eqb _ _); [|apply pk_raise]. unfold parse_cals_table. apply pk_bind; [apply pk_lift|]. intros sn. apply pk_new.
    - unfold on_end. cbv zeta. destruct (String.eqb _ _); [apply pk_end_row|]. destruct (String.eqb _ _); [apply pk_end_table|apply pk_ret].
  Qed.
  Lemma walk_nodes tags n : forall p ev, In ev (walk tags p n) -> In (ev_elem ev) (tree_nodes n).
  Proof.
    induction n as [tag attrs text children tail IH| |] using xnode_ind'; intros p ev H.
    - assert (G : In ev (flat_map (walk tags (Some (XElem tag attrs text children tail))) children) -> In (ev_elem ev) (flat_map tree_nodes children)).
      { rewrite !in_flat_map. intros (c & Hc & He). exists c. split; [exact Hc|]. rewrite Forall_forall in IH. exact (IH c Hc _ _ He). }
      cbn [walk] in H. cbn [tree_nodes]. destruct (matching tags _); [|right; exact (G H)].
      destruct H as [<-|H]; [left; reflexivity|]. apply in_app_or in H as [H|[<-|[]]]; [right; exact (G H)|left; reflexivity].
    - cbn [walk] in H. destruct (matching tags _); cbn in H; intuition; subst; left; reflexivity.
    - cbn [walk] in H. destruct (matching tags _); cbn in H; intuition; subst; left; reflexivity.
  Qed.
  Theorem cals_source e t : (forall n, In n (tree_nodes e) -> x_tag n = Some (pcals o "entry") -> from (CList (entry_content n))) -> parse_table o e = Ok t -> good t.
  Proof.
    intros H. unfold parse_table. pose proof (pk_iter (parse_event o) (walk (cals_elements o) None e)) as G.
    specialize (G ltac:(intros ev Hev; apply pk_cals_event; exact (H _ (walk_nodes _ _ _ _ Hev))) pstate_reset I).
    destruct (siter _ _ _) as [s [[]|x]]; [|discriminate]. cbn [rbind fst] in *. unfold pgood in G. destruct (ps_table s); [|discriminate].
    intros [= <-]. exact G.
  Qed.
End Cals.

(** *** Word *)
Section Word.
  Variable o : ooxml_opts.
  Lemma pk_put e w : from (CList (map CNode (tc_content e))) -> pk (put_tc o e w).
  Proof.
    intros Hc. unfold put_tc. apply pk_bind; [apply pk_lift|]. intros st0. apply pk_bind; [apply pk_get|]. intros s.
    destruct (ps_row s); [|apply pk_raise]. apply pk_table, gk_insert, Hc.
  Qed.
  Lemma pk_tc e : from (CList (map CNode (tc_content e))) -> pk (parse_tc o e).
  Proof.
    intros Hc. unfold parse_tc. apply pk_bind; [apply pk_lift|]. intros w. apply pk_bind; [pk_modify|]. intros _.
    destruct (tc_merge e) as [m|]; [|apply pk_put, Hc]. destruct (String.eqb _ _).
    { apply pk_bind; [apply pk_get|]. intros s'. destruct (ps_row s'); [apply pk_table, gk_expand|apply pk_raise]. }
    destruct (String.eqb _ _); [apply pk_put, Hc|apply pk_raise].
  Qed.
  Lemma pk_ox_event sect ev : (x_tag (ev_elem ev) = Some (wq "tc") -> from (CList (map CNode (tc_content (ev_elem ev))))) -> pk (ox_event o sect ev).
  Proof.
    intros Hc. unfold ox_event. apply pk_bind; [pk_modify|]. intros _. apply pk_bind; [apply pk_get|]. intros s.
    destruct (1 <? ps_depth s); [apply pk_ret|]. destruct (ev_start ev).
    - unfold ox_start. cbv zeta. destruct (String.eqb _ _).
      { unfold parse_tbl. apply pk_bind; [apply pk_lift|]. intros st0. apply pk_new. }
      destruct (String.eqb _ _); [apply pk_ret|]. destruct (String.eqb _ _).
      { apply pk_bind; [pk_modify|]. intros _. unfold parse_grid_col. apply pk_bind; [apply pk_lift|]. intros st0.
        apply pk_bind; [apply pk_get|]. intros s'. apply pk_table, gk_same, same_modify. }
      destruct (String.eqb _ _).
      { apply pk_bind; [pk_modify|]. intros _. unfold parse_tr. apply pk_bind; [apply pk_lift|]. intros na.
        apply pk_bind; [apply pk_get|]. intros s'. apply pk_bind; [apply pk_table; intros t Ht; rewrite unit_of_state; apply (gk_same _ (same_view _ _)), Ht|]. intros _.
        apply pk_bind; [pk_modify|]. intros _. apply pk_bind; [apply pk_table, gk_same, same_modify|]. intros _.
        apply pk_bind; [apply pk_lift|]. intros st0. apply pk_bind; [apply pk_table, gk_same, same_modify|]. intros _. apply pk_table, gk_same, same_modify. }
      destruct (String.eqb _ _) eqn:Eq; [|apply pk_raise]. apply named in Eq; [|discriminate]. apply pk_bind; [pk_modify|]. intros _. apply pk_tc, Hc, Eq.
    - unfold ox_end. destruct (String.eqb _ _); [apply pk_end_row|apply pk_ret].
  Qed.
  Theorem word_source sect e t : (forall n, In n (tree_nodes e) -> x_tag n = Some (wq "tc") -> from (CList (map CNode (tc_content n)))) -> ox_parse_table o sect e = Ok t -> good t.
  Proof.
    intros H. unfold ox_parse_table. pose proof (pk_iter (ox_event o sect) (walk ox_elements None e)) as G.
    specialize (G ltac:(intros ev Hev; apply pk_ox_event; exact (H _ (walk_nodes _ _ _ _ Hev))) pstate_reset I).
    destruct (siter _ _ _) as [s [[]|x]]; [|discriminate]. cbn [rbind fst] in *. unfold pgood in G. destruct (ps_table s); [|discriminate].
    intros [= <-]. exact G.
  Qed.
End Word.

(** *** Formex *)
Section Formex.
  Variable o : pfmx_opts.
  Lemma pk_enter na : pk (enter_row na).
  Proof.
    unfold enter_row. apply pk_bind; [apply pk_get|]. intros s. apply pk_bind; [apply pk_table; intros t Ht; rewrite unit_of_state; apply (gk_same _ (same_view _ _)), Ht|]. intros _.
    apply pk_bind; [pk_modify|]. intros _. apply pk_table, gk_same, same_modify.
  Qed.
  Lemma pk_style st : pk (style_row st).
  Proof. unfold style_row. apply pk_bind; [apply pk_get|]. intros s. apply pk_table, gk_same, same_modify. Qed.
  Lemma pk_in_row ct st na w h : from ct -> pk (insert_in_row ct st na w h).
  Proof.
    intros Hc. unfold insert_in_row. apply pk_bind; [apply pk_get|]. intros s. destruct (ps_row s); [|apply pk_raise].
    apply pk_table, gk_bind; [apply gk_same, same_view|]. intros v. apply gk_insert, Hc.
  Qed.
  Lemma pk_title e st : from (fmx_content o e) -> pk (insert_title o e st).
  Proof.
    intros Hc. unfold insert_title. apply pk_bind; [apply pk_enter|]. intros _. apply pk_bind; [apply pk_style|]. intros _.
    apply pk_bind; [apply pk_lift|]. intros a. apply pk_bind; [apply pk_lift|]. intros b.
    apply pk_bind; [apply pk_iter; intros ? _; apply pk_in_row, from_none|]. intros _. apply pk_in_row, Hc.
  Qed.
  Lemma pk_notes e : from (notes_content o e) -> pk (parse_gr_notes o e).
  Proof.
    intros Hc. unfold parse_gr_notes. apply pk_bind; [apply pk_enter|]. intros _. apply pk_bind.
    - apply pk_table, gk_same, same_get. intros t. apply same_lift.
    - intros [bb|]; [apply pk_in_row, Hc|apply pk_raise].
  Qed.
  Definition cell_like (n : xnode) : Prop := exists s, In s ["CELL"; "TI.BLK"; "STI.BLK"] /\ x_tag n = Some (fmx o s).
  Lemma pk_fmx_event ev : (cell_like (fe_elem ev) -> from (fmx_content o (fe_elem ev))) ->
    (forall n, In n (fe_before ev) -> x_tag n = Some (fmx o "GR.NOTES") -> from (notes_content o n)) -> pk (fparse_event o ev).
  Proof.
    intros Hc Hb. unfold fparse_event. apply pk_bind; [pk_modify|]. intros _. apply pk_bind; [apply pk_get|]. intros s.
    destruct (1 <? ps_depth s); [apply pk_ret|]. destruct (fe_start ev).
    - unfold fon_start. cbv zeta. destruct (String.eqb _ _) eqn:Eq; [|clear Eq].
      { apply named in Eq; [|apply qname_some; discriminate]. specialize (Hc ltac:(exists "CELL"; cbn; tauto)). apply pk_bind; [pk_modify|]. intros _. unfold parse_fmx_cell. apply pk_bind; [apply pk_lift|]. intros wh. apply pk_in_row, Hc. }
      destruct (String.eqb _ _).
      { apply pk_bind; [pk_modify|]. intros _. unfold parse_fmx_row. apply pk_bind; [apply pk_enter|]. intros _. apply pk_style. }
      destruct (String.eqb _ _); [apply pk_ret|].
      destruct (String.eqb _ _) eqn:E1;
        [apply named in E1; [|apply qname_some; discriminate]; specialize (Hc ltac:(exists "TI.BLK"; cbn; tauto)); apply pk_bind; [pk_modify|intros _; apply pk_title, Hc]|clear E1].
      destruct (String.eqb _ _) eqn:E2;
        [apply named in E2; [|apply qname_some; discriminate]; specialize (Hc ltac:(exists "STI.BLK"; cbn; tauto)); apply pk_bind; [pk_modify|intros _; apply pk_title, Hc]|clear E2].
      destruct (String.eqb _ _).
      { apply pk_bind; [pk_modify|]. intros _. unfold parse_fmx_colspec.
        apply pk_bind; [apply pk_get|]. intros s'. apply pk_bind; [apply pk_lift|]. intros c. apply pk_table, gk_same, same_modify. }
      destruct (String.eqb _ _); [|apply pk_raise]. unfold parse_fmx_corpus. apply pk_bind; [apply pk_lift|]. intros sn. apply pk_new.
    - unfold fon_end. cbv zeta. destruct (str_mem _ _); [apply pk_end_row|]. destruct (String.eqb _ _); [|apply pk_ret].
      unfold end_corpus. apply pk_bind; [|intros _; apply pk_end_table]. apply pk_iter. intros n Hn. apply filter_In in Hn as [Hn Ht].
      assert (Hx : x_tag n = Some (fmx o "GR.NOTES")) by (destruct n; try discriminate Ht; apply String.eqb_eq in Ht; subst; reflexivity).
      apply pk_bind; [pk_modify|]. intros _. apply pk_notes, Hb; assumption.
  Qed.
  Lemma fwalk_nodes n : forall p b bef ev, In ev (fwalk o p b bef n) -> In (fe_elem ev) (tree_nodes n) /\ (fe_before ev = bef \/ forall m, In m (fe_before ev) -> In m (tree_nodes n)).
  Proof.
    induction n as [tag attrs text children tail IH| |] using xnode_ind'; intros p b bef ev H.
    - cbn [fwalk] in H. set (N := XElem tag attrs text children tail) in *.
      set (b' := if x_has_tag N (fmx o "BLK") then b + 1 else b) in *.
      assert (G : forall l seen, Forall (fun c => In c children) l -> Forall (fun c => In c children) seen ->
        In ev ((fix go (seen l : list xnode) {struct l} : list fevent :=
             match l with
             | [] => []
             | c :: l' => (fwalk o (Some N) b' seen c ++ go (seen ++ [c]) l')%list
             end) seen l) -> In (fe_elem ev) (tree_nodes N) /\ (fe_before ev = bef \/ forall m, In m (fe_before ev) -> In m (tree_nodes N))).
      { induction l as [|c l IHl]; intros seen Hl Hs Hev; [destruct Hev|]. inversion Hl as [|? ? Hc Hl']; subst.
        apply in_app_or in Hev as [Hev|Hev].
        - rewrite Forall_forall in IH. destruct (IH c Hc _ _ _ _ Hev) as [H1 H2]. split.
          + right. apply in_flat_map. exists c. auto.
          + right. intros m Hm. right. apply in_flat_map. destruct H2 as [H2|H2]; [rewrite H2 in Hm|exists c; auto].
            rewrite Forall_forall in Hs. exists m. split; [exact (Hs m Hm)|]. destruct m; left; reflexivity.
        - apply (IHl (seen ++ [c]) Hl'); [|exact Hev]. apply Forall_app. split; [exact Hs|constructor; [exact Hc|constructor]]. }
      assert (Hch : Forall (fun c => In c children) children) by (apply Forall_forall; auto).
      destruct (matching (fmx_elements o) N).
      + destruct H as [<-|H]; [split; [left; reflexivity|left; reflexivity]|]. apply in_app_or in H as [H|[<-|[]]]; [|split; [left; reflexivity|left; reflexivity]].
        exact (G children [] Hch (Forall_nil _) H).
      + exact (G children [] Hch (Forall_nil _) H).
    - cbn [fwalk] in H. destruct (matching _ _); cbn in H; [|destruct H]. destruct H as [<-|[<-|[]]]; cbn; auto.
    - cbn [fwalk] in H. destruct (matching _ _); cbn in H; [|destruct H]. destruct H as [<-|[<-|[]]]; cbn; auto.
  Qed.
  Theorem formex_source parent b bef e t : (forall n, In n (tree_nodes e) -> cell_like n -> from (fmx_content o n)) ->
    (forall n, In n bef \/ In n (tree_nodes e) -> x_tag n = Some (fmx o "GR.NOTES") -> from (notes_content o n)) -> parse_formex o parent b bef e = Ok t -> good t.
  Proof.
    intros H HB. unfold parse_formex. pose proof (pk_iter (fparse_event o) (fwalk o parent b bef e)) as G.
    assert (K : forall ev, In ev (fwalk o parent b bef e) -> pk (fparse_event o ev)).
    { intros ev Hev. destruct (fwalk_nodes _ _ _ _ _ Hev) as [H1 H2]. apply pk_fmx_event; [exact (H _ H1)|]. intros n Hn.
      apply HB. destruct H2 as [H2|H2]; [left; rewrite H2 in Hn; exact Hn|right; exact (H2 n Hn)]. }
    specialize (G K pstate_reset I).
    destruct (siter _ _ _) as [s [[]|x]]; [|discriminate]. cbn [rbind fst] in *. unfold pgood in G. destruct (ps_table s); [|discriminate].
    intros [= <-]. exact G.
  Qed.
End Formex.
End Source.
