(** * Reading a CALS table: what holds for all tables *)
From Coq Require Import QArith Qabs.
From Verif Require Import Base M_Geometry M_Xml M_Cell M_Grid M_Table M_Str M_Units M_Cals M_CalsParser.
From Verif Require Import S_Geometry S_Grid S_Table S_Units S_Cals S_Int S_CalsParser.
From Verif Require Import P_Geometry P_Grid P_GridFacts P_Table P_TableFacts P_TableRefine P_TableMore P_Units P_Str P_Cals P_Int P_CalsParser P_CalsLayout P_CalsEvents P_CalsSim.
Open Scope list_scope.
Open Scope Z_scope.

Definition tame (s : pstate) : Prop := match ps_table s with Some t => treachable t | None => True end.
Definition attrs (s : pstate) : option (styles * nature) := option_map (fun t => (t_styles t, t_nature t)) (ps_table s).
Definition quiet {A} (m : SM pstate A) : Prop := forall s, tame s ->
  tame (fst (m s)) /\ ps_depth (fst (m s)) = ps_depth s /\ attrs (fst (m s)) = attrs s.
Definition keeps {A} (m : SM table A) : Prop := forall t, treachable t ->
  treachable (fst (m t)) /\ t_styles (fst (m t)) = t_styles t /\ t_nature (fst (m t)) = t_nature t.

Lemma keeps_step op : keeps (tstep op).
Proof.
  intros t HR. split; [constructor; exact HR|].
  pose proof (blind_step op t (t_styles t) (t_nature t)) as H.
  replace (restyle (t_styles t) (t_nature t) t) with t in H by (destruct t; reflexivity). rewrite H. auto.
Qed.
Lemma keeps_unit {A} (m : SM table A) : keeps (unit_of m) -> keeps m.
Proof. intros H t HR. rewrite <- (unit_of_state m). apply H, HR. Qed.
Lemma keeps_bind {A B} (m : SM table A) (f : A -> SM table B) : keeps m -> (forall a, keeps (f a)) -> keeps (sbind m f).
Proof.
  intros Hm Hf t HR. unfold sbind. destruct (Hm t HR) as (H1 & H2 & H3). destruct (m t) as [t' [a|e]]; cbn [fst] in *; [|auto].
  destruct (Hf a t' H1) as (K1 & K2 & K3). split; [exact K1|]. split; congruence.
Qed.
Lemma keeps_views ax : keeps (views_get ax).
Proof. apply keeps_unit. exact (keeps_step (TReadViews ax)). Qed.
Lemma keeps_view ax p : keeps (view_get ax p).
Proof. apply keeps_unit. exact (keeps_step (TReadView ax p)). Qed.
Lemma keeps_fill bb ct s na : keeps (table_fill_missing bb ct s na).
Proof. exact (keeps_step (TFill bb ct s na)). Qed.
Lemma keeps_insert ax p ct s na w h : keeps (insert_cell ax p ct s na w h).
Proof. exact (keeps_step (TInsert ax p ct s na w h)). Qed.
Lemma keeps_same {A} (m : SM table A) : (forall t, fst (m t) = t) -> keeps m.
Proof. intros H t HR. rewrite H. auto. Qed.

Lemma quiet_bind {A B} (m : SM pstate A) (f : A -> SM pstate B) : quiet m -> (forall a, quiet (f a)) -> quiet (sbind m f).
Proof.
  intros Hm Hf s Hs. unfold sbind. destruct (Hm s Hs) as (H1 & H2 & H3). destruct (m s) as [s' [a|e]]; cbn [fst] in *; [|auto].
  destruct (Hf a s' H1) as (K1 & K2 & K3). split; [exact K1|]. split; congruence.
Qed.
Lemma quiet_same {A} (m : SM pstate A) : (forall s, fst (m s) = s) -> quiet m.
Proof. intros H s Hs. rewrite H. auto. Qed.
Lemma quiet_get : quiet sget. Proof. apply quiet_same. reflexivity. Qed.
Lemma quiet_lift {A} (r : result A) : quiet (slift r). Proof. apply quiet_same. intros s. destruct r; reflexivity. Qed.
Lemma quiet_modify f : (forall s, ps_depth (f s) = ps_depth s /\ ps_table (f s) = ps_table s) -> quiet (smodify f).
Proof. intros H s Hs. rewrite smodify_eq. destruct (H s) as [H1 H2]. unfold tame, attrs in *. cbn [fst]. rewrite H2. auto. Qed.
Lemma quiet_table {A} (m : SM table A) : keeps m -> quiet (on_table m).
Proof.
  intros Hm s Hs. unfold on_table. unfold tame in *. destruct (ps_table s) as [t|] eqn:Et; [|cbn; rewrite Et; auto].
  destruct (Hm t Hs) as (H1 & H2 & H3). destruct (m t) as [t' r]. cbn [fst] in *. cbn [with_table ps_table ps_depth].
  split; [exact H1|]. split; [reflexivity|]. unfold attrs. rewrite Et. cbn. congruence.
Qed.

Section CalsTable.
  Variable o : pcals_opts.
  Notation ns := (pc_ns o).
  Notation run := (siter (parse_event o)).
  Notation tags := (cals_elements o).

  Lemma quiet_entry e : quiet (parse_cals_entry o e).
  Proof.
    unfold parse_cals_entry. apply quiet_bind; [apply quiet_get|]. intros s. apply quiet_bind; [apply quiet_lift|]. intros wh.
    destruct (ps_row s) as [r|]; [|apply quiet_same; reflexivity]. apply quiet_table, keeps_bind; [apply keeps_view|]. intros v. apply keeps_insert.
  Qed.
  Lemma quiet_row e p : quiet (parse_cals_row o e p).
  Proof.
    unfold parse_cals_row. apply quiet_bind; [apply quiet_lift|]. intros na. apply quiet_bind; [apply quiet_get|]. intros s.
    apply quiet_bind; [apply quiet_table; exact (keeps_step (TReadView Rows _))|]. intros _.
    apply quiet_bind; [apply quiet_modify; intros; split; reflexivity|]. intros _.
    apply quiet_bind; [apply quiet_table; exact (keeps_step (TSetNature Rows _ _))|]. intros _.
    apply quiet_table. exact (keeps_step (TSetStyles Rows _ _)).
  Qed.
  Lemma quiet_colspec e p : quiet (parse_cals_colspec o e p).
  Proof.
    unfold parse_cals_colspec. apply quiet_bind; [apply quiet_lift|]. intros _. apply quiet_bind; [apply quiet_get|]. intros s.
    apply quiet_bind; [apply quiet_lift|]. intros c. apply quiet_table. exact (keeps_step (TUpdateStyles Cols _ _)).
  Qed.
  Lemma quiet_end_row : quiet end_row.
  Proof.
    unfold end_row. apply quiet_bind; [apply quiet_get|]. intros s. apply quiet_bind; [apply quiet_table, keeps_views|]. intros vs.
    apply quiet_bind; [apply quiet_lift|]. intros bb. destruct (ps_row s) as [r|]; [|apply quiet_same; reflexivity].
    apply quiet_table, keeps_bind; [apply keeps_view|]. intros v. apply keeps_fill.
  Qed.
  Lemma quiet_end_table : quiet end_table.
  Proof.
    unfold end_table. apply quiet_table, keeps_bind; [apply keeps_same; reflexivity|]. intros t.
    apply keeps_bind; [apply keeps_same; intros s; destruct (table_bounding_box t); reflexivity|]. intros [bb|]; [apply keeps_fill|apply keeps_same; reflexivity].
  Qed.
  Lemma quiet_on_end e : quiet (on_end o e).
  Proof.
    unfold on_end. cbv zeta. destruct (String.eqb _ _); [apply quiet_end_row|]. destruct (String.eqb _ _); [apply quiet_end_table|].
    apply quiet_same. reflexivity.
  Qed.

  (** The handlers of a table and of a tgroup set the attributes. *)
  Definition loud {A} (m : SM pstate A) : Prop := forall s, tame s -> tame (fst (m s)) /\ ps_depth (fst (m s)) = ps_depth s.
  Lemma quiet_loud {A} (m : SM pstate A) : quiet m -> loud m.
  Proof. intros H s Hs. destruct (H s Hs) as (H1 & H2 & _). auto. Qed.
  Lemma table_handler e s : parse_cals_table o e s =
    match table_style_attrs o e with
    | Ok a => (with_table (Some (MkTable [] None None (fst a) (snd a))) s, Ok tt)
    | Err x => (s, Err x)
    end.
  Proof. unfold parse_cals_table, sbind, slift. destruct (table_style_attrs o e) as [[st na]|x]; reflexivity. Qed.
  Lemma loud_table e : loud (parse_cals_table o e).
  Proof.
    intros s Hs. rewrite table_handler. destruct (table_style_attrs o e) as [[st na]|x]; cbn [fst]; [|auto].
    split; [|reflexivity]. unfold tame. cbn [with_table ps_table]. apply (treach_new [] (Some st) na). reflexivity.
  Qed.
  Lemma tgroup_handler e s t : ps_table s = Some t -> parse_cals_tgroup o e s =
    (with_table (Some (restyle (dupdate (t_styles t) (map_style SEPS (pget o e "rowsep") "x-cell-border-bottom"
                                  (map_style SEPS (pget o e "colsep") "x-cell-border-right" [])))
                 (tgroup_nature (pget o e "tgroupstyle") (t_nature t)) t)) s, Ok tt).
  Proof. intros Et. unfold parse_cals_tgroup, on_table. rewrite Et. reflexivity. Qed.
  Lemma loud_tgroup e : loud (parse_cals_tgroup o e).
  Proof.
    intros s Hs. destruct (ps_table s) as [t|] eqn:Et.
    - rewrite (tgroup_handler e s t Et). split; [|reflexivity]. unfold tame in *. rewrite Et in Hs. cbn [fst with_table ps_table]. apply treachable_restyle, Hs.
    - unfold parse_cals_tgroup, on_table. rewrite Et. cbn [fst]. auto.
  Qed.
  Lemma loud_on_start e p : loud (on_start o e p).
  Proof.
    unfold on_start. cbv zeta.
    destruct (String.eqb _ _).
    { apply quiet_loud, quiet_bind; [apply quiet_modify; intros; split; reflexivity|]. intros _. apply quiet_entry. }
    destruct (String.eqb _ _).
    { apply quiet_loud, quiet_bind; [apply quiet_modify; intros; split; reflexivity|]. intros _. apply quiet_row. }
    destruct (str_mem _ _); [apply quiet_loud, quiet_same; reflexivity|].
    destruct (String.eqb _ _).
    { apply quiet_loud, quiet_bind; [apply quiet_modify; intros; split; reflexivity|]. intros _. apply quiet_colspec. }
    destruct (String.eqb _ _); [apply loud_tgroup|]. destruct (String.eqb _ _); [apply loud_table|].
    apply quiet_loud, quiet_same. reflexivity.
  Qed.

  Lemma event_loud ev s : tame s ->
    tame (fst (parse_event o ev s)) /\ ps_depth (fst (parse_event o ev s)) = new_depth o ev (ps_depth s).
  Proof.
    intros Hs. set (s' := with_depth (new_depth o ev (ps_depth s)) s).
    assert (E : parse_event o ev s = (if 1 <? ps_depth s' then sret tt else
                  if ev_start ev then on_start o (ev_elem ev) (ev_parent ev) else on_end o (ev_elem ev)) s') by reflexivity.
    rewrite E. assert (Hs' : tame s') by exact Hs. change (new_depth o ev (ps_depth s)) with (ps_depth s').
    destruct (1 <? ps_depth s'); [cbn [sret fst]; auto|].
    destruct (ev_start ev); [apply loud_on_start, Hs'|apply quiet_loud; [apply quiet_on_end|exact Hs']].
  Qed.

  (** After the events of a node, the depth is the same. *)
  Lemma run_list_balanced cs :
    (forall c, In c cs -> forall p s s', tame s -> run (walk tags p c) s = (s', Ok tt) -> tame s' /\ ps_depth s' = ps_depth s) ->
    forall p s s', tame s -> run (flat_map (walk tags p) cs) s = (s', Ok tt) -> tame s' /\ ps_depth s' = ps_depth s.
  Proof.
    induction cs as [|c cs IH]; intros H p s s' Hs E; cbn [flat_map] in E.
    - injection E as <-. auto.
    - rewrite siter_app in E. unfold sbind in E. destruct (run (walk tags p c) s) as [s1 [[]|x]] eqn:E1; [|discriminate].
      destruct (H c (or_introl eq_refl) p s s1 Hs E1) as [H1 H2].
      destruct (IH (fun d Hd => H d (or_intror Hd)) p s1 s' H1 E) as [H3 H4]. split; [exact H3|congruence].
  Qed.
  Lemma balanced n : forall p s s', tame s -> run (walk tags p n) s = (s', Ok tt) -> tame s' /\ ps_depth s' = ps_depth s.
  Proof.
    induction n as [tag at0 text children tail IH|? ? ?|? ?] using xnode_ind'; intros p s s' Hs E.
    2,3: injection E as <-; auto.
    rewrite Forall_forall in IH. rewrite walk_eq in E. cbn [x_children] in E.
    set (n := XElem tag at0 text children tail) in *.
    pose proof (run_list_balanced children (fun c Hc => IH c Hc) (Some n)) as HL.
    destruct (matching tags n); [|apply (HL s s' Hs E)].
    rewrite run_cons in E. unfold sbind at 1 in E. destruct (event_loud (MkEvent true n p) s Hs) as [H1 H2].
    destruct (parse_event o (MkEvent true n p) s) as [s1 [[]|x]]; [|discriminate]. cbn [fst] in *.
    rewrite siter_app in E. unfold sbind at 1 in E. destruct (run (flat_map (walk tags (Some n)) children) s1) as [s2 [[]|x]] eqn:E2; [|discriminate].
    destruct (HL s1 s2 H1 E2) as [H3 H4]. cbn [siter] in E. unfold sbind in E.
    destruct (event_loud (MkEvent false n p) s2 H3) as [H5 H6].
    destruct (parse_event o (MkEvent false n p) s2) as [s3 [[]|x]]; [|discriminate]. cbn [fst] in *. injection E as <-.
    split; [exact H5|]. rewrite H6, H4, H2. unfold new_depth. cbn [ev_elem ev_start]. destruct (String.eqb _ _); lia.
  Qed.

  (** A table which is read can be made with the methods of [Table]; it has no hole. *)
  Theorem parse_table_ok e t : named ns "table" e -> parse_table o e = Ok t ->
    treachable t /\ exists bb, table_bounding_box t = Ok (Some bb) /\ forall k, covers bb k -> exists c, In c (table_iter t) /\ covers (c_box c) k.
  Proof.
    intros He. unfold parse_table. rewrite (walk_named o "table" None e ltac:(cbn; tauto) He).
    destruct (run _ pstate_reset) as [sf rf] eqn:Eout. rewrite run_cons in Eout. unfold sbind at 1 in Eout.
    assert (T0 : tame pstate_reset) by exact I.
    destruct (event_loud (MkEvent true e None) pstate_reset T0) as [H1 H2].
    destruct (parse_event o (MkEvent true e None) pstate_reset) as [s1 [[]|x]] eqn:E1; [|injection Eout as <- <-; discriminate]. cbn [fst] in *.
    rewrite siter_app in Eout. unfold sbind at 1 in Eout.
    destruct (run (flat_map _ _) s1) as [s2 [[]|x]] eqn:E2; [|injection Eout as <- <-; discriminate].
    destruct (run_list_balanced (x_children e) (fun c _ => balanced c) (Some e) s1 s2 H1 E2) as [H3 H4].
    cbn [siter] in Eout. unfold sbind at 1 in Eout.
    assert (Een : parse_event o (MkEvent false e None) s2 = end_table (with_depth 0 s2)).
    { unfold parse_event, smodify, sbind, sget, sput. rewrite (depth_table o _ _ _ _ He), H4, H2, (depth_table o _ _ _ _ He).
      cbn [ps_depth with_depth ev_start ev_elem pstate_reset]. change (1 <? 0 + 1 - 1) with false. cbv iota.
      rewrite (on_end_eq o "table" e He). reflexivity. }
    rewrite Een in Eout. destruct (ps_table s2) as [t2|] eqn:Et2.
    2:{ unfold end_table, on_table in Eout. cbn [with_depth ps_table] in Eout. rewrite Et2 in Eout. injection Eout as <- <-. discriminate. }
    unfold tame in H3. rewrite Et2 in H3.
    destruct (end_table_cases (with_depth 0 s2) t2 Et2 H3) as [[_ E3]|(bb & Hb & E3)]; rewrite E3 in Eout; injection Eout as <- <-; [discriminate|].
    cbn [rbind with_table with_depth ps_table]. intros [= <-].
    destruct (fill_missing_spec bb CNone None None t2 H3 (proj1 Hb)) as (t' & ks & Ef & HP & _ & Hk). rewrite Ef. cbn [fst].
    assert (HR' : treachable t').
    { replace t' with (fst (tstep (TFill bb CNone None None) t2)) by (cbn [tstep]; rewrite Ef; reflexivity). constructor. exact H3. }
    split; [exact HR'|]. exists bb. destruct Hb as (Vb & Hb1 & Hb2).
    assert (Hb' : bounds (table_iter t') bb).
    { split; [exact Vb|]. split.
      - intros c Hc. rewrite HP in Hc. apply in_app_iff in Hc as [Hc|Hc]; [|apply Hb1, Hc].
        apply in_map_iff in Hc as (k & <- & Hin). apply Hk in Hin as [Hin _]. intros x Hx. unfold covers in *. cbn in Hx. lia.
      - intros b Vbb H. apply Hb2; [exact Vbb|]. intros c Hc. apply H. rewrite HP. apply in_app_iff. right. exact Hc. }
    destruct (treachable_tinv t' HR') as (og & HS & HM). assert (HV : all_valid (t_grid t')) by apply HM. split.
    - apply grid_bounds; [exact HV| |exact Hb']. intros Eg. change (t_grid t') with (table_iter t') in Eg. rewrite Eg in Hb'.
      destruct Hb' as (_ & _ & Hb'). specialize (Hb' (MkBox (Coord (cx (bmax bb) + 1) 1) (Coord (cx (bmax bb) + 1) 1)) ltac:(unfold valid in *; cbn; lia) ltac:(intros c []) (bmin bb)).
      unfold covers, valid in *. cbn in Hb'. lia.
    - intros k Hck.
      destruct (freeb (table_iter t2) k) eqn:Ex.
      + apply freeb_free in Ex. exists (unit_cell CNone None None k). split.
        * rewrite HP. apply in_app_iff. left. apply in_map. apply Hk. auto.
        * unfold covers. cbn. lia.
      + apply not_true_iff_false in Ex. rewrite freeb_free in Ex.
        assert (HX : exists c, In c (table_iter t2) /\ covers (c_box c) k).
        { destruct (Exists_dec (fun c => covers (c_box c) k) (table_iter t2)) as [Hy|Hn].
          - intros c. unfold covers. destruct (Z_le_dec (cx (bmin (c_box c))) (cx k)), (Z_le_dec (cx k) (cx (bmax (c_box c)))),
              (Z_le_dec (cy (bmin (c_box c))) (cy k)), (Z_le_dec (cy k) (cy (bmax (c_box c)))); (left; lia) || (right; lia).
          - apply Exists_exists in Hy. exact Hy.
          - destruct Ex. intros c Hc Hcov. apply Hn, Exists_exists. eauto. }
        destruct HX as (c & Hc & Hcov). exists c. split; [rewrite HP; apply in_app_iff; right; exact Hc|exact Hcov].
  Qed.

  (** ** The attributes of the table *)

  Inductive no_group : xnode -> Prop :=
  | ng_table n : named ns "table" n -> no_group n
  | ng_node n : ~ named ns "table" n -> ~ named ns "tgroup" n -> (forall c, In c (x_children n) -> no_group c) -> no_group n.

  Lemma foreign_no_group n : foreign ns n -> no_group n.
  Proof.
    induction 1 as [n Hn _ IH]. apply ng_node; [| |exact IH]; intros H; apply Hn; eexists; (split; [|exact H]); cbn; tauto.
  Qed.
  Lemma hosts_no_group n : hosts ns n -> no_group n.
  Proof.
    induction 1 as [n Hn|n Hn _ IH]; [apply ng_table, Hn|].
    apply ng_node; [| |exact IH]; intros H; apply Hn; eexists; (split; [|exact H]); cbn; tauto.
  Qed.
  Lemma named_no_group name n : named ns name n -> name <> "table"%string -> name <> "tgroup"%string ->
    (forall c, In c (x_children n) -> no_group c) -> no_group n.
  Proof. intros Hn H1 H2 H. apply ng_node; [| |exact H]; intros H3; [apply H1|apply H2]; exact (named_fun o _ _ _ Hn H3). Qed.
  Lemma row_no_group row : named ns "row" row -> regular_row ns row -> no_group row.
  Proof.
    intros Hn H. apply (named_no_group "row"); try exact Hn; try discriminate. intros c Hc. destruct (H c Hc) as [Hf|[He Hc']]; [apply foreign_no_group, Hf|].
    apply (named_no_group "entry"); try exact He; try discriminate. intros d Hd. apply hosts_no_group, Hc', Hd.
  Qed.
  Lemma part_no_group c : foreign ns c \/ (named ns "colspec" c /\ regular_colspec ns c) \/ (is_section ns c /\ regular_section ns c) -> no_group c.
  Proof.
    intros [Hf|[[Hc Hr]|[Hs Hr]]]; [apply foreign_no_group, Hf| |].
    - apply (named_no_group "colspec"); try exact Hc; try discriminate. intros d Hd. apply foreign_no_group, (proj1 Hr), Hd.
    - assert (HH : forall d, In d (x_children c) -> no_group d).
      { intros d Hd. destruct (Hr d Hd) as [Hf|[H1 H2]]; [apply foreign_no_group, Hf|apply row_no_group; assumption]. }
      destruct Hs as [H|[H|H]]; eapply named_no_group; try exact H; try discriminate; exact HH.
  Qed.

  Lemma not_named n name : ~ named ns name n -> x_tag n <> None -> String.eqb (ostr (x_tag n)) (pcals o name) = false.
  Proof.
    intros H Ht. destruct (x_tag n) as [tag|] eqn:E; [|congruence]. cbn [ostr]. apply String.eqb_neq. intros ->. apply H.
    unfold named. rewrite E. f_equal.
  Qed.
  Lemma matching_tag n : matching tags n = true -> x_tag n <> None.
  Proof. unfold matching. destruct (x_tag n); discriminate. Qed.
  Lemma quiet_on_start n p : x_tag n <> None -> ~ named ns "table" n -> ~ named ns "tgroup" n -> quiet (on_start o n p).
  Proof.
    intros Ht H1 H2. unfold on_start. cbv zeta. rewrite (not_named n "table" H1 Ht), (not_named n "tgroup" H2 Ht).
    destruct (String.eqb _ _).
    { apply quiet_bind; [apply quiet_modify; intros; split; reflexivity|]. intros _. apply quiet_entry. }
    destruct (String.eqb _ _).
    { apply quiet_bind; [apply quiet_modify; intros; split; reflexivity|]. intros _. apply quiet_row. }
    destruct (str_mem _ _); [apply quiet_same; reflexivity|].
    destruct (String.eqb _ _).
    { apply quiet_bind; [apply quiet_modify; intros; split; reflexivity|]. intros _. apply quiet_colspec. }
    apply quiet_same. reflexivity.
  Qed.

  Definition calm (evs : list event) : Prop := forall s s', tame s -> ps_depth s = 1 -> run evs s = (s', Ok tt) ->
    tame s' /\ ps_depth s' = 1 /\ attrs s' = attrs s.
  Lemma calm_nil : calm [].
  Proof. intros s s' Hs Hd E. injection E as <-. auto. Qed.
  Lemma calm_app l m : calm l -> calm m -> calm (l ++ m).
  Proof.
    intros Hl Hm s s' Hs Hd E. rewrite siter_app in E. unfold sbind in E. destruct (run l s) as [s1 [[]|x]] eqn:E1; [|discriminate].
    destruct (Hl s s1 Hs Hd E1) as (A1 & A2 & A3). destruct (Hm s1 s' A1 A2 E) as (B1 & B2 & B3).
    split; [exact B1|]. split; [exact B2|congruence].
  Qed.
  Lemma calm_flat p cs : (forall c, In c cs -> calm (walk tags p c)) -> calm (flat_map (walk tags p) cs).
  Proof.
    induction cs as [|c cs IH]; intros H; cbn [flat_map]; [apply calm_nil|].
    apply calm_app; [apply H; left; reflexivity|]. apply IH. intros d Hd. apply H. right. exact Hd.
  Qed.
  Lemma event_handler b n p s : ps_depth s = 1 -> ~ named ns "table" n ->
    parse_event o (MkEvent b n p) s = if b then on_start o n p s else on_end o n s.
  Proof.
    intros Hd Hn. unfold parse_event, smodify, sbind, sget, sput. rewrite (depth_other o b n p _ Hn), with_depth_same, Hd.
    change (1 <? 1) with false. destruct b; reflexivity.
  Qed.
  Lemma calm_event (b : bool) n p : ~ named ns "table" n -> quiet (if b then on_start o n p else on_end o n) -> calm [MkEvent b n p].
  Proof.
    intros Hn Hq s s' Hs Hd E. cbn [siter] in E. unfold sbind in E. rewrite (event_handler b n p s Hd Hn) in E.
    destruct (Hq s Hs) as (A1 & A2 & A3). destruct b.
    - destruct (on_start o n p s) as [s1 [[]|x]]; [|discriminate]. injection E as <-. cbn [fst] in *. split; [exact A1|]. split; [congruence|exact A3].
    - destruct (on_end o n s) as [s1 [[]|x]]; [|discriminate]. injection E as <-. cbn [fst] in *. split; [exact A1|]. split; [congruence|exact A3].
  Qed.
  Lemma calm_node n : no_group n -> forall p, calm (walk tags p n).
  Proof.
    induction 1 as [n Hn|n H1 H2 _ IH]; intros p.
    - intros s s' Hs Hd E. rewrite (run_nested o n p s Hn Hd) in E. destruct (quiet_end_table s Hs) as (A1 & A2 & A3).
      rewrite E in *. cbn [fst] in *. split; [exact A1|]. split; [congruence|exact A3].
    - rewrite walk_eq. destruct (matching tags n) eqn:Em; [|apply calm_flat; auto].
      change (calm ([MkEvent true n p] ++ (flat_map (walk tags (Some n)) (x_children n) ++ [MkEvent false n p]))).
      apply calm_app; [|apply calm_app; [apply calm_flat; auto|]].
      + apply calm_event; [exact H1|]. apply quiet_on_start; [apply matching_tag, Em|exact H1|exact H2].
      + apply calm_event; [exact H1|]. apply quiet_on_end.
  Qed.

  Definition group (a : styles * nature) (tg : xnode) : styles * nature :=
    (dupdate (fst a) (map_style SEPS (pget o tg "rowsep") "x-cell-border-bottom" (map_style SEPS (pget o tg "colsep") "x-cell-border-right" [])),
     tgroup_nature (pget o tg "tgroupstyle") (snd a)).

  Lemma tgroup_attrs e tg s s' a : named ns "tgroup" tg -> regular_tgroup ns tg -> tame s -> ps_depth s = 1 -> attrs s = Some a ->
    run (walk tags (Some e) tg) s = (s', Ok tt) -> tame s' /\ ps_depth s' = 1 /\ attrs s' = Some (group a tg).
  Proof.
    intros Htg Hreg Hs Hd Ha E. rewrite (walk_named o "tgroup" (Some e) tg ltac:(cbn; tauto) Htg) in E.
    rewrite run_cons in E. unfold sbind at 1 in E.
    rewrite (event_start o "tgroup" tg (Some e) s Htg ltac:(discriminate) Hd), (on_start_eq o "tgroup" tg (Some e) Htg) in E.
    cbv [String.eqb Ascii.eqb Bool.eqb] in E. cbn [orb] in E. cbv iota in E.
    unfold attrs in Ha. destruct (ps_table s) as [t|] eqn:Et; [|discriminate]. injection Ha as <-.
    pose proof (loud_tgroup tg s Hs) as [A1 A2]. rewrite (tgroup_handler tg s t Et) in *. cbn [fst] in A1, A2.
    match type of E with run _ ?s1 = _ => set (s1' := s1) in * end.
    assert (Ea : attrs s1' = Some (group (t_styles t, t_nature t) tg)) by reflexivity. clearbody s1'.
    destruct (calm_app (flat_map (walk tags (Some tg)) (x_children tg)) [MkEvent false tg (Some e)]) with (s := s1') (s' := s') as (B1 & B2 & B3).
    - apply calm_flat. intros c Hc. apply calm_node, part_no_group, Hreg, Hc.
    - apply calm_event; [|apply quiet_on_end]. intros H. pose proof (named_fun o _ _ _ H Htg). discriminate.
    - exact A1.
    - congruence.
    - exact E.
    - split; [exact B1|]. split; [exact B2|congruence].
  Qed.
  Lemma children_attrs e cs :
    (forall c, In c cs -> foreign ns c \/ (named ns "tgroup" c /\ regular_tgroup ns c)) ->
    forall s s' a, tame s -> ps_depth s = 1 -> attrs s = Some a -> run (flat_map (walk tags (Some e)) cs) s = (s', Ok tt) ->
    tame s' /\ ps_depth s' = 1 /\ attrs s' = Some (fold_left group (of_name ns "tgroup" cs) a).
  Proof.
    induction cs as [|c cs IH]; intros Hreg s s' a Hs Hd Ha E.
    - injection E as <-. auto.
    - cbn [flat_map] in E. rewrite siter_app in E. unfold sbind in E. destruct (run (walk tags (Some e) c) s) as [s1 [[]|x]] eqn:E1; [|discriminate].
      assert (IH' := IH (fun d Hd => Hreg d (or_intror Hd))). cbn [of_name filter]. fold (of_name ns "tgroup" cs).
      destruct (Hreg c (or_introl eq_refl)) as [Hf|[Ht Hr]].
      + rewrite (walk_foreign o c Hf) in E1. injection E1 as <-. rewrite (has_tag_foreign o c "tgroup" ltac:(cbn; tauto) Hf). apply (IH' s s' a); auto.
      + destruct (tgroup_attrs e c s s1 a Ht Hr Hs Hd Ha E1) as (A1 & A2 & A3). rewrite (has_tag_named o c _ _ Ht).
        change (String.eqb "tgroup" "tgroup") with true. cbn [fold_left]. apply (IH' s1 s' _ A1 A2 A3 E).
  Qed.
  Lemma parse_table_attrs e t : regular ns e -> parse_table o e = Ok t ->
    exists a, table_style_attrs o e = Ok a /\ (t_styles t, t_nature t) = fold_left group (of_name ns "tgroup" (x_children e)) a.
  Proof.
    intros [He Hreg]. unfold parse_table. rewrite (walk_named o "table" None e ltac:(cbn; tauto) He).
    destruct (run _ pstate_reset) as [sf rf] eqn:Eout. rewrite run_cons in Eout. unfold sbind at 1 in Eout.
    assert (Est : parse_event o (MkEvent true e None) pstate_reset = parse_cals_table o e (MkPState 1 0 0 None None)).
    { unfold parse_event, smodify, sbind, sget, sput. rewrite (depth_table o _ _ _ _ He).
      cbn [ps_depth pstate_reset with_depth ps_col ps_row_pos ps_row ps_table ev_start ev_elem ev_parent]. change (1 <? 0 + 1) with false. cbv iota.
      rewrite (on_start_eq o "table" e None He). reflexivity. }
    pose proof (loud_table e (MkPState 1 0 0 None None) I) as [H1 H2]. rewrite Est in Eout. rewrite table_handler in *.
    destruct (table_style_attrs o e) as [a|x]; [|injection Eout as <- <-; discriminate].
    match type of Eout with run _ ?s1 = _ => set (s1' := s1) in * end.
    assert (Ea : attrs s1' = Some a) by (destruct a; reflexivity). cbn [fst] in H1, H2. clearbody s1'.
    rewrite siter_app in Eout. unfold sbind at 1 in Eout.
    destruct (run (flat_map _ _) s1') as [s2 [[]|x]] eqn:E2; [|injection Eout as <- <-; discriminate].
    destruct (children_attrs e (x_children e) Hreg s1' s2 a H1 H2 Ea E2) as (A1 & A2 & A3).
    cbn [siter] in Eout. unfold sbind at 1 in Eout.
    assert (Een : parse_event o (MkEvent false e None) s2 = end_table (with_depth 0 s2)).
    { unfold parse_event, smodify, sbind, sget, sput. rewrite (depth_table o _ _ _ _ He), A2.
      cbn [ps_depth with_depth ev_start ev_elem]. change (1 <? 1 - 1) with false. cbv iota.
      rewrite (on_end_eq o "table" e He). reflexivity. }
    rewrite Een in Eout. destruct (quiet_end_table (with_depth 0 s2) A1) as (B1 & B2 & B3).
    destruct (end_table (with_depth 0 s2)) as [s3 [[]|x]]; [|injection Eout as <- <-; discriminate]. injection Eout as <- <-. cbn [fst rbind] in *.
    intros Hret. exists a. split; [reflexivity|].
    assert (E3 : attrs s3 = Some (fold_left group (of_name ns "tgroup" (x_children e)) a)) by (etransitivity; [exact B3|exact A3]).
    unfold attrs in E3. destruct (ps_table s3) as [t'|]; [|discriminate]. injection Hret as <-. cbn in E3. congruence.
  Qed.

  (** *** Values *)
  Definition text (v : option string) : option sval := match v with Some s => Some (SStr s) | None => None end.
  Lemma group_get a tg k : dget (fst (group a tg)) k =
    or_opt (text (if String.eqb k "x-cell-border-right" then separator_line (attribute ns tg "colsep")
                  else if String.eqb k "x-cell-border-bottom" then separator_line (attribute ns tg "rowsep") else None)) (dget (fst a) k).
  Proof.
    unfold group. cbn [fst]. rewrite dget_dupdate by (repeat apply dict_ok_map_style; apply dict_ok_nil). f_equal.
    rewrite !dget_map_style, !seps_line, !pget_attribute. cbn [dget].
    destruct (String.eqb_spec k "x-cell-border-right") as [->|H1].
    - change (String.eqb "x-cell-border-right" "x-cell-border-bottom") with false. destruct (separator_line _); reflexivity.
    - destruct (String.eqb k "x-cell-border-bottom"); [|reflexivity]. destruct (separator_line _); reflexivity.
  Qed.
  Lemma groups_get tgs a k : dget (fst (fold_left group tgs a)) k =
    if String.eqb k "x-cell-border-right"
    then fold_left (fun d n => or_opt (text (separator_line (attribute ns n "colsep"))) d) tgs (dget (fst a) k)
    else if String.eqb k "x-cell-border-bottom"
    then fold_left (fun d n => or_opt (text (separator_line (attribute ns n "rowsep"))) d) tgs (dget (fst a) k)
    else dget (fst a) k.
  Proof.
    revert a. induction tgs as [|tg tgs IH]; intros a; cbn [fold_left].
    - destruct (String.eqb k _); [reflexivity|]. destruct (String.eqb k _); reflexivity.
    - rewrite IH, group_get. destruct (String.eqb k _); [reflexivity|]. destruct (String.eqb k _); reflexivity.
  Qed.
  Lemma last_given_text name tgs d : fold_left (fun d n => or_opt (text (separator_line (attribute ns n name))) d) tgs (text d) =
    text (fold_left (fun d v => or_else v d) (map (fun n => separator_line (attribute ns n name)) tgs) d).
  Proof.
    revert d. induction tgs as [|tg tgs IH]; intros d; cbn [fold_left map]; [reflexivity|].
    rewrite <- IH. f_equal. destruct (separator_line _); reflexivity.
  Qed.
  Lemma groups_natures tgs a : group_natures (map (fun n => attribute ns n "tgroupstyle") tgs) (snd a) (snd (fold_left group tgs a)).
  Proof.
    revert a. induction tgs as [|tg tgs IH]; intros a; cbn [fold_left map]; [constructor|].
    econstructor; [|apply IH]. unfold group. cbn [snd]. rewrite pget_attribute. unfold tgroup_nature.
    destruct (attribute ns tg "tgroupstyle") as [[|c s]|]; cbn [truthy ostr]; [apply gn_none; reflexivity| |apply gn_none; reflexivity].
    destruct (snd a) as [[|d n]|]; cbn [truthy ostr]; [apply gn_first; reflexivity| |apply gn_first; reflexivity].
    pose proof (split_on_words (String d n)) as HW. pose proof (split_on_not_nil " " (String d n)) as HN.
    unfold join_space. eapply gn_word with (w := last (split_on " " (String d n)) ""%string); [reflexivity|discriminate|].
    rewrite <- app_removelast_last by exact HN. exact HW.
  Qed.
  Lemma renamed_get l v : match v with Some v => dget l v | None => None end = renamed l v.
  Proof.
    destruct v as [v|]; [|reflexivity]. cbn [renamed]. induction l as [|[k x] l IH]; cbn [dget find fst]; [reflexivity|].
    destruct (String.eqb v k); [reflexivity|exact IH].
  Qed.

  Lemma dget_map_or d v k s x : dget (map_style d v k s) x = or_opt (text (if String.eqb x k then renamed d v else None)) (dget s x).
  Proof. rewrite dget_map_style, renamed_get. destruct (if String.eqb x k then renamed d v else None); reflexivity. Qed.
  Lemma dget_text_or v k s x : dget (text_style v k s) x = or_opt (text (if String.eqb x k then not_empty v else None)) (dget s x).
  Proof. rewrite dget_text_style. destruct (if String.eqb x k then not_empty v else None); reflexivity. Qed.
  Lemma renamed_seps v : renamed SEPS v = separator_line v.
  Proof. rewrite <- renamed_get, seps_line. reflexivity. Qed.
  Lemma or_none {A} (x : option A) : or_opt x None = x.
  Proof. destruct x; reflexivity. Qed.
  Lemma or_else_none x : or_else x None = x.
  Proof. destruct x; reflexivity. Qed.
  Lemma frame_values v :
    match get_frame_styles v with
    | Ok st =>
        (forall s, match not_empty v with
                   | None => dget st (side_style s) = None
                   | Some f => In f six_frames /\ (frame_shows f s -> dget st (side_style s) = Some (SStr "solid 1pt black")) /\
                               (~ frame_shows f s -> dget st (side_style s) = Some (SStr "none"))
                   end) /\
        (forall k, ~ In k ["border-top"; "border-bottom"; "border-left"; "border-right"]%string -> dget st k = None)
    | Err _ => exists f, not_empty v = Some f /\ ~ In f six_frames
    end.
  Proof.
    unfold get_frame_styles. destruct v as [[|c v]|]; cbn [truthy negb not_empty]; [split; reflexivity| |split; reflexivity].
    set (f := String c v). cbn [ostr]. unfold lookup.
    assert (HC : (exists q, dget FRAMES f = Some q) /\ In f six_frames \/ dget FRAMES f = None /\ ~ In f six_frames).
    { unfold FRAMES, six_frames. cbn [dget In].
      repeat (match goal with |- context [String.eqb ?a ?b] => destruct (String.eqb_spec a b) as [E|]; [left; split; [eexists; reflexivity|rewrite E; tauto]|] end).
      right. split; [reflexivity|]. intuition congruence. }
    destruct HC as [[(q & Eq) Hin]|[-> Hn]]; [|exists f; auto]. rewrite Eq.
    assert (HK : forall k bt bb bl br, ~ In k ["border-top"; "border-bottom"; "border-left"; "border-right"]%string ->
      dget [("border-top", border_of bt); ("border-bottom", border_of bb); ("border-left", border_of bl); ("border-right", border_of br)]%string k = None).
    { intros k bt bb bl br Hk. cbn in Hk. cbn [dget].
      repeat (match goal with |- context [String.eqb ?a ?b] => destruct (String.eqb_spec a b) as [E|]; [exfalso; apply Hk; rewrite E; tauto|] end). reflexivity. }
    cbn [rbind]. destruct q as [[[bt bb] bl] br]. split; [|intros k; apply HK].
    intros s. split; [exact Hin|]. clearbody f. clear HK.
    cbn [six_frames In] in Hin.
    destruct Hin as [<-|[<-|[<-|[<-|[<-|[<-|[]]]]]]]; vm_compute in Eq; injection Eq as <- <- <- <-; destruct s; cbv [dget side_style String.eqb Ascii.eqb Bool.eqb border_of BORDER_SOLID BORDER_NONE];
      (split; intros H; [try reflexivity; exfalso; cbv [frame_shows] in H; intuition discriminate|try reflexivity; exfalso; apply H; cbv [frame_shows]; tauto]).
  Qed.

  Lemma style_attrs_spec e :
    match table_style_attrs o e with
    | Ok a =>
        (forall s, table_frame ns e s (dget (fst a) (side_style s))) /\
        table_width ns (pc_unit o) (pc_fmt o) e (dget (fst a) "width") /\
        dget (fst a) "x-cell-border-right" = text (separator_line (attribute ns e "colsep")) /\
        dget (fst a) "x-cell-border-bottom" = text (separator_line (attribute ns e "rowsep")) /\
        (forall k, ~ In k ["width"; "border-top"; "border-bottom"; "border-left"; "border-right"; "x-cell-border-right"; "x-cell-border-bottom"]%string ->
           dget (fst a) k = text (table_style ns e k)) /\
        snd a = not_empty (attribute ns e "tabstyle")
    | Err _ => ~ readable_table ns (pc_unit o) e
    end.
  Proof.
    unfold table_style_attrs. rewrite !pget_attribute. pose proof (frame_values (attribute ns e "frame")) as HF.
    destruct (get_frame_styles (attribute ns e "frame")) as [st0|x]; cbn [rbind].
    2:{ destruct HF as (f & Ef & Hf). intros [HR _]. exact (Hf (HR f Ef)). }
    destruct HF as [HF HK]. cbv zeta.
    match goal with |- context [dset ?s "width" _] => set (st := s) end.
    assert (G : forall k, dget st k =
      or_opt (text (if String.eqb k "background-color" then not_empty (attribute ns e "bgcolor") else None))
     (or_opt (text (if String.eqb k "x-sect-cols" then renamed [("0", "2"); ("1", "1")]%string (attribute ns e "pgwide") else None))
     (or_opt (text (if String.eqb k "x-sect-orient" then renamed [("land", "landscape"); ("port", "portrait")]%string (attribute ns e "orient") else None))
     (or_opt (text (if String.eqb k "x-cell-border-bottom" then separator_line (attribute ns e "rowsep") else None))
     (or_opt (text (if String.eqb k "x-cell-border-right" then separator_line (attribute ns e "colsep") else None)) (dget st0 k)))))).
    { intros k. unfold st. rewrite dget_text_or, !dget_map_or, !renamed_seps. reflexivity. }
    clearbody st.
    assert (GS : forall s, dget st (side_style s) = dget st0 (side_style s)) by (intros s; rewrite G; destruct s; reflexivity).
    assert (GW : dget st "width" = None) by (rewrite G; cbn; apply HK; cbn; intuition discriminate).
    assert (GR : dget st "x-cell-border-right" = text (separator_line (attribute ns e "colsep"))).
    { rewrite G. cbn [String.eqb Ascii.eqb Bool.eqb text or_opt]. rewrite HK by (cbn; intuition discriminate). apply or_none. }
    assert (GB : dget st "x-cell-border-bottom" = text (separator_line (attribute ns e "rowsep"))).
    { rewrite G. cbn [String.eqb Ascii.eqb Bool.eqb text or_opt]. rewrite HK by (cbn; intuition discriminate). apply or_none. }
    assert (GO : forall k, ~ In k ["width"; "border-top"; "border-bottom"; "border-left"; "border-right"; "x-cell-border-right"; "x-cell-border-bottom"]%string ->
           dget st k = text (table_style ns e k)).
    { intros k Hk. rewrite G, HK by (cbn in *; tauto). unfold table_style. cbv zeta.
      destruct (String.eqb_spec k "x-cell-border-right") as [E|_]; [exfalso; apply Hk; rewrite E; cbn; tauto|].
      destruct (String.eqb_spec k "x-cell-border-bottom") as [E|_]; [exfalso; apply Hk; rewrite E; cbn; tauto|].
      destruct (String.eqb_spec k "x-sect-orient") as [->|_]; [cbn [String.eqb Ascii.eqb Bool.eqb text or_opt]; apply or_none|].
      destruct (String.eqb_spec k "x-sect-cols") as [->|_]; [cbn [String.eqb Ascii.eqb Bool.eqb text or_opt]; apply or_none|].
      destruct (String.eqb k "background-color"); [|reflexivity]. apply or_none. }
    assert (GN : (if truthy (attribute ns e "tabstyle") then attribute ns e "tabstyle" else None) = not_empty (attribute ns e "tabstyle")).
    { destruct (attribute ns e "tabstyle") as [[|c s]|]; reflexivity. }
    assert (GF : forall s, table_frame ns e s (dget st (side_style s))) by (intros s; rewrite GS; exact (HF s)).
    unfold table_width, readable_table.
    destruct (attribute ns e "width") as [[|c w]|]; cbn [truthy not_empty ostr rbind fst snd].
    1,3: split; [exact GF|]; split; [exact GW|]; auto.
    pose proof (parse_width_spec (String c w) "mm") as HW. destruct (parse_width (String c w) "mm") as [[v unit]|x]; cbn [rbind fst snd].
    2:{ destruct HW as [_ HW]. intros [_ HR]. destruct (HR _ eq_refl) as [_ (d & Hd & Hdd)]. exact (HW d Hd Hdd). }
    destruct HW as (num & u & HR & Hv & ->).
    assert (Hnum : exists q, numeral num q) by (destruct HR as (pre & rest & _ & L & _); apply L). destruct Hnum as (q & Hq).
    specialize (Hv q Hq).
    assert (Hu : In (unit_or u "mm") unit_names).
    { destruct u as [|a u]; [cbn; tauto|]. destruct HR as (pre & rest & _ & _ & _ & [[L _]|[L _]]); [exact L|discriminate]. }
    destruct (in_dec string_dec (pc_unit o) unit_names) as [Ho|Ho].
    - apply millimetres_names in Hu as [p Hp]. apply millimetres_names in Ho as [p' Hp'].
      destruct (convert_spec v _ _ p p' Hp Hp') as (r & E & HN & _). rewrite E. cbn [rbind fst snd].
      assert (HD : forall k x, k <> "width"%string -> dget (dset st "width" x) k = dget st k) by (intros k x Hk; apply dget_dset_other; congruence).
      split; [intros s; rewrite HD by (destruct s; discriminate); apply GF|].
      split; [|rewrite !HD by discriminate; repeat (split; [assumption|]); split; [|exact GN]; intros k Hk; rewrite HD; [apply GO, Hk|]; intros ->; apply Hk; cbn; tauto].
      exists num, u, q, p, p', r. repeat (split; [assumption|]). split.
      + destruct HN as (n & En & H1 & H2). exists n. split; [exact En|]. split.
        * intros m. specialize (H1 m). rewrite Hv in H1. exact H1.
        * intros m Hm HE. apply (H2 m Hm). rewrite Hv. exact HE.
      + apply dget_dset_same.
    - unfold convert_value. rewrite (unit_length_unknown (pc_unit o) Ho).
      destruct (unit_length (unit_or u "mm")); cbn [rbind]; intros [_ HR2]; destruct (HR2 _ eq_refl) as [H3 _]; exact (Ho H3).
  Qed.

  Theorem parse_table_attributes e t : regular ns e -> parse_table o e = Ok t ->
    table_attributes ns (pc_unit o) (pc_fmt o) e t.
  Proof.
    intros Hreg E. destruct (parse_table_attrs e t Hreg E) as (a & Ea & Et). pose proof (style_attrs_spec e) as H. rewrite Ea in H.
    destruct H as (HF & HW & HR & HB & HO & HN).
    assert (E1 : t_styles t = fst (fold_left group (of_name ns "tgroup" (x_children e)) a)) by (rewrite <- Et; reflexivity).
    assert (E2 : t_nature t = snd (fold_left group (of_name ns "tgroup" (x_children e)) a)) by (rewrite <- Et; reflexivity).
    split; [|split; [|split]].
    - intros s. rewrite E1, groups_get. destruct s; apply HF.
    - rewrite E1, groups_get. exact HW.
    - intros k Hk. rewrite E1, groups_get. destruct (String.eqb_spec k "x-cell-border-right") as [->|N1].
      { rewrite HR, last_given_text. change (table_style ns e _) with (table_separator ns e "colsep").
        unfold table_separator, last_given. cbn [map fold_left]. rewrite or_else_none. reflexivity. }
      destruct (String.eqb_spec k "x-cell-border-bottom") as [->|N2].
      { rewrite HB, last_given_text. change (table_style ns e _) with (table_separator ns e "rowsep").
        unfold table_separator, last_given. cbn [map fold_left]. rewrite or_else_none. reflexivity. }
      apply HO. cbn in *. intuition.
    - rewrite E2, <- HN. apply groups_natures.
  Qed.
  Lemma parse_table_readable e : readable_table ns (pc_unit o) e -> exists a, table_style_attrs o e = Ok a.
  Proof. intros H. pose proof (style_attrs_spec e) as HS. destruct (table_style_attrs o e) as [a|x]; [eauto|contradiction]. Qed.
End CalsTable.
