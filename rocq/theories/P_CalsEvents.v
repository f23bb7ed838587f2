(** * The events of the CALS parser *)
From Verif Require Import Base M_Geometry M_Xml M_Cell M_Grid M_Table M_Regex M_Str M_Units M_Cals M_CalsParser.
From Verif Require Import S_Geometry S_Grid S_Table S_Units S_Cals S_Int S_CalsParser.
From Verif Require Import P_Geometry P_Cell P_Grid P_GridFacts P_Table P_TableStep P_TableFacts P_TableMore P_Units P_Builder P_Str P_Cals P_Int P_CalsParser P_CalsLayout.
Open Scope list_scope.
Open Scope Z_scope.

Lemma grid_bounds g bb : all_valid g -> g <> [] -> (grid_bounding_box g = Ok (Some bb) <-> bounds g bb).
Proof.
  intros HV Hne. split.
  - intros E. exact (bounding_box_least g bb HV E).
  - intros H. destruct (bounding_box_spec g HV) as [[E _]|(_ & bb' & E & _)]; [congruence|].
    rewrite E. repeat f_equal. apply (bounds_fun g); [exact (bounding_box_least g bb' HV E)|exact H].
Qed.

Section Events.
  Variable o : pcals_opts.
  Notation ns := (pc_ns o).
  Notation tags := (cals_elements o).
  Notation run := (siter (parse_event o)).

  (** ** Names *)
  Lemma pcals_eqb a b : String.eqb (pcals o a) (pcals o b) = String.eqb a b.
  Proof.
    destruct (String.eqb_spec a b) as [->|H]; [apply String.eqb_refl|].
    apply String.eqb_neq. intros E. apply H. exact (qname_inj ns a b E).
  Qed.
  Lemma named_tag name n : named ns name n -> x_tag n = Some (pcals o name).
  Proof. intros H. unfold pcals. rewrite qname_expanded. exact H. Qed.
  Lemma matching_spec n : matching tags n = true <-> cals_element ns n.
  Proof.
    unfold matching, cals_element, named. destruct (x_tag n) as [tg|].
    - unfold str_mem, cals_elements. rewrite existsb_exists. split.
      + intros (x & Hx & E). apply String.eqb_eq in E. subst x. apply in_map_iff in Hx as (name & <- & Hin).
        exists name. split; [exact Hin|]. unfold pcals. rewrite qname_expanded. reflexivity.
      + intros (name & Hin & [= ->]). exists (expanded ns name). split; [|apply String.eqb_refl].
        apply in_map_iff. exists name. split; [apply qname_expanded|exact Hin].
    - split; [discriminate|]. intros (name & _ & [=]).
  Qed.
  Lemma matching_named name n : In name cals_names -> named ns name n -> matching tags n = true.
  Proof. intros H1 H2. apply matching_spec. exists name. auto. Qed.
  Lemma matching_not n : ~ cals_element ns n -> matching tags n = false.
  Proof. intros H. rewrite <- matching_spec in H. destruct (matching tags n); congruence. Qed.
  Lemma walk_eq p n :
    walk tags p n =
    if matching tags n then MkEvent true n p :: flat_map (walk tags (Some n)) (x_children n) ++ [MkEvent false n p]
    else flat_map (walk tags (Some n)) (x_children n).
  Proof. destruct n; reflexivity. Qed.
  Lemma walk_named name p n : In name cals_names -> named ns name n ->
    walk tags p n = MkEvent true n p :: flat_map (walk tags (Some n)) (x_children n) ++ [MkEvent false n p].
  Proof. intros H1 H2. rewrite walk_eq, (matching_named name n H1 H2). reflexivity. Qed.
  Lemma walk_other p n : ~ cals_element ns n -> walk tags p n = flat_map (walk tags (Some n)) (x_children n).
  Proof. intros H. rewrite walk_eq, (matching_not n H). reflexivity. Qed.
  Lemma flat_map_nil {A B} (f : A -> list B) l : (forall a, In a l -> f a = []) -> flat_map f l = [].
  Proof. induction l as [|a l IH]; intros H; cbn; [reflexivity|]. rewrite H by (left; reflexivity). apply IH. intros b Hb. apply H. right. exact Hb. Qed.
  Lemma walk_foreign n : foreign ns n -> forall p, walk tags p n = [].
  Proof.
    induction 1 as [n Hn _ IH]. intros p. rewrite walk_other by exact Hn. apply flat_map_nil. intros c Hc. apply IH, Hc.
  Qed.
  Lemma named_fun a b n : named ns a n -> named ns b n -> a = b.
  Proof. unfold named. rewrite <- !qname_expanded. intros H1 H2. rewrite H1 in H2. injection H2 as H2. exact (qname_inj ns a b H2). Qed.

  (** ** One event *)
  Lemma with_depth_same s : with_depth (ps_depth s) s = s.
  Proof. destruct s; reflexivity. Qed.
  Lemma event_skip ev s :
    1 < new_depth o ev (ps_depth s) -> parse_event o ev s = (with_depth (new_depth o ev (ps_depth s)) s, Ok tt).
  Proof.
    intros H. unfold parse_event, smodify, sbind, sget, sput. cbn [ps_depth with_depth].
    apply Z.ltb_lt in H. rewrite H. reflexivity.
  Qed.
  Lemma depth_table b n p d : named ns "table" n -> new_depth o (MkEvent b n p) d = if b then d + 1 else d - 1.
  Proof. intros H. unfold new_depth. cbn [ev_elem ev_start]. rewrite (named_tag _ _ H). cbn [ostr]. rewrite String.eqb_refl. reflexivity. Qed.
  Lemma depth_other b n p d : ~ named ns "table" n -> new_depth o (MkEvent b n p) d = d.
  Proof.
    intros H. unfold new_depth. cbn [ev_elem ev_start]. destruct (String.eqb_spec (ostr (x_tag n)) (pcals o "table")) as [E|E]; [|reflexivity].
    exfalso. apply H. unfold named. rewrite <- qname_expanded. destruct (x_tag n) as [tg|]; cbn [ostr] in E.
    - rewrite E. reflexivity.
    - unfold pcals, qname in E. destruct ns; discriminate E.
  Qed.
  Lemma event_start name n p s : named ns name n -> name <> "table"%string -> ps_depth s = 1 ->
    parse_event o (MkEvent true n p) s = on_start o n p s.
  Proof.
    intros Hn Ht Hd. unfold parse_event, smodify, sbind, sget, sput.
    rewrite depth_other by (intros H; apply Ht; exact (named_fun _ _ _ Hn H)).
    rewrite with_depth_same, Hd. reflexivity.
  Qed.
  Lemma event_end name n p s : named ns name n -> name <> "table"%string -> ps_depth s = 1 ->
    parse_event o (MkEvent false n p) s = on_end o n s.
  Proof.
    intros Hn Ht Hd. unfold parse_event, smodify, sbind, sget, sput.
    rewrite depth_other by (intros H; apply Ht; exact (named_fun _ _ _ Hn H)).
    rewrite with_depth_same, Hd. reflexivity.
  Qed.
  Lemma on_end_eq name n : named ns name n ->
    on_end o n = if String.eqb name "row" then end_row else if String.eqb name "table" then end_table else sret tt.
  Proof. intros H. unfold on_end. rewrite (named_tag _ _ H). cbn [ostr]. rewrite !pcals_eqb. reflexivity. Qed.
  Lemma on_start_eq name n p : named ns name n ->
    on_start o n p =
    if String.eqb name "entry" then smodify next_col ;;; parse_cals_entry o n
    else if String.eqb name "row" then smodify next_row ;;; parse_cals_row o n p
    else if (String.eqb name "tbody" || (String.eqb name "tfoot" || (String.eqb name "thead" || false)))%bool then sret tt
    else if String.eqb name "colspec" then smodify next_col ;;; parse_cals_colspec o n p
    else if String.eqb name "tgroup" then parse_cals_tgroup o n
    else if String.eqb name "table" then parse_cals_table o n
    else sraise ENotImplementedError.
  Proof.
    intros H. unfold on_start. rewrite (named_tag _ _ H). cbn [ostr]. unfold str_mem, sections. cbn [map existsb].
    rewrite !pcals_eqb. reflexivity.
  Qed.

  (** ** Nested tables *)
  Lemma run_flat cs p s : (forall c, In c cs -> run (walk tags p c) s = (s, Ok tt)) -> run (flat_map (walk tags p) cs) s = (s, Ok tt).
  Proof.
    induction cs as [|c cs IH]; intros H; cbn [flat_map]; [reflexivity|].
    rewrite siter_app. unfold sbind. rewrite H by (left; reflexivity). apply IH. intros d Hd. apply H. right. exact Hd.
  Qed.
  Lemma run_cons ev l s : run (ev :: l) s = (parse_event o ev ;;; run l) s.
  Proof. reflexivity. Qed.
  Lemma deep n : forall p s, 1 < ps_depth s -> run (walk tags p n) s = (s, Ok tt).
  Proof.
    induction n as [tg at_ tx ch tl IH|?|?] using xnode_ind'; intros p s Hd; try reflexivity.
    set (n := XElem tg at_ tx ch tl) in *.
    assert (Hch : forall s, 1 < ps_depth s -> run (flat_map (walk tags (Some n)) (x_children n)) s = (s, Ok tt)).
    { intros s' Hs'. apply run_flat. intros c Hc. rewrite Forall_forall in IH. apply IH; assumption. }
    rewrite walk_eq. destruct (matching tags n); [|apply Hch, Hd].
    rewrite run_cons. unfold sbind at 1.
    assert (HD : (forall b d, new_depth o (MkEvent b n p) d = if b then d + 1 else d - 1) \/
                 (forall b d, new_depth o (MkEvent b n p) d = d)).
    { unfold new_depth. cbn [ev_elem ev_start]. destruct (String.eqb _ _); [left|right]; reflexivity. }
    destruct HD as [HD|HD].
    - rewrite event_skip by (rewrite HD; lia). rewrite HD. rewrite siter_app. unfold sbind. rewrite Hch by (cbn; lia).
      cbn [siter]. unfold sbind. rewrite event_skip by (rewrite HD; cbn; lia). rewrite HD. cbn [ps_depth with_depth].
      unfold sret. f_equal. destruct s; cbn. unfold with_depth. cbn. f_equal. lia.
    - rewrite event_skip by (rewrite HD; lia). rewrite HD, with_depth_same. rewrite siter_app. unfold sbind. rewrite Hch by exact Hd.
      cbn [siter]. unfold sbind. rewrite event_skip by (rewrite HD; lia). rewrite HD, with_depth_same. reflexivity.
  Qed.
  Lemma run_nested n p s : named ns "table" n -> ps_depth s = 1 -> run (walk tags p n) s = end_table s.
  Proof.
    intros Hn Hd. rewrite (walk_named "table") by (try exact Hn; cbn; tauto). rewrite run_cons. unfold sbind at 1.
    rewrite event_skip by (rewrite (depth_table _ _ _ _ Hn); lia). rewrite (depth_table _ _ _ _ Hn), siter_app. unfold sbind at 1.
    rewrite run_flat by (intros c _; apply deep; cbn; lia).
    cbn [siter].
    assert (E : parse_event o (MkEvent false n p) (with_depth (ps_depth s + 1) s) = end_table s).
    { unfold parse_event, smodify, sbind, sget, sput. rewrite (depth_table _ _ _ _ Hn).
      replace (with_depth (ps_depth (with_depth (ps_depth s + 1) s) - 1) (with_depth (ps_depth s + 1) s)) with s
        by (destruct s; cbn in *; subst; reflexivity).
      rewrite Hd. change (1 <? 1) with false. cbn [ev_start ev_elem]. rewrite (on_end_eq "table" n Hn). reflexivity. }
    unfold sbind. rewrite E.
    destruct (end_table s) as [s' [[]|e]]; reflexivity.
  Qed.

  Definition working (s : pstate) : Prop := ps_depth s = 1 /\ exists t, ps_table s = Some t /\ treachable t.

  Lemma end_table_cases s t : ps_table s = Some t -> treachable t ->
    (t_grid t = [] /\ end_table s = (s, Err EAttributeError)) \/
    (exists bb, bounds (table_iter t) bb /\
       end_table s = (with_table (Some (fst (table_fill_missing bb CNone None None t))) s, Ok tt)).
  Proof.
    intros Et HR. destruct (treachable_tinv t HR) as (og & HS & HM).
    assert (HV : all_valid (t_grid t)) by apply HM.
    unfold end_table, on_table. rewrite Et. unfold sbind, sget, slift, table_bounding_box.
    destruct (bounding_box_spec (t_grid t) HV) as [[Eg Eb]|(Hne & bb & Eb & Vb & _)]; rewrite Eb.
    - left. split; [exact Eg|]. cbn. destruct s; cbn in *. subst. reflexivity.
    - right. exists bb. split; [apply grid_bounds; assumption|].
      destruct (fill_missing_spec bb CNone None None t HR Vb) as (t' & ks & E & _). rewrite E. reflexivity.
  Qed.
  Lemma end_table_again s s' : working s -> end_table s = (s', Ok tt) -> working s' /\ end_table s' = (s', Ok tt).
  Proof.
    intros (Hd & t & Et & HR) E.
    destruct (end_table_cases s t Et HR) as [[_ E']|(bb & Hb & E')]; rewrite E' in E; [discriminate|].
    injection E as <-. destruct Hb as (Vb & Hb1 & Hb2).
    destruct (fill_missing_spec bb CNone None None t HR Vb) as (t' & ks & Ef & HP & _ & Hk). rewrite Ef in *. cbn [fst] in *.
    assert (HR' : treachable t').
    { replace t' with (fst (tstep (TFill bb CNone None None) t)) by (cbn [tstep]; rewrite Ef; reflexivity). constructor. exact HR. }
    split; [split; [exact Hd|]; exists t'; auto|].
    assert (Hb' : bounds (table_iter t') bb).
    { split; [exact Vb|]. split.
      - intros c Hc. rewrite HP in Hc. apply in_app_iff in Hc as [Hc|Hc]; [|apply Hb1, Hc].
        apply in_map_iff in Hc as (k & <- & Hin). apply Hk in Hin as [Hin _]. intros x Hx. cbn in Hx. unfold covers in *. cbn in Hx. lia.
      - intros b Vbb H. apply Hb2; [exact Vbb|]. intros c Hc. apply H. rewrite HP. apply in_app_iff. right. exact Hc. }
    destruct (end_table_cases (with_table (Some t') s) t' eq_refl HR') as [[Eg E'']|(bb' & Hbb & E'')].
    - exfalso. destruct (t_grid t) as [|c g] eqn:Egt.
      + destruct Hb2 with (b := MkBox (Coord (cx (bmax bb) + 1) 1) (Coord (cx (bmax bb) + 1) 1)) (c := bmin bb).
        * unfold valid in *. cbn. lia.
        * intros c Hc. unfold table_iter in Hc. rewrite Egt in Hc. destruct Hc.
        * unfold covers, valid in *. lia.
        * unfold covers, valid in *. cbn in *. lia.
      + unfold table_iter in HP. rewrite Eg, Egt in HP. apply Permutation_nil in HP. destruct ks; discriminate HP.
    - rewrite (bounds_fun _ _ _ Hbb Hb') in E''. rewrite E''.
      pose proof (fill_missing_twice bb CNone None None CNone None None t t' HR Vb Ef) as E2. rewrite E2. reflexivity.
  Qed.

  Lemma hosts_list cs p :
    (forall c, In c cs -> forall s, working s ->
       (nests ns c /\ run (walk tags p c) s = end_table s) \/ (~ nests ns c /\ run (walk tags p c) s = (s, Ok tt))) ->
    forall s, working s ->
      ((exists c, In c cs /\ nests ns c) /\ run (flat_map (walk tags p) cs) s = end_table s) \/
      ((forall c, In c cs -> ~ nests ns c) /\ run (flat_map (walk tags p) cs) s = (s, Ok tt)).
  Proof.
    induction cs as [|c cs IH]; intros H s Hs.
    - right. split; [intros c []|reflexivity].
    - cbn [flat_map]. rewrite siter_app. unfold sbind.
      assert (IH' := IH (fun d Hd => H d (or_intror Hd))). clear IH.
      destruct (H c (or_introl eq_refl) s Hs) as [[Hn E]|[Hn E]]; rewrite E.
      + left. split; [exists c; split; [left; reflexivity|exact Hn]|].
        destruct (end_table s) as [s' [[]|e]] eqn:Ee; [|reflexivity].
        destruct (end_table_again s s' Hs Ee) as [Hs' E2].
        destruct (IH' s' Hs') as [[_ E3]|[_ E3]]; rewrite E3; [exact E2|reflexivity].
      + destruct (IH' s Hs) as [[(d & Hd & Hnd) E3]|[Hno E3]].
        * left. split; [exists d; split; [right; exact Hd|exact Hnd]|exact E3].
        * right. split; [|exact E3]. intros d [<-|Hd]; auto.
  Qed.
  Lemma hosts_run n : hosts ns n -> forall p s, working s ->
    (nests ns n /\ run (walk tags p n) s = end_table s) \/ (~ nests ns n /\ run (walk tags p n) s = (s, Ok tt)).
  Proof.
    induction 1 as [n Hn|n Hn _ IH]; intros p s Hs.
    - left. split; [apply nests_here, Hn|]. apply run_nested; [exact Hn|apply Hs].
    - rewrite walk_other by exact Hn.
      destruct (hosts_list (x_children n) (Some n) (fun c Hc s' Hs' => IH c Hc (Some n) s' Hs') s Hs) as [[(c & Hc & Hnc) E]|[Hno E]].
      + left. split; [|exact E]. eapply nests_below; eauto.
      + right. split; [|exact E]. intros HN. inversion HN as [n' Ht|n' c Hc Hnc]; subst.
        * apply Hn. exists "table"%string. split; [cbn; tauto|exact Ht].
        * exact (Hno c Hc Hnc).
  Qed.
End Events.
