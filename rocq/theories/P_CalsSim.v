(** * The CALS parser follows the layout of the specification *)
From Verif Require Import Base M_Geometry M_Xml M_Cell M_Grid M_Table M_Regex M_Str M_Units M_Cals M_CalsParser.
From Verif Require Import S_Geometry S_Grid S_Table S_Units S_Cals S_Int S_CalsParser.
From Verif Require Import P_Geometry P_Cell P_Grid P_GridFacts P_Table P_TableStep P_TableFacts P_TableMore P_Units P_Builder P_Str P_Cals P_Int P_CalsParser P_CalsLayout P_CalsEvents.
Open Scope list_scope.
Open Scope Z_scope.

(** ** The specification has one result *)

Lemma settled_fun ns watch e g g1 g2 : settled ns watch e g g1 -> settled ns watch e g g2 -> g1 = g2.
Proof.
  intros H1 H2. destruct H1 as [n bb g1 Hw Hin Hn Hb Hf|Hno]; destruct H2 as [n' bb' g2 Hw' Hin' Hn' Hb' Hf'|Hno'].
  - rewrite (bounds_fun _ _ _ Hb Hb') in Hf. exact (filled_fun _ _ _ _ _ Hf Hf').
  - exfalso. apply Hno'. eauto.
  - exfalso. apply Hno. eauto.
  - reflexivity.
Qed.
Lemma placed_inv ns watch r na k e es n g n2 g2 :
  placed ns watch r na k (e :: es) n g n2 g2 ->
  exists i w h g1, entry_span ns e (k + 1) w h /\ 1 <= w /\ 1 <= h /\ first_free Rows r i (map snd g) /\
    (forall d, In d (map snd g) -> ~ clash (c_box d) (seat Rows r i w h)) /\
    settled ns watch e ((Some e, bare (content_of e) na (seat Rows r i w h)) :: g) g1 /\
    placed ns watch r na (k + 1) es (Z.max n (i + w - 1)) g1 n2 g2.
Proof. intros H. inversion H; subst. do 4 eexists. eauto 10. Qed.
Lemma lays_column_inv ns watch c its r k n g cs l' :
  lays ns watch (Column c :: its) (MkLayout r k n g cs) l' ->
  exists m, column_number ns c k m /\ lays ns watch its (MkLayout r (k + 1) (Z.max n m) g (colstyles_with ns m c cs)) l'.
Proof. intros H. inversion H; subst. eauto. Qed.
Lemma lays_row_inv ns watch na sec row its r k n g cs l' :
  lays ns watch (Row na sec row :: its) (MkLayout r k n g cs) l' ->
  exists n1 g1 g2, placed ns watch (r + 1) (Some na) 0 (of_name ns "entry" (x_children row)) n g n1 g1 /\
    1 <= n1 /\ filled (MkBox (Coord 1 (r + 1)) (Coord n1 (r + 1))) (Some na) g1 g2 /\
    lays ns watch its (MkLayout (r + 1) (Z.of_nat (List.length (of_name ns "entry" (x_children row)))) n1 g2 cs) l'.
Proof. intros H. inversion H; subst. do 3 eexists. eauto. Qed.
Lemma placed_fun ns watch r na k es n g n1 g1 n2 g2 :
  placed ns watch r na k es n g n1 g1 -> placed ns watch r na k es n g n2 g2 -> n1 = n2 /\ g1 = g2.
Proof.
  intros H. revert n2 g2. induction H as [k n g|k e es n g i w h g1 n2 g2 Hs Hw Hh Hf Hc Hset Hp IH]; intros n3 g3 H'; [inversion H'; auto|].
  apply placed_inv in H' as (j & w' & h' & g1' & Hs' & _ & _ & Hf' & _ & Hset' & Hp').
  assert (Hwh : w = w' /\ h = h') by (eapply (entry_span_fun (MkPCalsOpts ns "" (fun _ => ""%string))); eassumption).
  destruct Hwh as [<- <-].
  assert (i = j) by (eapply first_free_fun; eassumption). subst j.
  assert (g1 = g1') by (eapply settled_fun; eassumption). subst g1'. apply IH; assumption.
Qed.
Lemma column_number_fun ns c k m m' : column_number ns c k m -> column_number ns c k m' -> m = m'.
Proof.
  unfold column_number. destruct (attribute ns c "colnum") as [[|x s]|]; try congruence. apply int_text_fun.
Qed.
Lemma lays_fun ns watch its l l1 l2 : lays ns watch its l l1 -> lays ns watch its l l2 -> l1 = l2.
Proof.
  intros H. revert l2. induction H as [l|c its r k n g cs m l' Hm H IH|na sec row its r k n g cs n1 g1 g2 l' Hp Hn Hf H IH]; intros l2 H'.
  - inversion H'. reflexivity.
  - apply lays_column_inv in H' as (m' & Hm' & H'). assert (m = m') by (eapply column_number_fun; eassumption). subst. auto.
  - apply lays_row_inv in H' as (n2 & g3 & g4 & Hp' & _ & Hf' & H'). destruct (placed_fun _ _ _ _ _ _ _ _ _ _ _ _ Hp Hp') as [<- <-].
    assert (g2 = g4) by (eapply filled_fun; eassumption). subst. auto.
Qed.
Lemma lays_app ns watch i1 i2 l l1 l2 : lays ns watch i1 l l1 -> lays ns watch i2 l1 l2 -> lays ns watch (i1 ++ i2) l l2.
Proof. intros H HX. induction H; cbn [app]; [exact HX|econstructor; eauto|econstructor; eauto]. Qed.
Lemma lays_split ns watch i1 i2 l l2 : lays ns watch (i1 ++ i2) l l2 -> exists l1, lays ns watch i1 l l1 /\ lays ns watch i2 l1 l2.
Proof.
  revert l. induction i1 as [|i i1 IH]; intros l H; cbn [app] in H; [exists l; split; [constructor|exact H]|].
  destruct l as [r k n g cs], i as [c|na sec row].
  - apply lays_column_inv in H as (m & Hm & H). destruct (IH _ H) as (l1 & A & B). exists l1. split; [econstructor; eauto|exact B].
  - apply lays_row_inv in H as (n1 & g1 & g2 & Hp & Hn & Hf & H). destruct (IH _ H) as (l1 & A & B). exists l1. split; [econstructor; eauto|exact B].
Qed.

Lemma smodify_eq {S} (f : S -> S) s : smodify f s = (f s, Ok tt).
Proof. reflexivity. Qed.

Section Sim.
  Variable o : pcals_opts.
  Notation ns := (pc_ns o).
  Notation tags := (cals_elements o).
  Notation run := (siter (parse_event o)).

  Lemma has_tag_spec n name : x_has_tag n (expanded ns name) = true <-> named ns name n.
  Proof.
    unfold named, x_has_tag, x_tag. destruct n; try (split; discriminate). rewrite String.eqb_eq. split; congruence.
  Qed.
  Lemma has_tag_foreign n name : In name cals_names -> foreign ns n -> x_has_tag n (expanded ns name) = false.
  Proof.
    intros Hin [n' Hn _]. destruct (x_has_tag n' (expanded ns name)) eqn:E; [|reflexivity]. exfalso. apply Hn.
    exists name. split; [exact Hin|]. apply has_tag_spec, E.
  Qed.
  Lemma has_tag_named n a b : named ns a n -> x_has_tag n (expanded ns b) = String.eqb a b.
  Proof.
    intros H. destruct (String.eqb_spec a b) as [<-|Hn]; [apply has_tag_spec, H|].
    destruct (x_has_tag n (expanded ns b)) eqn:E; [|reflexivity]. apply has_tag_spec in E. exfalso. apply Hn. exact (named_fun o a b n H E).
  Qed.

  (** ** The entries of a row *)
  Lemma pictures_bounds cells g bb : pictures ns cells g -> (bounds cells bb <-> bounds (map snd g) bb).
  Proof.
    intros H. unfold bounds. pose proof (pictures_boxes ns cells g (fun b => subarea b bb) H) as H1.
    split; intros (V & A & B); (split; [exact V|]); (split; [apply H1, A|]).
    - intros b Vb Hb. apply B; [exact Vb|]. apply (pictures_boxes ns cells g (fun b' => subarea b' b) H), Hb.
    - intros b Vb Hb. apply B; [exact Vb|]. apply (pictures_boxes ns cells g (fun b' => subarea b' b) H), Hb.
  Qed.
  Lemma bounds_le_count t n g rows cs bb : agrees ns t n g rows cs -> t_grid t <> [] -> bounds (table_iter t) bb -> cx (bmax bb) <= n.
  Proof.
    intros H Hne (V & A & B). destruct (t_grid t) as [|c l] eqn:Eg; [congruence|].
    assert (Hc : In c (table_iter t)) by (unfold table_iter, grid_iter; rewrite Eg; left; reflexivity).
    destruct (treachable_tinv t (ag_reach _ _ _ _ _ _ H)) as (og & HS & HM).
    assert (HV : forall d, In d (table_iter t) -> valid (c_box d)).
    { intros d Hd. apply (inv_valid (t_grid t)); [apply HM|exact Hd]. }
    pose proof (HV c Hc) as Vc. pose proof (last_le_count _ _ _ _ _ _ c H Hc) as Lc.
    specialize (B (MkBox (Coord 1 1) (Coord n (cy (bmax bb)))) ltac:(unfold valid in *; cbn; lia)).
    assert (Hall : forall d, In d (table_iter t) -> subarea (c_box d) (MkBox (Coord 1 1) (Coord n (cy (bmax bb))))).
    { intros d Hd k Hk. pose proof (A d Hd k Hk) as Hk'. pose proof (HV d Hd) as Vd. pose proof (last_le_count _ _ _ _ _ _ d H Hd) as Ld.
      unfold covers, valid in *. cbn. lia. }
    specialize (B Hall (bmax bb)). unfold covers, valid in *. cbn in *. lia.
  Qed.
  Lemma agrees_nonempty t n s g rows cs : agrees ns t n (s :: g) rows cs -> t_grid t <> [].
  Proof. intros H E. apply (pictures_nil ns _ _ (ag_cells _ _ _ _ _ _ H)) in E. discriminate. Qed.

  Lemma end_table_agrees s t n s0 g rows cs :
    agrees ns t n (s0 :: g) rows cs -> ps_table s = Some t ->
    exists bb t' g', bounds (map snd (s0 :: g)) bb /\ filled bb None (s0 :: g) g' /\
      end_table s = (with_table (Some t') s, Ok tt) /\ agrees ns t' n g' rows cs.
  Proof.
    intros H Et. pose proof (agrees_nonempty _ _ _ _ _ _ H) as Hne.
    destruct (end_table_cases s t Et (ag_reach _ _ _ _ _ _ H)) as [[X _]|(bb & Hb & E)]; [congruence|].
    destruct (agrees_fill ns t n (s0 :: g) rows cs bb None H (proj1 Hb) (bounds_le_count _ _ _ _ _ _ H Hne Hb)) as (t' & g' & Ef & Hf & H').
    exists bb, t', g'. split; [apply (pictures_bounds _ _ _ (ag_cells _ _ _ _ _ _ H)), Hb|]. split; [exact Hf|].
    rewrite Ef in E. split; [exact E|exact H'].
  Qed.

  Lemma content_sim e s t n s0 g rows cs :
    (forall c, In c (x_children e) -> hosts ns c) -> ps_depth s = 1 -> ps_table s = Some t -> agrees ns t n (s0 :: g) rows cs ->
    exists t' g', run (flat_map (walk tags (Some e)) (x_children e)) s = (with_table (Some t') s, Ok tt) /\
      settled ns true e (s0 :: g) g' /\ agrees ns t' n g' rows cs.
  Proof.
    intros Hh Hd Et H.
    assert (Hs : working s) by (split; [exact Hd|]; exists t; split; [exact Et|apply H]).
    destruct (hosts_list o (x_children e) (Some e) (fun c Hc s' Hs' => hosts_run o c (Hh c Hc) (Some e) s' Hs') s Hs) as [[(c & Hc & Hn) E]|[Hno E]]; rewrite E.
    - destruct (end_table_agrees s t n s0 g rows cs H Et) as (bb & t' & g' & Hb & Hf & E' & H').
      exists t', g'. split; [exact E'|]. split; [|exact H']. eapply settled_nested; eauto.
    - exists t, (s0 :: g). split; [f_equal; destruct s; cbn in *; subst; reflexivity|]. split; [|exact H].
      apply settled_plain. intros (_ & c & Hc & Hn). exact (Hno c Hc Hn).
  Qed.

  Lemma entries_sim p r na sec row rows cst :
    1 <= r -> nth_error rows (Z.to_nat (r - 1)) = Some (na, sec, row) ->
    forall ch t k n g out,
    run (flat_map (walk tags (Some p)) ch) (MkPState 1 k r (Some r) (Some t)) = out ->
    (forall e, In e ch -> foreign ns e \/ (named ns "entry" e /\ forall c, In c (x_children e) -> hosts ns c)) ->
    0 <= k -> agrees ns t n g rows cst ->
    (exists t' n' g',
       out = (MkPState 1 (k + Z.of_nat (List.length (of_name ns "entry" ch))) r (Some r) (Some t'), Ok tt) /\
       placed ns true r (Some na) k (of_name ns "entry" ch) n g n' g' /\ agrees ns t' n' g' rows cst) \/
    (exists s' x, out = (s', Err x) /\
       forall n' g', ~ placed ns true r (Some na) k (of_name ns "entry" ch) n g n' g').
  Proof.
    intros Hr Hrow. induction ch as [|e ch IH]; intros t k n g out Eout Hreg Hk H.
    - left. exists t, n, g. cbn [flat_map of_name filter List.length siter] in *. replace (k + Z.of_nat 0) with k by lia.
      split; [symmetry; exact Eout|]. split; [constructor|exact H].
    - assert (Hreg' : forall e', In e' ch -> foreign ns e' \/ (named ns "entry" e' /\ forall c, In c (x_children e') -> hosts ns c))
        by (intros; apply Hreg; right; assumption).
      cbn [flat_map of_name filter] in *. fold (of_name ns "entry" ch).
      destruct (Hreg e (or_introl eq_refl)) as [Hfor|[He Hh]].
      { rewrite (walk_foreign o e Hfor) in Eout. rewrite (has_tag_foreign e "entry") by (try exact Hfor; cbn; tauto). cbn [app] in *. apply (IH t k n g out); assumption. }
      rewrite (has_tag_named e _ _ He). change (String.eqb "entry" "entry") with true. cbv iota.
      rewrite (walk_named o "entry" (Some p) e ltac:(cbn; tauto) He) in Eout.
      rewrite <- app_comm_cons, <- app_assoc in Eout. rewrite run_cons in Eout. unfold sbind at 1 in Eout.
      rewrite (event_start o "entry" e (Some p) _ He) in Eout by (try discriminate; reflexivity).
      rewrite (on_start_eq o "entry" e (Some p) He) in Eout. change (String.eqb "entry" "entry") with true in Eout. cbv iota in Eout.
      unfold sbind at 1 in Eout. rewrite smodify_eq in Eout.
      change (next_col (MkPState 1 k r (Some r) (Some t))) with (MkPState 1 (k + 1) r (Some r) (Some t)) in Eout.
      unfold parse_cals_entry in Eout. unfold sbind at 1 2 in Eout. unfold sget, slift in Eout. cbn [ps_col ps_row] in Eout.
      destruct (entry_spans o e (k + 1)) as [[w h]|x] eqn:Ew.
      2:{ right. do 2 eexists. split; [symmetry; exact Eout|]. intros n' g' Hp.
          apply placed_inv in Hp as (j & w & h & g1 & Hs & _). apply (entry_spans_spec o) in Hs; [|lia]. congruence. }
      apply entry_spans_spec in Ew; [|lia].
      unfold on_table in Eout. cbn [ps_table fst snd] in Eout.
      destruct (reads_exists Rows r t (ag_reach _ _ _ _ _ _ H) Hr) as (v & Hv).
      assert (Evg : view_get Rows r t = (fst (view_get Rows r t), Ok v)).
      { unfold reads in Hv. destruct (view_get Rows r t) as [t1 q]. cbn in *. congruence. }
      unfold sbind at 1 in Eout.
      rewrite Evg in Eout. pose proof (agrees_read ns t n g rows cst r H) as H1. set (t1 := fst (view_get Rows r t)) in *. clearbody t1.
      destruct (reads_exists Rows r t1 (ag_reach _ _ _ _ _ _ H1) Hr) as (v1 & Hv1).
      rewrite (agrees_nature _ _ _ _ _ _ r v na sec row H Hr Hv Hrow) in Eout.
      rewrite <- (agrees_nature _ _ _ _ _ _ r v1 na sec row H1 Hr Hv1 Hrow) in Eout.
      destruct (agrees_insert ns t1 n g rows cst r na sec row e w h v1 o eq_refl H1 Hr Hrow Hv1) as (i & Hi & HI). cbv zeta in HI.
      destruct HI as [[(x & t2 & E2) Hbad]|(Hw & Hhh & Hno & t2 & E2 & H2)]; rewrite E2 in Eout.
      { right. do 2 eexists. split; [symmetry; exact Eout|]. intros n' g' Hp.
        apply placed_inv in Hp as (j & w' & h' & g1' & Hs' & Hw' & Hh' & Hf' & Hc' & _).
        destruct (entry_span_fun o e (k + 1) w h w' h' Ew Hs') as [-> ->].
        assert (i = j) by (eapply first_free_fun; eassumption). subst j.
        destruct Hbad as [Hbad|(d & Hd & Hc)]; [tauto|]. eapply Hc'; eauto. }
      rewrite siter_app in Eout. unfold sbind at 1 in Eout.
      destruct (content_sim e (with_table (Some t2) (MkPState 1 (k + 1) r (Some r) (Some t))) t2 _ _ g rows cst Hh eq_refl eq_refl H2)
        as (t3 & g3 & E3 & Hset & H3). rewrite E3 in Eout. cbn [with_table ps_depth ps_col ps_row_pos ps_row] in Eout.
      rewrite <- app_comm_cons in Eout. cbn [app] in Eout. rewrite run_cons in Eout. unfold sbind at 1 in Eout.
      rewrite (event_end o "entry" e (Some p) _ He) in Eout by (try discriminate; reflexivity).
      rewrite (on_end_eq o "entry" e He) in Eout. change (String.eqb "entry" "row") with false in Eout. change (String.eqb "entry" "table") with false in Eout. cbv iota in Eout.
      unfold sret at 1 in Eout.
      destruct (IH t3 (k + 1) _ g3 out Eout Hreg' ltac:(lia) H3) as [(t' & n' & g' & E & Hp & H')|(s' & x & E & Hp)].
      + left. exists t', n', g'. split; [|split; [|exact H']].
        * rewrite E. cbn [List.length]. do 2 f_equal. lia.
        * eapply placed_cons; eauto.
      + right. exists s', x. split; [exact E|]. intros n' g' Hp'.
        apply placed_inv in Hp' as (j & w' & h' & g1' & Hs' & Hw' & Hh' & Hf' & Hc' & Hset' & Hp').
        destruct (entry_span_fun o e (k + 1) w h w' h' Ew Hs') as [-> ->].
        assert (i = j) by (eapply first_free_fun; eassumption). subst j.
        assert (g3 = g1') by (eapply settled_fun; eassumption). subst g1'. eapply Hp; eauto.
  Qed.

  (** ** Chunks of events and items *)
  Definition good (s : pstate) (l : layout) (rows : list (string * xnode * xnode)) : Prop :=
    ps_depth s = 1 /\ ps_col s = l_count l /\ ps_row_pos s = l_row l /\ 0 <= l_count l /\
    Z.of_nat (List.length rows) = l_row l /\
    exists t, ps_table s = Some t /\ agrees ns t (l_cols l) (l_spots l) rows (l_styles l).
  Definition sim (evs : list event) (its : list item) : Prop :=
    forall s l rows, good s l rows ->
    (exists s' l', run evs s = (s', Ok tt) /\ lays ns true its l l' /\ good s' l' (rows ++ row_items its)) \/
    (exists s' x, run evs s = (s', Err x) /\ forall l', ~ lays ns true its l l').

  Lemma sim_nil : sim [] [].
  Proof.
    intros s l rows H. left. exists s, l. split; [reflexivity|]. split; [constructor|].
    cbn [row_items flat_map]. rewrite app_nil_r. exact H.
  Qed.
  Lemma sim_app e1 i1 e2 i2 : sim e1 i1 -> sim e2 i2 -> sim (e1 ++ e2) (i1 ++ i2).
  Proof.
    intros H1 H2 s l rows H. rewrite siter_app. unfold sbind.
    destruct (H1 s l rows H) as [(s1 & l1 & E1 & L1 & G1)|(s1 & x & E1 & L1)]; rewrite E1.
    - destruct (H2 s1 l1 _ G1) as [(s2 & l2 & E2 & L2 & G2)|(s2 & x & E2 & L2)]; rewrite E2.
      + left. exists s2, l2. split; [reflexivity|]. split; [eapply lays_app; eassumption|].
        unfold row_items in *. rewrite flat_map_app, app_assoc. exact G2.
      + right. exists s2, x. split; [reflexivity|]. intros l' HL. apply lays_split in HL as (l1' & A & B).
        rewrite (lays_fun _ _ _ _ _ _ A L1) in B. exact (L2 l' B).
    - right. exists s1, x. split; [reflexivity|]. intros l' HL. apply lays_split in HL as (l1' & A & B). exact (L1 l1' A).
  Qed.
  Lemma sim_flat {A} (f : A -> list event) (h : A -> list item) cs :
    (forall c, In c cs -> sim (f c) (h c)) -> sim (flat_map f cs) (flat_map h cs).
  Proof.
    induction cs as [|c cs IH]; intros H; cbn [flat_map]; [apply sim_nil|].
    apply sim_app; [apply H; left; reflexivity|]. apply IH. intros d Hd. apply H. right. exact Hd.
  Qed.
  Lemma sim_silent ev : (forall s l rows, good s l rows -> exists s', parse_event o ev s = (s', Ok tt) /\ good s' l rows) -> sim [ev] [].
  Proof.
    intros H s l rows G. left. destruct (H s l rows G) as (s' & E & G'). exists s', l.
    split; [cbn [siter]; unfold sbind; rewrite E; reflexivity|]. split; [constructor|].
    cbn [row_items flat_map]. rewrite app_nil_r. exact G'.
  Qed.
  Lemma sim_wrap a evs b its : sim [a] [] -> sim evs its -> sim [b] [] -> sim (a :: evs ++ [b]) its.
  Proof.
    intros Ha He Hb. change (a :: evs ++ [b]) with ([a] ++ (evs ++ [b])).
    replace its with ([] ++ (its ++ [])) by (cbn; apply app_nil_r). apply sim_app; [exact Ha|]. apply sim_app; assumption.
  Qed.

  (** ** Columns *)
  Lemma localname_expanded name : no_brace ns -> (forall c s, name = String c s -> c <> "{"%char) -> localname (expanded ns name) = name.
  Proof.
    intros Hb Hn. unfold expanded. destruct ns as [uri|] eqn:Ens.
    - specialize (Hb uri eq_refl). unfold localname. cbn [String.append]. change (Ascii.eqb "{" "{") with true. cbv iota.
      clear Ens. induction uri as [|c uri IH]; cbn [String.append after_brace].
      + change (Ascii.eqb "}" "}") with true. reflexivity.
      + destruct (Ascii.eqb_spec c "}") as [->|_]; [exfalso; apply Hb; left; reflexivity|]. apply IH. intros H. apply Hb. right. exact H.
    - unfold localname. destruct name as [|c s]; [reflexivity|]. destruct (Ascii.eqb_spec c "{") as [->|_]; [|reflexivity].
      exfalso. exact (Hn _ _ eq_refl eq_refl).
  Qed.

  Hypothesis Hbrace : no_brace ns.

  Lemma localname_of name n : named ns name n -> (forall c s, name = String c s -> c <> "{"%char) -> localname (ostr (x_tag n)) = name.
  Proof. intros Hn Hc. rewrite Hn. cbn [ostr]. apply localname_expanded; assumption. Qed.

  Lemma colspec_number c k m : 0 <= k -> regular_colspec ns c ->
    ((if truthy (pget o c "colnum") then py_int (ostr (pget o c "colnum")) else Ok (k + 1)) = Ok m <-> column_number ns c k m) /\
    (column_number ns c k m -> 1 <= m).
  Proof.
    intros Hk [_ Hreg]. rewrite pget_attribute. unfold column_number. destruct (attribute ns c "colnum") as [[|x s]|]; cbn [truthy ostr].
    - split; [split; congruence|lia].
    - split; [apply py_int_spec|]. apply Hreg. reflexivity.
    - split; [split; congruence|lia].
  Qed.

  Lemma sim_colspec c tg : named ns "colspec" c -> regular_colspec ns c -> named ns "tgroup" tg ->
    sim (walk tags (Some tg) c) [Column c].
  Proof.
    intros Hc Hreg Htg. rewrite (walk_named o "colspec" (Some tg) c ltac:(cbn; tauto) Hc).
    rewrite (flat_map_nil _ (x_children c)) by (intros d Hd; apply walk_foreign, (proj1 Hreg), Hd). cbn [app].
    intros s [r k n g cs] rows (Hd & Hcol & Hpos & Hk & Hlen & t & Et & H). cbn [l_row l_count l_cols l_spots l_styles] in *.
    destruct s as [d0 c0 r0 ro t0]. cbn in Hd, Hcol, Hpos, Et. subst d0 c0 r0 t0.
    remember (run _ _) as out eqn:Eout. symmetry in Eout.
    rewrite run_cons in Eout. unfold sbind at 1 in Eout.
    rewrite (event_start o "colspec" c (Some tg) _ Hc) in Eout by (try discriminate; reflexivity).
    rewrite (on_start_eq o "colspec" c (Some tg) Hc) in Eout. cbv [String.eqb Ascii.eqb Bool.eqb] in Eout. cbn [orb] in Eout. cbv iota in Eout.
    unfold sbind at 1 in Eout. rewrite smodify_eq in Eout.
    change (next_col (MkPState 1 k r ro (Some t))) with (MkPState 1 (k + 1) r ro (Some t)) in Eout.
    unfold parse_cals_colspec in Eout. rewrite (localname_of "tgroup" tg Htg) in Eout by (intros ? ? [= <- _]; discriminate).
    change (str_mem "tgroup" ["table"; "tgroup"]%string) with true in Eout. cbv iota in Eout.
    unfold sbind at 1 2 3 in Eout. unfold slift, sget in Eout. cbn [ps_col] in Eout.
    pose proof (colspec_number c k) as HN.
    destruct (if truthy (pget o c "colnum") then py_int (ostr (pget o c "colnum")) else Ok (k + 1)) as [m|x] eqn:Em.
    - destruct (HN m Hk Hreg) as [HN1 HN2]. assert (Hm : column_number ns c k m) by (apply HN1; reflexivity). specialize (HN2 Hm).
      destruct (colspec_styles_spec o c) as [Hst Hok].
      destruct (agrees_column ns t n g rows cs m c (colspec_styles o c) H HN2 Hst Hok) as (t' & E & H').
      unfold on_table in Eout. cbn [ps_table] in Eout. rewrite E in Eout. cbn [with_table ps_depth ps_col ps_row_pos ps_row] in Eout.
      cbn [siter] in Eout. unfold sbind in Eout. rewrite (event_end o "colspec" c (Some tg) _ Hc) in Eout by (try discriminate; reflexivity).
      rewrite (on_end_eq o "colspec" c Hc) in Eout. cbv [String.eqb Ascii.eqb Bool.eqb sret] in Eout.
      left. exists (MkPState 1 (k + 1) r ro (Some t')), (MkLayout r (k + 1) (Z.max n m) g (colstyles_with ns m c cs)).
      split; [symmetry; exact Eout|]. split; [econstructor; [exact Hm|constructor]|].
      cbn [row_items flat_map app]. rewrite app_nil_r. split; [reflexivity|]. split; [reflexivity|]. split; [reflexivity|].
      split; [cbn; lia|]. split; [exact Hlen|]. exists t'. split; [reflexivity|exact H'].
    - right. do 2 eexists. split; [symmetry; exact Eout|]. intros l' HL. apply lays_column_inv in HL as (m & Hm & _).
      destruct (HN m Hk Hreg) as [HN1 _]. apply HN1 in Hm. discriminate.
  Qed.

  (** ** Rows *)
  Definition section_nature (n : xnode) (na : string) : Prop :=
    (named ns "thead" n /\ na = "header"%string) \/ (named ns "tfoot" n /\ na = "footer"%string) \/
    (named ns "tbody" n /\ na = "body"%string).
  Lemma row_nature_spec sec na : section_nature sec na -> row_nature (Some sec) = Ok (Some na).
  Proof.
    intros [[H ->]|[[H ->]|[H ->]]]; unfold row_nature; rewrite (localname_of _ sec H) by (intros ? ? [= <- _]; discriminate); reflexivity.
  Qed.

  Lemma sim_row sec na row : section_nature sec na -> named ns "row" row -> regular_row ns row ->
    sim (walk tags (Some sec) row) [Row na sec row].
  Proof.
    intros Hsec Hrow Hreg. rewrite (walk_named o "row" (Some sec) row ltac:(cbn; tauto) Hrow).
    intros s [r k n g cs] rows (Hd & Hcol & Hpos & Hk & Hlen & t & Et & H). cbn [l_row l_count l_cols l_spots l_styles] in *.
    destruct s as [d0 c0 r0 ro t0]. cbn in Hd, Hcol, Hpos, Et. subst d0 c0 r0 t0.
    remember (run _ _) as out eqn:Eout. symmetry in Eout.
    rewrite run_cons in Eout. unfold sbind at 1 in Eout.
    rewrite (event_start o "row" row (Some sec) _ Hrow) in Eout by (try discriminate; reflexivity).
    rewrite (on_start_eq o "row" row (Some sec) Hrow) in Eout. cbv [String.eqb Ascii.eqb Bool.eqb] in Eout. cbv iota in Eout.
    unfold sbind at 1 in Eout. rewrite smodify_eq in Eout.
    change (next_row (MkPState 1 k r ro (Some t))) with (MkPState 1 0 (r + 1) None (Some t)) in Eout.
    destruct (agrees_row ns t n g rows cs (r + 1) na sec row (row_styles o row (Some sec)) H ltac:(lia) (row_styles_spec o sec row))
      as (t1 & t2 & t3 & E1 & E2 & E3 & H3).
    assert (Ep : parse_cals_row o row (Some sec) (MkPState 1 0 (r + 1) None (Some t)) = (MkPState 1 0 (r + 1) (Some (r + 1)) (Some t3), Ok tt)).
    { unfold parse_cals_row. rewrite (row_nature_spec sec na Hsec). unfold sbind, slift, sget, smodify, sput, on_table, sbind, sget, sput. cbn [ps_row_pos ps_table].
      rewrite E1. cbn [with_table with_row ps_depth ps_col ps_row_pos ps_row ps_table]. rewrite E2. cbn [with_table with_row ps_depth ps_col ps_row_pos ps_row ps_table].
      rewrite E3. reflexivity. }
    rewrite Ep in Eout.
    rewrite siter_app in Eout. unfold sbind at 1 in Eout.
    remember (run (flat_map (walk tags (Some row)) (x_children row)) (MkPState 1 0 (r + 1) (Some (r + 1)) (Some t3))) as out1 eqn:Eo1. symmetry in Eo1.
    set (rows' := rows ++ [(na, sec, row)]) in *.
    assert (Hnth : nth_error rows' (Z.to_nat (r + 1 - 1)) = Some (na, sec, row)).
    { unfold rows'. rewrite nth_error_app2 by lia. replace (Z.to_nat (r + 1 - 1) - List.length rows)%nat with 0%nat by lia. reflexivity. }
    destruct (entries_sim row (r + 1) na sec row rows' cs ltac:(lia) Hnth (x_children row) t3 0 n g out1 Eo1 Hreg ltac:(lia) H3)
      as [(t4 & n1 & g1 & E4 & Hp & H4)|(s' & x & E4 & Hp)]; rewrite E4 in Eout; clear Eo1 E4.
    2:{ right. do 2 eexists. split; [symmetry; exact Eout|]. intros l' HL. apply lays_row_inv in HL as (n1 & g1 & g2 & Hp' & _). exact (Hp n1 g1 Hp'). }
    cbn [siter] in Eout. unfold sbind at 1 in Eout.
    rewrite (event_end o "row" row (Some sec) _ Hrow) in Eout by (try discriminate; reflexivity).
    rewrite (on_end_eq o "row" row Hrow) in Eout. cbv [String.eqb Ascii.eqb Bool.eqb] in Eout. cbv iota in Eout.
    set (kk := 0 + Z.of_nat (List.length (of_name ns "entry" (x_children row)))) in *.
    unfold end_row in Eout. unfold sbind at 1 2 in Eout. unfold sget in Eout. unfold on_table at 1 in Eout. cbn [ps_table] in Eout.
    destruct (agrees_read_cols ns t4 n1 g1 rows' cs H4) as (vs & Ev & En & H5). rewrite Ev in Eout. rewrite <- En in Eout.
    set (t5 := fst (views_get Cols t4)) in *. clearbody t5. cbn [with_table ps_depth ps_col ps_row_pos ps_row ps_table] in Eout.
    destruct (box_new_form_ok [PInt 1; PInt (r + 1); PInt n1; PInt (r + 1)] 1 (r + 1) n1 (r + 1)) as [Bok Berr]; [constructor; constructor|].
    unfold sbind at 1 in Eout. unfold slift at 1 in Eout.
    destruct (Z_le_gt_dec 1 n1) as [Hn1|Hn1].
    2:{ rewrite Berr in Eout by lia. right. do 2 eexists. split; [symmetry; exact Eout|].
        intros l' HL. apply lays_row_inv in HL as (n1' & g1' & g2 & Hp' & Hn' & _).
        destruct (placed_fun _ _ _ _ _ _ _ _ _ _ _ _ Hp Hp') as [<- _]. lia. }
    rewrite Bok in Eout by lia. cbn [with_table ps_depth ps_col ps_row_pos ps_row ps_table] in Eout.
    destruct (reads_exists Rows (r + 1) t5 (ag_reach _ _ _ _ _ _ H5) ltac:(lia)) as (v & Hv).
    assert (Evg : view_get Rows (r + 1) t5 = (fst (view_get Rows (r + 1) t5), Ok v)).
    { unfold reads in Hv. destruct (view_get Rows (r + 1) t5) as [t6 q]. cbn in *. congruence. }
    pose proof (agrees_nature _ _ _ _ _ _ (r + 1) v na sec row H5 ltac:(lia) Hv Hnth) as Hvn.
    pose proof (agrees_read ns t5 n1 g1 rows' cs (r + 1) H5) as H6. set (t6 := fst (view_get Rows (r + 1) t5)) in *. clearbody t6.
    destruct (agrees_fill ns t6 n1 g1 rows' cs (MkBox (Coord 1 (r + 1)) (Coord n1 (r + 1))) (Some na) H6) as (t7 & g2 & E7 & Hf & H7).
    { unfold valid. cbn. lia. } { cbn. lia. }
    assert (Ef : on_table (v <- view_get Rows (r + 1) ;; table_fill_missing (MkBox (Coord 1 (r + 1)) (Coord n1 (r + 1))) CNone None (v_nature v))
                   (MkPState 1 kk (r + 1) (Some (r + 1)) (Some t5)) = (MkPState 1 kk (r + 1) (Some (r + 1)) (Some t7), Ok tt)).
    { unfold on_table, sbind. cbn [ps_table]. rewrite Evg, Hvn, E7. reflexivity. }
    change (with_table (Some t5) (MkPState 1 kk (r + 1) (Some (r + 1)) (Some t4))) with (MkPState 1 kk (r + 1) (Some (r + 1)) (Some t5)) in Eout.
    rewrite Ef in Eout. unfold sret in Eout.
    left. exists (MkPState 1 kk (r + 1) (Some (r + 1)) (Some t7)), (MkLayout (r + 1) kk n1 g2 cs).
    split; [symmetry; exact Eout|]. split.
    - econstructor; eauto. replace (Z.of_nat (List.length (of_name ns "entry" (x_children row)))) with kk by (unfold kk; lia). constructor.
    - cbn [row_items flat_map app]. split; [reflexivity|]. split; [reflexivity|]. split; [reflexivity|].
      split; [cbn; unfold kk; lia|]. split; [cbn; rewrite app_length; cbn; lia|]. exists t7. split; [reflexivity|exact H7].
  Qed.

  (** ** Sections, tgroups *)
  Lemma of_name_flat name cs (h : xnode -> item) :
    map h (of_name ns name cs) = flat_map (fun c => if has_name ns name c then [h c] else []) cs.
  Proof.
    induction cs as [|c cs IH]; cbn [of_name filter flat_map map]; [reflexivity|].
    fold (of_name ns name cs). rewrite <- IH. unfold has_name. destruct (x_has_tag c (expanded ns name)); reflexivity.
  Qed.
  Lemma sim_section tg sec na : section_nature sec na -> regular_section ns sec ->
    sim (walk tags (Some tg) sec) (map (Row na sec) (of_name ns "row" (x_children sec))).
  Proof.
    intros Hna Hreg.
    assert (Hname : exists name, In name ["tbody"; "tfoot"; "thead"]%string /\ named ns name sec).
    { destruct Hna as [[H _]|[[H _]|[H _]]]; eexists; (split; [|exact H]); cbn; tauto. }
    destruct Hname as (name & Hin & Hsec).
    assert (Hin' : In name cals_names) by (cbn in *; intuition).
    assert (Hnt : name <> "table"%string) by (intros ->; cbn in Hin; intuition discriminate).
    rewrite (walk_named o name (Some tg) sec Hin' Hsec). apply sim_wrap.
    - apply sim_silent. intros s l rows G. exists s. split; [|exact G].
      rewrite (event_start o name sec (Some tg) s Hsec Hnt) by apply G. rewrite (on_start_eq o name sec (Some tg) Hsec).
      cbn in Hin. destruct Hin as [<-|[<-|[<-|[]]]]; reflexivity.
    - rewrite of_name_flat. apply sim_flat. intros c Hc. unfold has_name.
      destruct (Hreg c Hc) as [Hf|[Hr Hrr]].
      + rewrite (walk_foreign o c Hf), (has_tag_foreign c "row") by (try exact Hf; cbn; tauto). apply sim_nil.
      + rewrite (has_tag_named c _ _ Hr). change (String.eqb "row" "row") with true. cbv iota. apply sim_row; assumption.
    - apply sim_silent. intros s l rows G. exists s. split; [|exact G].
      rewrite (event_end o name sec (Some tg) s Hsec Hnt) by apply G. rewrite (on_end_eq o name sec Hsec).
      cbn in Hin. destruct Hin as [<-|[<-|[<-|[]]]]; reflexivity.
  Qed.

  Lemma sim_tgroup e tg : named ns "tgroup" tg -> regular_tgroup ns tg ->
    sim (walk tags (Some e) tg) (flat_map (part_items ns) (x_children tg)).
  Proof.
    intros Htg Hreg. rewrite (walk_named o "tgroup" (Some e) tg ltac:(cbn; tauto) Htg). apply sim_wrap.
    - apply sim_silent. intros s l rows (Hd & Hcol & Hpos & Hk & Hlen & t & Et & H).
      rewrite (event_start o "tgroup" tg (Some e) s Htg ltac:(discriminate) Hd). rewrite (on_start_eq o "tgroup" tg (Some e) Htg).
      cbv [String.eqb Ascii.eqb Bool.eqb]. cbn [orb]. cbv iota. unfold parse_cals_tgroup, on_table. rewrite Et. unfold sbind, sget, sput.
      eexists. split; [reflexivity|]. split; [exact Hd|]. split; [exact Hcol|]. split; [exact Hpos|]. split; [exact Hk|]. split; [exact Hlen|].
      eexists. split; [reflexivity|]. exact (agrees_restyle ns t _ _ _ _ _ _ H).
    - apply sim_flat. intros c Hc. unfold part_items, has_name.
      destruct (Hreg c Hc) as [Hf|[[Hco Hcr]|[Hsec Hsr]]].
      + rewrite (walk_foreign o c Hf). rewrite !(has_tag_foreign c) by (try exact Hf; cbn; tauto). apply sim_nil.
      + rewrite (has_tag_named c _ _ Hco). change (String.eqb "colspec" "colspec") with true. cbv iota. apply sim_colspec; assumption.
      + destruct Hsec as [H|[H|H]]; rewrite !(has_tag_named c _ _ H); cbv [String.eqb Ascii.eqb Bool.eqb]; cbv iota;
          apply sim_section; try assumption; unfold section_nature; tauto.
    - apply sim_silent. intros s l rows G. exists s. split; [|exact G].
      rewrite (event_end o "tgroup" tg (Some e) s Htg ltac:(discriminate)) by apply G. rewrite (on_end_eq o "tgroup" tg Htg). reflexivity.
  Qed.

  Lemma sim_table_children e :
    (forall c, In c (x_children e) -> foreign ns c \/ (named ns "tgroup" c /\ regular_tgroup ns c)) ->
    sim (flat_map (walk tags (Some e)) (x_children e)) (items ns e).
  Proof.
    intros Hreg. unfold items.
    replace (flat_map (fun tg => flat_map (part_items ns) (x_children tg)) (of_name ns "tgroup" (x_children e)))
      with (flat_map (fun c => if has_name ns "tgroup" c then flat_map (part_items ns) (x_children c) else []) (x_children e)).
    - apply sim_flat. intros c Hc. unfold has_name. destruct (Hreg c Hc) as [Hf|[Ht Htr]].
      + rewrite (walk_foreign o c Hf), (has_tag_foreign c "tgroup") by (try exact Hf; cbn; tauto). apply sim_nil.
      + rewrite (has_tag_named c _ _ Ht). change (String.eqb "tgroup" "tgroup") with true. cbv iota. apply sim_tgroup; assumption.
    - clear. induction (x_children e) as [|c cs IH]; cbn [flat_map of_name filter]; [reflexivity|].
      fold (of_name ns "tgroup" cs). rewrite IH. unfold has_name. destruct (x_has_tag c (expanded ns "tgroup")); reflexivity.
  Qed.

  (** ** The whole table *)
  Lemma agrees_empty s na : agrees ns (MkTable [] None None s na) 0 [] [] (fun _ _ => None).
  Proof.
    split.
    - apply (treach_new [] (Some s) na). reflexivity.
    - exists []. split; [reflexivity|constructor].
    - split; reflexivity.
    - intros i. cbn. destruct i; reflexivity.
    - intros i. split; [reflexivity|]. intros k. reflexivity.
  Qed.

  (** The row the parser has come to at the end *)
  Definition ends_at (e : xnode) (t : table) (k : Z) : Prop :=
    exists s, run (walk tags None e) pstate_reset = (s, Ok tt) /\ ps_table s = Some t /\ ps_row_pos s = k.
  Theorem parse_table_sim e : regular ns e ->
    match parse_table o e with
    | Ok t => exists l g, laid_out ns true e l g /\ agrees ns t (l_cols l) g (row_items (items ns e)) (l_styles l) /\ ends_at e t (l_row l)
    | Err _ => (exists x, table_style_attrs o e = Err x) \/ forall l g, ~ laid_out ns true e l g
    end.
  Proof.
    intros [He Hreg]. unfold parse_table.
    destruct (siter (parse_event o) _ pstate_reset) as [sf rf] eqn:Eout. pose proof Eout as Erun. rewrite (walk_named o "table" None e ltac:(cbn; tauto) He) in Eout.
    rewrite run_cons in Eout. unfold sbind at 1 in Eout.
    assert (Est : parse_event o (MkEvent true e None) pstate_reset = parse_cals_table o e (MkPState 1 0 0 None None)).
    { unfold parse_event, smodify, sbind, sget, sput. rewrite (depth_table o _ _ _ _ He).
      cbn [ps_depth pstate_reset with_depth ps_col ps_row_pos ps_row ps_table ev_start ev_elem ev_parent]. change (1 <? 0 + 1) with false. cbv iota.
      rewrite (on_start_eq o "table" e None He). reflexivity. }
    assert (Ep : parse_cals_table o e (MkPState 1 0 0 None None) =
                 match table_style_attrs o e with
                 | Ok a => (MkPState 1 0 0 None (Some (MkTable [] None None (fst a) (snd a))), Ok tt)
                 | Err x => (MkPState 1 0 0 None None, Err x)
                 end).
    { unfold parse_cals_table, sbind, slift. destruct (table_style_attrs o e) as [[st na]|x]; reflexivity. }
    rewrite Est, Ep in Eout. destruct (table_style_attrs o e) as [[st na]|x] eqn:Ea.
    2:{ injection Eout as <- <-. cbn [rbind]. left. eauto. }
    cbn [fst snd] in Eout.
    rewrite siter_app in Eout. unfold sbind at 1 in Eout.
    set (l0 := MkLayout 0 0 0 [] (fun _ _ => None)).
    assert (G0 : good (MkPState 1 0 0 None (Some (MkTable [] None None st na))) l0 []).
    { split; [reflexivity|]. split; [reflexivity|]. split; [reflexivity|]. split; [cbn; lia|]. split; [reflexivity|].
      eexists. split; [reflexivity|]. apply agrees_empty. }
    destruct (sim_table_children e Hreg _ _ _ G0) as [(s1 & l1 & E1 & L1 & G1)|(s1 & x & E1 & L1)]; rewrite E1 in Eout.
    2:{ injection Eout as <- <-. cbn [rbind]. right. intros l g [HL _]. exact (L1 l HL). }
    cbn [app] in G1. destruct G1 as (Hd & Hcol & Hpos & Hk & Hlen & t1 & Et & H1).
    cbn [siter] in Eout. unfold sbind at 1 in Eout.
    assert (Een : parse_event o (MkEvent false e None) s1 = end_table (with_depth 0 s1)).
    { unfold parse_event, smodify, sbind, sget, sput. rewrite (depth_table o _ _ _ _ He). rewrite Hd.
      cbn [ps_depth with_depth ev_start ev_elem]. change (1 <? 1 - 1) with false. cbv iota.
      rewrite (on_end_eq o "table" e He). reflexivity. }
    rewrite Een in Eout.
    destruct (l_spots l1) as [|s0 g0] eqn:Es.
    - destruct (end_table_cases (with_depth 0 s1) t1 Et (ag_reach _ _ _ _ _ _ H1)) as [[_ E2]|(bb & Hb & E2)].
      + rewrite E2 in Eout. injection Eout as <- <-. cbn [rbind]. right. intros l g (HL & bb & Hb & _).
        rewrite (lays_fun _ _ _ _ _ _ HL L1), Es in Hb. destruct Hb as (Vb & _ & Hb). cbn [map] in Hb.
        specialize (Hb (MkBox (Coord (cx (bmax bb) + 1) 1) (Coord (cx (bmax bb) + 1) 1)) ltac:(unfold valid in *; cbn; lia) ltac:(intros c []) (bmin bb)).
        unfold covers, valid in *. cbn in Hb. lia.
      + exfalso. destruct Hb as (Vb & _ & Hb).
        assert (Hg : table_iter t1 = []) by (apply (pictures_nil ns _ _ (ag_cells _ _ _ _ _ _ H1)); reflexivity). rewrite Hg in Hb.
        specialize (Hb (MkBox (Coord (cx (bmax bb) + 1) 1) (Coord (cx (bmax bb) + 1) 1)) ltac:(unfold valid in *; cbn; lia) ltac:(intros c []) (bmin bb)).
        unfold covers, valid in *. cbn in Hb. lia.
    - destruct (end_table_agrees (with_depth 0 s1) t1 _ s0 g0 _ _ H1 Et) as (bb & t2 & g2 & Hb & Hf & E2 & H2).
      rewrite E2 in Eout. injection Eout as <- <-. cbn [rbind with_table with_depth ps_table].
      exists l1, g2. split; [|split; [exact H2|]].
      + split; [exact L1|]. exists bb. rewrite Es. auto.
      + eexists. split; [exact Erun|]. split; [reflexivity|exact Hpos].
  Qed.
End Sim.
