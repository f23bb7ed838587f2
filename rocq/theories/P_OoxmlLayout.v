(** * Word tables: the table built by the parser follows the visible regions *)
From Verif Require Import Base M_Geometry M_Xml M_Cell M_Grid M_Table M_CalsParser M_Ooxml.
From Verif Require Import S_Geometry S_Grid S_Table S_Int S_CalsParser S_Ooxml.
From Verif Require Import P_Geometry P_Cell P_Grid P_GridFacts P_Table P_TableStep P_TableFacts P_TableMore P_CalsParser P_CalsLayout P_CalsEvents P_OoxmlPath P_OoxmlRegions P_OoxmlEvents.
Open Scope string_scope.
Open Scope list_scope.
Open Scope Z_scope.

(** ** Expanding a cell when nothing else is in the way *)

Lemma filter_only {A} (f : A -> bool) l a : NoDup l -> In a l -> f a = true -> (forall b, In b l -> f b = true -> b = a) -> filter f l = [a].
Proof.
  induction l as [|b l IH]; intros HN Ha Hf Ho; [destruct Ha|]. inversion HN; subst. cbn. destruct (f b) eqn:Eb.
  - assert (b = a) by (apply Ho; [left; reflexivity|exact Eb]). subst b. f_equal.
    destruct (filter f l) as [|c m] eqn:E; [reflexivity|]. exfalso.
    assert (Hc : In c (filter f l)) by (rewrite E; left; reflexivity). apply filter_In in Hc as [Hc Ec].
    assert (c = a) by (apply Ho; [right; exact Hc|exact Ec]). subst c. contradiction.
  - destruct Ha as [->|Ha]; [congruence|]. apply IH; auto. intros c Hc. apply Ho. right. exact Hc.
Qed.

Lemma expand_alone g v c h app :
  grid_inv g -> grid_getitem g v = Ok c -> 0 <= h ->
  (forall d, In d g -> d = c \/ (~ subarea (c_box d) (MkBox (bmin (c_box c)) (Coord (cx (bmax (c_box c))) (cy (bmax (c_box c)) + h))) /\
                               ~ clash (c_box d) (MkBox (bmin (c_box c)) (Coord (cx (bmax (c_box c))) (cy (bmax (c_box c)) + h))))) ->
  exists g', grid_expand v 0 h app g =
      (g', Ok (MkCell (c_content c) (c_styles c) (c_nature c) (MkBox (bmin (c_box c)) (Coord (cx (bmax (c_box c))) (cy (bmax (c_box c)) + h))))) /\
    forall d, In d g' <->
      d = MkCell (c_content c) (c_styles c) (c_nature c) (MkBox (bmin (c_box c)) (Coord (cx (bmax (c_box c))) (cy (bmax (c_box c)) + h))) \/
      (In d g /\ c_box d <> c_box c).
Proof.
  intros HI Hc Hh Ho. set (a := MkBox (bmin (c_box c)) (Coord (cx (bmax (c_box c))) (cy (bmax (c_box c)) + h))) in *.
  assert (Hcg : In c g).
  { destruct (getitem_cases g v) as [(E1 & _)|(co & _ & [(d & Ed & Hd & _)|(E1 & _)])]; congruence. }
  assert (Vc : valid (c_box c)) by (apply (inv_valid g); auto).
  assert (Hsub : insideb a c = true).
  { apply insideb_inside; [exact Vc|]. intros [x y]. unfold covers, a. cbn. lia. }
  assert (Hf : filter (insideb a) g = [c]).
  { apply filter_only; auto; [apply in_order_NoDup, HI|]. intros d Hd Ed. destruct (Ho d Hd) as [E|[N _]]; [exact E|].
    apply insideb_inside in Ed; [contradiction|]. apply (inv_valid g); auto. }
  assert (Va : valid a) by (unfold valid, a in *; cbn; lia).
  destruct (grid_expand_cases v 0 h app g) as [(e & E1 & _)|(c1 & Hc1 & E)]; [congruence|].
  rewrite Hc in Hc1. injection Hc1 as <-. rewrite E. clear E.
  unfold c_min, c_max. rewrite Z.add_0_r.
  destruct (grid_merge_cases (PCoord (bmin (c_box c))) (PCoord (Coord (cx (bmax (c_box c))) (cy (bmax (c_box c)) + h))) app g)
    as [(e & E & H)|(a1 & b1 & f & l & r & Ha & Hb & V & Hcl & Hfl & Hm & Hbox & Hna & E)].
  - exfalso. destruct H as [[_ [H|H]]|(a1 & b1 & Ha & Hb & H)]; [discriminate|discriminate|].
    assert (a1 = bmin (c_box c)) by (inversion Ha; reflexivity); subst a1. assert (b1 = Coord (cx (bmax (c_box c))) (cy (bmax (c_box c)) + h)) by (inversion Hb; reflexivity); subst b1. fold a in H. destruct H as [[_ [H|[(d & Hd & Ei & Hcl)|H]]]|(_ & _ & f & l & Hfl & Hm)].
    + contradiction.
    + destruct (Ho d Hd) as [->|[_ N]]; [congruence|contradiction].
    + rewrite (H c Hcg) in Hsub. discriminate.
    + rewrite Hf in Hfl. injection Hfl as <- <-. cbn in Hm. discriminate.
  - assert (a1 = bmin (c_box c)) by (inversion Ha; reflexivity); subst a1. assert (b1 = Coord (cx (bmax (c_box c))) (cy (bmax (c_box c)) + h)) by (inversion Hb; reflexivity); subst b1. fold a in V, Hcl, Hfl, Hm, Hbox, E. rewrite Hf in Hfl. injection Hfl as <- <-. cbn in Hm. injection Hm as <-.
    cbv zeta in E. rewrite E. eexists. split; [reflexivity|]. intros d.
    destruct (merge_success _ _ _ _ _ _ HI E) as (a1 & b1 & f & l & rest & Ha1 & Hb1 & _ & _ & Hrest & _ & _ & _ & HP & _).
    assert (a1 = bmin (c_box c)) by (inversion Ha1; reflexivity); subst a1. assert (b1 = Coord (cx (bmax (c_box c))) (cy (bmax (c_box c)) + h)) by (inversion Hb1; reflexivity); subst b1. fold a in Hrest.
    assert (HPd : In d (fst (grid_insert_sorted (MkCell (c_content c) (c_styles c) (c_nature c) a) (filter (fun c0 => negb (insideb a c0)) g))) <->
                  In d (MkCell (c_content c) (c_styles c) (c_nature c) a :: rest)).
    { split; intros H; [rewrite <- HP|rewrite HP]; exact H. }
    rewrite HPd. cbn [In]. rewrite (selects_In _ _ _ d Hrest). split.
    + intros [<-|[Hd Hn]]; [auto|]. right. split; [exact Hd|]. intros Eb. apply Hn. unfold inside. rewrite Eb.
      apply insideb_inside; assumption.
    + intros [->|[Hd Hn]]; [auto|]. right. split; [exact Hd|]. intros Hin. destruct (Ho d Hd) as [->|[N _]]; [congruence|contradiction].
Qed.

Lemma last_col_is t n m : treachable t -> last_pos Cols t n ->
  (forall c, In c (t_grid t) -> cx (bmax (c_box c)) <= m) -> (exists c, In c (t_grid t) /\ m <= cx (bmax (c_box c))) -> n = m.
Proof.
  intros HR HL Hup (c & Hc & Hm). destruct (treachable_tinv t HR) as (o & HS & HM).
  assert (HV : all_valid (t_grid t)) by apply HM.
  destruct HL as [[E _]|(bb & E & ->)]; [rewrite E in Hc; destruct Hc|].
  assert (HB : bounds (t_grid t) bb). { apply grid_bounds; [exact HV| |exact E]. intros Eg. rewrite Eg in Hc. destruct Hc. }
  destruct HB as (V & H1 & H2). unfold all_valid in HV; rewrite Forall_forall in HV.
  pose proof (HV c Hc) as Vc.
  assert (G1 : covers bb (bmax (c_box c))) by (apply (H1 c Hc); unfold covers, valid in *; lia).
  assert (Hb : subarea bb (MkBox (Coord 1 1) (Coord m (cy (bmax bb))))).
  { pose proof (Hup c Hc). apply H2; [unfold valid, covers in *; cbn; lia|]. intros d Hd [x y] Hx. pose proof (HV d Hd) as Vd. pose proof (Hup d Hd).
    pose proof (H1 d Hd (Coord x y) Hx) as G. unfold covers, valid in *. cbn in *. lia. }
  pose proof (Hb (bmax bb)) as G. unfold covers, valid in *. cbn in *. lia.
Qed.
Lemma last_row_ge t n c : treachable t -> last_pos Rows t n -> In c (t_grid t) -> cy (bmax (c_box c)) <= n.
Proof.
  intros HR HL Hc. destruct (treachable_tinv t HR) as (o & HS & HM).
  assert (HV : all_valid (t_grid t)) by apply HM.
  destruct HL as [[E _]|(bb & E & ->)]; [rewrite E in Hc; destruct Hc|].
  assert (HB : bounds (t_grid t) bb). { apply grid_bounds; [exact HV| |exact E]. intros Eg. rewrite Eg in Hc. destruct Hc. }
  destruct HB as (V & H1 & H2). unfold all_valid in HV; rewrite Forall_forall in HV. pose proof (HV c Hc) as Vc.
  assert (G1 : covers bb (bmax (c_box c))) by (apply (H1 c Hc); unfold covers, valid in *; lia).
  unfold covers in G1. lia.
Qed.

(** ** The invariants *)

Section Layout.
  (** The columns of the grid, and what was set for each of them *)
  Variable gcols : nat.
  Variable cw : nat -> styles * nature.
  Notation cols := (Z.of_nat gcols).
  (** The styles read on a cell; the styles read on each row *)
  Variable look : xnode -> result styles.
  Variable rs : nat -> styles.
  Definition looked (rows : list wrow) (d : cell) : Prop :=
    (c_content d = CNone /\ c_styles d = []) \/
    exists r row c, row_at rows r row /\ In c (wr_slots row) /\ sl_continues c = false /\
      bmin (c_box d) = Coord (sl_start c) r /\ look (sl_cell c) = Ok (c_styles d).
  Definition rows_styled (n : nat) (t : table) : Prop :=
    forall i k, dget (fst (attr Rows t i)) k = if Nat.ltb i n then dget (rs i) k else None.
  Lemma looked_slot done cur c d : looked (done ++ [cur]) d -> looked (done ++ [add_slot cur c]) d.
  Proof.
    intros [H|(r & row & c' & Hr & Hc & X)]; [left; exact H|right]. apply row_at_app in Hr as [Hr|[-> ->]].
    - exists r, row, c'. split; [apply row_at_app; auto|auto].
    - eexists _, (add_slot cur c), c'. split; [apply row_at_app; right; split; reflexivity|]. split; [apply in_app_iff; auto|exact X].
  Qed.
  Lemma looked_row done cur d : looked done d -> looked (done ++ [cur]) d.
  Proof.
    intros [H|(r & row & c' & Hr & X)]; [left; exact H|right]. exists r, row, c'. split; [apply row_at_app; auto|exact X].
  Qed.

  Record laid (t : table) (done : list wrow) (cur : wrow) : Prop := {
    la_reach : treachable t;
    la_cells : forall ct na b, (exists st, In (MkCell ct st na b) (table_iter t)) <-> drawn cols done cur ct na b;
    la_count : colcount t (Z.max (widest cols done (Z.of_nat (List.length done))) (row_width cur));
    la_rows : forall q row, row_at (done ++ [cur]) q row -> snd (attr Rows t (Z.to_nat (q - 1))) = Some (wr_nature row);
    la_cols : forall i, (i < gcols)%nat -> attr Cols t i = cw i;
    la_looks : forall d, In d (table_iter t) -> looked (done ++ [cur]) d;
    la_styled : rows_styled (S (List.length done)) t }.

  Record read (t : table) (done : list wrow) : Prop := {
    rd_reach : treachable t;
    rd_cells : forall ct na b, (exists st, In (MkCell ct st na b) (table_iter t)) <-> displayed cols done ct na b;
    rd_count : colcount t (widest cols done (Z.of_nat (List.length done)));
    rd_rows : forall q row, row_at done q row -> snd (attr Rows t (Z.to_nat (q - 1))) = Some (wr_nature row);
    rd_cols : forall i, (i < gcols)%nat -> attr Cols t i = cw i;
    rd_looks : forall d, In d (table_iter t) -> looked done d;
    rd_styled : rows_styled (List.length done) t }.

  Lemma cell_eta c : c = MkCell (c_content c) (c_styles c) (c_nature c) (c_box c).
  Proof. destruct c; reflexivity. Qed.
  Lemma laid_in t done cur d : laid t done cur -> In d (table_iter t) -> drawn cols done cur (c_content d) (c_nature d) (c_box d).
  Proof. intros H Hd. apply (la_cells _ _ _ H). exists (c_styles d). rewrite <- cell_eta. exact Hd. Qed.
  Lemma laid_covered t done cur x y : laid t done cur -> sound done cur ->
    ((exists d, In d (table_iter t) /\ covers (c_box d) (Coord x y)) <->
     1 <= x /\ ((1 <= y <= Z.of_nat (List.length done) /\ x <= widest cols done y) \/
               (y = Z.of_nat (List.length done) + 1 /\ x <= row_width cur))).
  Proof.
    intros H HS. split.
    - intros (d & Hd & Hc). eapply drawn_covers; [exact HS|eapply laid_in; eauto|exact Hc].
    - intros [Hx HX]. destruct (covers_drawn cols done cur x y HS Hx HX) as (ct & na & b & HD & Hc).
      apply (la_cells _ _ _ H) in HD as (st & HD). exists (MkCell ct st na b). auto.
  Qed.

  Lemma row_at_last done cur : row_at (done ++ [cur]) (Z.of_nat (List.length done) + 1) cur.
  Proof. apply row_at_app. auto. Qed.

  (** ** A new cell *)

  Lemma laid_insert t done cur c st : laid t done cur -> sound done (add_slot cur c) -> sl_continues c = false -> look (sl_cell c) = Ok st ->
    exists t', insert_cell Rows (Z.of_nat (List.length done) + 1) (shape c) (Some st) None (sl_width c) 1 t = (t', Ok tt) /\
      laid t' done (add_slot cur c).
  Proof.
    intros HL HS Hk Hlook. set (r := Z.of_nat (List.length done) + 1). assert (Hr : 1 <= r) by (unfold r; lia).
    pose proof HL as [HR HC HN HRo HCo HLo HSt].
    assert (HS0 : sound done cur). { apply (sound_prefix done cur (add_slot cur c)); [|exact HS]. split; [reflexivity|]. exists [c]. reflexivity. }
    pose proof HS as (_ & HNeat & _). unfold neat, add_slot in HNeat. cbn in HNeat. apply tiled_app in HNeat as [T1 T2].
    pose proof (tiled_total _ _ T1) as Hk0. inversion T2 as [|? ? ? Hst Hw _]; subst. clear T2.
    rewrite Z.add_0_l in Hst. rewrite <- row_width_total in Hst, Hk0.
    destruct (reads_exists Rows r t HR Hr) as (v & Hv).
    assert (Hna : v_nature v = Some (wr_nature cur)).
    { pose proof (HRo r cur (row_at_last done cur)) as X. rewrite (attr_at Rows r t v HR Hr Hv) in X. exact X. }
    assert (Hfree : forall j, 1 <= j -> (free (table_iter t) (Coord j r) <-> row_width cur < j)).
    { intros j Hj. split.
      - intros Hf. destruct (Z_lt_ge_dec (row_width cur) j) as [|G]; [assumption|]. exfalso.
        destruct (proj2 (laid_covered t done cur j r HL HS0)) as (d & Hd & Hc); [split; [exact Hj|right; unfold r; lia]|].
        exact (Hf d Hd Hc).
      - intros Hj' d Hd Hc. destruct (proj1 (laid_covered t done cur j r HL HS0)) as [_ [H|H]]; [eauto| |]; unfold r in *; lia. }
    destruct (insert_cell_spec Rows r (shape c) (Some st) None (sl_width c) 1 t v HR Hr Hv) as (i & Hi & Hf & Hbefore & Hcase).
    cbn [at_pos] in Hf, Hbefore.
    assert (Ei : i = row_width cur + 1).
    { apply Hfree in Hf; [|exact Hi]. destruct (Z.eq_dec i (row_width cur + 1)); [assumption|]. exfalso.
      apply (Hbefore (row_width cur + 1)); [lia|]. apply Hfree; lia. }
    assert (Eseat : seat Rows r i (sl_width c) 1 = region_box c r r).
    { unfold seat, region_box. rewrite Hst, Ei. f_equal. f_equal; lia. }
    cbv zeta in Hcase. rewrite Eseat in Hcase. cbn [styles_of] in Hcase. rewrite Hna in Hcase.
    destruct Hcase as [[Hn _]|(_ & _ & [[(d & Hd & Hcl) _]|(_ & t' & E & HP)])]; [exfalso; lia| |].
    { exfalso. destruct (treachable_tinv t HR) as (o & HS1 & HM). assert (Vd : valid (c_box d)) by (apply (inv_valid (t_grid t)); [apply HM|exact Hd]).
      assert (Vr : valid (region_box c r r)) by (unfold valid, region_box; cbn; lia).
      destruct (clash_overlap _ _ Vd Vr Hcl) as ([x y] & H1 & H2).
      unfold covers, region_box in H2. cbn in H2. assert (y = r) by lia. subst y.
      destruct (proj1 (laid_covered t done cur x r HL HS0)) as [_ [H|H]]; [eauto| |]; unfold r in *; lia. }
    exists t'. split; [exact E|].
    assert (Est : t' = fst (tstep (TInsert Rows r (shape c) (Some st) None (sl_width c) 1) t)) by (cbn [tstep]; rewrite E; reflexivity).
    assert (HR' : treachable t') by (rewrite Est; apply treach_step, HR).
    split.
    - exact HR'.
    - intros ct na b. rewrite drawn_insert by exact Hk. rewrite <- HC. fold r. split.
      + intros (s & Hs). assert (Hs' : In (MkCell ct s na b) (MkCell (shape c) st (Some (wr_nature cur)) (region_box c r r) :: table_iter t)) by (rewrite <- HP; exact Hs).
        destruct Hs' as [X|X]; [injection X as <- _ <- <-; auto|eauto].
      + intros [(s & Hs)|(-> & -> & ->)].
        * exists s. rewrite HP. right. exact Hs.
        * exists st. rewrite HP. left. reflexivity.
    - assert (HFF : first_free Rows r i (table_iter t)) by (split; [exact Hi|split; [exact Hf|exact Hbefore]]).
      pose proof (insert_colcount t r (shape c) (Some st) None (sl_width c) 1 t' _ i HR Hr E HN HFF) as X.
      replace (Z.max _ (row_width (add_slot cur c))) with (Z.max (Z.max (widest cols done (Z.of_nat (List.length done))) (row_width cur)) (i + sl_width c - 1)); [exact X|].
      rewrite (row_width_total (add_slot cur c)). cbn [add_slot wr_slots]. rewrite total_app, total_cons, total_nil, <- row_width_total. lia.
    - intros q row Hq. assert (Eq : exists row', row_at (done ++ [cur]) q row' /\ wr_nature row' = wr_nature row).
      { apply row_at_app in Hq as [Hq|[-> ->]]; [exists row|exists cur]; (split; [apply row_at_app; auto|reflexivity]). }
      destruct Eq as (row' & Hq' & <-). rewrite <- (HRo q row' Hq'). rewrite Est. f_equal. apply attr_keep; [exact HR|reflexivity|intros []].
    - intros i0 Hi0. rewrite <- (HCo i0 Hi0). rewrite Est. apply attr_keep; [exact HR|reflexivity|intros []].
    - intros d Hd. rewrite HP in Hd. destruct Hd as [<-|Hd]; [|apply looked_slot, HLo, Hd]. right.
      exists r, (add_slot cur c), c. split; [apply row_at_app; right; split; reflexivity|]. split; [apply in_app_iff; right; left; reflexivity|].
      split; [exact Hk|]. split; [reflexivity|exact Hlook].
    - intros i0 k. rewrite <- (HSt i0 k). rewrite Est. f_equal. f_equal. apply attr_keep; [exact HR|reflexivity|intros []].
  Qed.

  (** ** A cell which continues the one above *)

  Lemma laid_expand t done cur c : laid t done cur -> sound done (add_slot cur c) -> sl_continues c = true ->
    exists t', table_expand (PTuple [PInt (row_width cur + sl_width c); PInt (Z.of_nat (List.length done))]) 0 1 None t = (t', Ok tt) /\
      laid t' done (add_slot cur c).
  Proof.
    intros HL HS Hk. set (r := Z.of_nat (List.length done) + 1). assert (Hr : 1 <= r) by (unfold r; lia).
    pose proof HL as [HR HC HN HRo HCo HLo HSt].
    assert (HS0 : sound done cur). { apply (sound_prefix done cur (add_slot cur c)); [|exact HS]. split; [reflexivity|]. exists [c]. reflexivity. }
    pose proof HS as (_ & HNeat & _). unfold neat, add_slot in HNeat. cbn in HNeat. apply tiled_app in HNeat as [T1 T2].
    pose proof (tiled_total _ _ T1) as Hk0. inversion T2 as [|? ? ? Hst Hw _]; subst. clear T2.
    rewrite Z.add_0_l in Hst. rewrite <- row_width_total in Hst, Hk0.
    destruct (drawn_expand cols done cur c HS Hk) as (r0 & row0 & c0 & Hrow0 & Hc0 & Hk0c & [Hs0 Hw0] & HD & Hchange).
    fold r in HD, Hchange. set (B := region_box c0 r0 (r - 1)) in *. set (B' := region_box c0 r0 r) in *.
    pose proof (row_at_le _ _ _ Hrow0) as Hr0.
    assert (EB : B = MkBox (Coord (row_width cur + 1) r0) (Coord (row_width cur + sl_width c) (r - 1))).
    { unfold B, region_box. rewrite Hs0, Hw0, Hst. f_equal. f_equal. lia. }
    assert (EB' : B' = MkBox (Coord (row_width cur + 1) r0) (Coord (row_width cur + sl_width c) r)).
    { unfold B', region_box. rewrite Hs0, Hw0, Hst. f_equal. f_equal. lia. }
    apply HC in HD as (st0 & HD). set (C := MkCell (shape c0) st0 (Some (wr_nature row0)) B) in *.
    destruct (treachable_tinv t HR) as (o & HS1 & HM). assert (HI : grid_inv (t_grid t)) by apply HM.
    assert (HCcov : covers (c_box C) (Coord (row_width cur + sl_width c) (r - 1))).
    { cbn [c_box C]. rewrite EB. unfold covers. cbn. unfold r in *. lia. }
    assert (Hget : grid_getitem (t_grid t) (PTuple [PInt (row_width cur + sl_width c); PInt (r - 1)]) = Ok C).
    { destruct (getitem_cases (t_grid t) (PTuple [PInt (row_width cur + sl_width c); PInt (r - 1)])) as [(_ & _ & X)|(co & Hco & X)].
      - exfalso. apply (X (Coord (row_width cur + sl_width c) (r - 1))). constructor.
      - assert (co = Coord (row_width cur + sl_width c) (r - 1)).
        { inversion Hco; reflexivity. }
        subst co. destruct X as [(d & Ed & Hd & Hcd & _)|(_ & _ & X)]; [|exfalso; exact (X C HD HCcov)].
        rewrite Ed. f_equal. assert (Vd : valid (c_box d)) by (apply (inv_valid (t_grid t)); auto).
        destruct HI as (HV & HO & HCl). apply (no_clash_In (t_grid t)); auto.
        right. right. right. cbn [c_box C]. rewrite EB. exact Hcd. }
    assert (Hgr : widest cols done (r - 1) >= row_width cur + sl_width c).
    { destruct (proj1 (laid_covered t done cur (row_width cur + sl_width c) (r - 1) HL HS0)) as [_ [[_ X]|[X _]]]; [eauto|lia|unfold r in *; lia]. }
    destruct (expand_alone (t_grid t) _ C 1 None HI Hget ltac:(lia)) as (g' & Eg & Hg').
    { intros d Hd. cbn [c_box C]. assert (Vd : valid (c_box d)) by (apply (inv_valid (t_grid t)); auto).
      assert (VB : valid B) by (rewrite EB; unfold valid; cbn; unfold r in *; lia).
      destruct (clash_dec (c_box d) B) as [Hcl|Hcl].
      - left. destruct HI as (HV & HO & HCl). apply (no_clash_In (t_grid t)); auto.
      - right. assert (HB' : MkBox (bmin B) (Coord (cx (bmax B)) (cy (bmax B) + 1)) = B').
        { rewrite EB, EB'. cbn. f_equal. f_equal. lia. }
        rewrite HB'. assert (VB' : valid B') by (rewrite EB'; unfold valid; cbn; lia).
        assert (Hno : ~ overlap (c_box d) B').
        { intros ([x y] & H1 & H2). rewrite EB' in H2. unfold covers in H2. cbn in H2.
          destruct (Z.eq_dec y r) as [->|Hy].
          - destruct (proj1 (laid_covered t done cur x r HL HS0)) as [_ [X|X]]; [eauto| |]; unfold r in *; lia.
          - apply Hcl. assert (EdB : c_box d = B).
            { eapply (drawn_disjoint cols done cur); [exact HS0|exact (laid_in _ _ _ _ HL Hd)|exact (laid_in _ _ _ _ HL HD)|exact H1|].
              cbn [c_box C]. rewrite EB. unfold covers. cbn. lia. }
            rewrite EdB. left. unfold covers, valid in *. lia. }
        split; intros X; apply Hno; [|apply clash_overlap; assumption].
        exists (bmin (c_box d)). assert (covers (c_box d) (bmin (c_box d))) by (unfold covers, valid in *; lia). auto. }
    assert (HB' : MkBox (bmin (c_box C)) (Coord (cx (bmax (c_box C))) (cy (bmax (c_box C)) + 1)) = B').
    { cbn [c_box C]. rewrite EB, EB'. cbn. f_equal. f_equal. lia. }
    rewrite HB' in Eg, Hg'. cbn [c_content c_styles c_nature c_box C] in Eg, Hg'.
    assert (Er1 : Z.of_nat (List.length done) = r - 1) by (unfold r; lia).
    destruct (table_expand_st (PTuple [PInt (row_width cur + sl_width c); PInt (r - 1)]) 0 1 None t _ o HS1 HI) as [(x & Ex & _)|(g1 & rc & t' & Eg1 & HI1 & Et & HS')].
    { rewrite Eg in Ex. discriminate. }
    rewrite Eg in Eg1. injection Eg1 as <- _. exists t'. split; [rewrite Er1; exact Et|].
    set (op := TExpand (PTuple [PInt (row_width cur + sl_width c); PInt (r - 1)]) 0 1 None).
    assert (Est : t' = fst (tstep op t)) by (cbn [tstep op]; rewrite Et; reflexivity).
    assert (HR' : treachable t') by (rewrite Est; apply treach_step, HR).
    assert (Egrid : t_grid t' = g') by apply HS'.
    assert (HC' : forall ct na b, (exists st, In (MkCell ct st na b) (table_iter t')) <-> drawn cols done (add_slot cur c) ct na b).
    { intros ct na b. rewrite Hchange, <- HC. unfold table_iter, grid_iter. rewrite Egrid. split.
      - intros (s & Hs). apply Hg' in Hs as [X|[X Hb]]; [injection X as -> -> -> ->; auto|left; split; [eauto|exact Hb]].
      - intros [[(s & Hs) Hb]|(-> & -> & ->)].
        + exists s. apply Hg'. right. split; [exact Hs|exact Hb].
        + exists st0. apply Hg'. left. reflexivity. }
    assert (HBin : In (MkCell (shape c0) st0 (Some (wr_nature row0)) B') (t_grid t')) by (rewrite Egrid; apply Hg'; left; reflexivity).
    destruct (count_after_rebuild Cols op t t' HR eq_refl) as (n & Hn & HLn).
    { cbn [tstep op]. exact Et. }
    assert (Ewid : row_width (add_slot cur c) = row_width cur + sl_width c).
    { rewrite (row_width_total (add_slot cur c)). cbn [add_slot wr_slots]. rewrite total_app, total_cons, total_nil, <- row_width_total. lia. }
    assert (En : n = widest cols done (r - 1)).
    { apply (last_col_is t'); auto.
      - intros d Hd. assert (Vd : valid (c_box d)) by (apply (inv_valid g'); [exact HI1|rewrite <- Egrid; exact Hd]).
        assert (HDd : drawn cols done (add_slot cur c) (c_content d) (c_nature d) (c_box d)) by (apply HC'; exists (c_styles d); rewrite <- cell_eta; exact Hd).
        destruct (drawn_covers cols done (add_slot cur c) _ _ _ (cx (bmax (c_box d))) (cy (bmax (c_box d))) HS HDd) as [_ [[Y X]|[Y X]]].
        + unfold covers, valid in *. cbn. lia.
        + pose proof (widest_mono cols done (cy (bmax (c_box d))) (r - 1)). unfold r in *. lia.
        + unfold r in *. lia.
      - assert (Hcov : exists ct na b, drawn cols done (add_slot cur c) ct na b /\ covers b (Coord (widest cols done (r - 1)) (r - 1))).
        { apply covers_drawn; [exact HS|lia|]. left. unfold r in *. lia. }
        destruct Hcov as (ct & na & b & HDb & Hcb). apply HC' in HDb as (s & HDb). exists (MkCell ct s na b). split; [exact HDb|].
        unfold covers in Hcb. cbn in Hcb. cbn. lia. }
    destruct (count_at_least Rows t' HR') as (n2 & m2 & _ & HL2 & _).
    pose proof (last_row_ge t' _ _ HR' HL2 HBin) as Hge. cbn [c_box] in Hge. rewrite EB' in Hge. cbn in Hge.
    split.
    - exact HR'.
    - exact HC'.
    - rewrite Ewid. replace (Z.max _ _) with n by (unfold r in *; rewrite En; replace (Z.of_nat (List.length done) + 1 - 1) with (Z.of_nat (List.length done)) in * by lia; lia).
      destruct HS' as [_ HS']. specialize (HS' Cols). unfold gh in HS'. cbn [ghost_of snd t_views] in HS'. unfold colcount.
      destruct (t_cols t') as [vs|] eqn:Evs; [|destruct HS'].
      destruct Hn as (vs' & Ev' & ->). unfold views_get, sbind, sget in Ev'. cbn [t_views] in Ev'. rewrite Evs in Ev'. cbn in Ev'. injection Ev' as ->. reflexivity.
    - intros q row Hq. assert (Eq : exists row', row_at (done ++ [cur]) q row' /\ wr_nature row' = wr_nature row).
      { apply row_at_app in Hq as [Hq|[-> ->]]; [exists row|exists cur]; (split; [apply row_at_app; auto|reflexivity]). }
      destruct Eq as (row' & Hq' & <-). rewrite <- (HRo q row' Hq'). rewrite Est. f_equal.
      apply (attr_step op t o Rows _ m2).
      + split; assumption.
      + rewrite <- Est. exact HL2.
      + intros _. apply row_at_le in Hq'. rewrite app_length in Hq'. cbn in Hq'. unfold r in *. lia.
      + intros [].
    - intros i0 Hi0. rewrite <- (HCo i0 Hi0). rewrite Est. apply (attr_step op t o Cols _ n).
      + split; assumption.
      + rewrite <- Est. exact HLn.
      + intros _. rewrite En. pose proof (widest_ge cols done (r - 1)). lia.
      + intros [].
    - intros d Hd. unfold table_iter, grid_iter in Hd. rewrite Egrid in Hd. apply Hg' in Hd as [->|[Hd _]]; [|apply looked_slot, HLo, Hd].
      apply looked_slot. specialize (HLo C HD). unfold looked in HLo |- *. cbn [c_content c_styles c_box C] in HLo |- *.
      replace (bmin B') with (bmin B) by (rewrite EB, EB'; reflexivity). exact HLo.
    - intros i0 k. destruct (Z_lt_ge_dec (Z.of_nat i0) m2) as [L|L].
      + rewrite <- (HSt i0 k). rewrite Est. f_equal. f_equal. apply (attr_step op t o Rows _ m2).
        * split; assumption.
        * rewrite <- Est. exact HL2.
        * intros _. exact L.
        * intros [].
      + destruct (count_after_rebuild Rows op t t' HR eq_refl) as (n3 & Hn3 & HL3).
        { cbn [tstep op]. exact Et. }
        assert (E3 : n3 = m2).
        { destruct HL3 as [[Z1 ->]|(bb3 & Z1 & ->)], HL2 as [[Z2 ->]|(bb2 & Z2 & ->)]; try congruence; try (rewrite Z1 in HBin; destruct HBin); try (rewrite Z2 in HBin; destruct HBin); try (rewrite Z1 in Z2; injection Z2 as ->; reflexivity). }
        destruct HS' as [_ HS']. specialize (HS' Rows). unfold gh in HS'. cbn [ghost_of fst snd t_views] in HS'.
        unfold attr. cbn [t_views].
        destruct (t_rows t') as [vs|] eqn:Evs; [|destruct HS'].
        destruct Hn3 as (vs' & Ev' & En3). unfold views_get, sbind, sget in Ev'. cbn [t_views] in Ev'. rewrite Evs in Ev'. cbn in Ev'. injection Ev' as ->.
        unfold vattr. assert (Hnone : nth_error vs' i0 = None) by (apply nth_error_None; lia). rewrite Hnone. cbn [fst dget].
        destruct (Nat.ltb_spec i0 (S (List.length done))) as [L'|L']; [|reflexivity]. exfalso. unfold r in *. lia.
  Qed.

  (** ** The beginning of a row *)

  Lemma keep_view_read ax p t i ax' : treachable t -> attr ax' (fst (view_get ax p t)) i = attr ax' t i.
  Proof. intros HR. rewrite <- (unit_of_state (view_get ax p)). apply (attr_keep (TReadView ax p) t ax' i HR eq_refl). intros []. Qed.
  Lemma reach_view_read ax p t : treachable t -> treachable (fst (view_get ax p t)).
  Proof. intros HR. rewrite <- (unit_of_state (view_get ax p)). exact (treach_step t (TReadView ax p) HR). Qed.

  Lemma laid_begin t done na st1 st2 :
    read t done -> dict_ok st1 -> dict_ok st2 -> let r := Z.of_nat (List.length done) + 1 in
    exists t1 t2 t3 t4, unit_of (view_get Rows r) t = (t1, Ok tt) /\
      view_set_nature Rows r (Some na) t1 = (t2, Ok tt) /\
      view_update_styles Rows r st1 t2 = (t3, Ok tt) /\
      view_update_styles Rows r st2 t3 = (t4, Ok tt) /\
      ((forall k, dget (rs (List.length done)) k = or_opt (dget st2 k) (dget st1 k)) -> laid t4 done (MkWRow na [])).
  Proof.
    intros [HR HC HN HRo HCo HLo HSt] Ok1 Ok2 r. assert (Hr : 1 <= r) by (unfold r; lia).
    set (t1 := fst (view_get Rows r t)). assert (HR1 : treachable t1) by (apply reach_view_read, HR).
    assert (Fn : forall v, v_pos (with_nature (Some na) v) = v_pos v /\ v_owned (with_nature (Some na) v) = v_owned v /\ v_caught (with_nature (Some na) v) = v_caught v)
      by (intros; split; [|split]; reflexivity).
    assert (Fs : forall st v, v_pos (with_styles (dupdate (v_styles v) st) v) = v_pos v /\ v_owned (with_styles (dupdate (v_styles v) st) v) = v_owned v /\ v_caught (with_styles (dupdate (v_styles v) st) v) = v_caught v)
      by (intros; split; [|split]; reflexivity).
    destruct (modify_ok Rows r (with_nature (Some na)) t1 Fn HR1 Hr) as [E2 G2].
    set (t2 := fst (view_modify Rows r (with_nature (Some na)) t1)) in *.
    assert (HR2 : treachable t2) by exact (treach_step t1 (TSetNature Rows r (Some na)) HR1).
    destruct (modify_ok Rows r (fun v => with_styles (dupdate (v_styles v) st1) v) t2 (Fs st1) HR2 Hr) as [E3 G3].
    set (t3 := fst (view_modify Rows r (fun v => with_styles (dupdate (v_styles v) st1) v) t2)) in *.
    assert (HR3 : treachable t3) by exact (treach_step t2 (TUpdateStyles Rows r st1) HR2).
    destruct (modify_ok Rows r (fun v => with_styles (dupdate (v_styles v) st2) v) t3 (Fs st2) HR3 Hr) as [E4 G4].
    set (t4 := fst (view_modify Rows r (fun v => with_styles (dupdate (v_styles v) st2) v) t3)) in *.
    assert (HR4 : treachable t4) by exact (treach_step t3 (TUpdateStyles Rows r st2) HR3).
    destruct (reads_exists Rows r t HR Hr) as (v & Hv).
    exists t1, t2, t3, t4. split.
    { unfold unit_of, sbind. unfold reads in Hv. unfold t1. destruct (view_get Rows r t) as [t' q]. cbn in Hv. rewrite Hv. reflexivity. }
    split; [exact E2|]. split; [exact E3|]. split; [exact E4|].
    assert (Hother : forall ax i, (ax = Cols \/ Z.of_nat i + 1 <> r) -> attr ax t4 i = attr ax t i).
    { intros ax i Hd. transitivity (attr ax t3 i); [|transitivity (attr ax t2 i); [|transitivity (attr ax t1 i)]].
      - apply (attr_keep (TUpdateStyles Rows r st2) t3 ax i HR3 eq_refl). intros [X [Y|Y]]; [destruct Hd; congruence|lia].
      - apply (attr_keep (TUpdateStyles Rows r st1) t2 ax i HR2 eq_refl). intros [X [Y|Y]]; [destruct Hd; congruence|lia].
      - apply (attr_keep (TSetNature Rows r (Some na)) t1 ax i HR1 eq_refl). intros [X [Y|Y]]; [destruct Hd; congruence|lia].
      - apply keep_view_read, HR. }
    assert (Hsame : snd (attr Rows t4 (Z.to_nat (r - 1))) = Some na /\
                    forall k, dget (fst (attr Rows t4 (Z.to_nat (r - 1)))) k = or_opt (dget st2 k) (dget st1 k)).
    { destruct (reads_exists Rows r t1 HR1 Hr) as (v1 & Hv1).
      destruct (reads_exists Rows r t2 HR2 Hr) as (v2 & Hv2).
      destruct (reads_exists Rows r t3 HR3 Hr) as (v3 & Hv3).
      destruct (reads_exists Rows r t4 HR4 Hr) as (v4 & Hv4).
      rewrite (attr_at Rows r t4 v4 HR4 Hr Hv4).
      destruct (attribute_set Rows r (Some na) None t1 t2 v2 v1 HR1 Hr Hv1) as (A & _). destruct (A E2 Hv2) as [A1 A2].
      destruct (attribute_set Rows r None None t2 t3 v3 v2 HR2 Hr Hv2) as (_ & _ & B). destruct (B st1 Ok1 E3 Hv3) as [B1 B2].
      destruct (attribute_set Rows r None None t3 t4 v4 v3 HR3 Hr Hv3) as (_ & _ & D). destruct (D st2 Ok2 E4 Hv4) as [D1 D2].
      cbn [fst snd]. split; [congruence|]. intros k. rewrite D2, B2, A2.
      pose proof (attr_at Rows r t1 v1 HR1 Hr Hv1) as X. assert (X1 : dget (v_styles v1) k = None).
      { replace (v_styles v1) with (fst (attr Rows t1 (Z.to_nat (r - 1)))) by (rewrite X; reflexivity). unfold t1. rewrite keep_view_read by exact HR.
        rewrite HSt. destruct (Nat.ltb_spec (Z.to_nat (r - 1)) (List.length done)) as [L|_]; [unfold r in L; lia|reflexivity]. }
      rewrite X1. unfold or_opt. destruct (dget st2 k), (dget st1 k); reflexivity. }
    destruct Hsame as [Hsame Hsty]. intros Hrs. split.
    - exact HR4.
    - intros ct na' b. rewrite drawn_begin, <- HC. unfold table_iter, grid_iter. rewrite G4, G3, G2. unfold t1. rewrite read_grid. reflexivity.
    - cbn. replace (Z.max _ 0) with (widest cols done (Z.of_nat (List.length done))) by (pose proof (widest_ge cols done (Z.of_nat (List.length done))); lia).
      apply colcount_modify_rows, colcount_modify_rows, colcount_modify_rows, colcount_view_rows, HN.
    - intros q row Hq. apply row_at_app in Hq as [Hq|[-> ->]].
      + pose proof (row_at_le _ _ _ Hq). rewrite Hother by (right; unfold r; lia). apply HRo, Hq.
      + exact Hsame.
    - intros i Hi. rewrite Hother by (left; reflexivity). apply HCo, Hi.
    - intros d Hd. unfold table_iter, grid_iter in Hd. rewrite G4, G3, G2 in Hd. unfold t1 in Hd. rewrite read_grid in Hd. apply looked_row, HLo, Hd.
    - intros i k. destruct (Nat.eq_dec i (List.length done)) as [->|Hi].
      + replace (List.length done) with (Z.to_nat (r - 1)) at 1 by (unfold r; lia). rewrite Hsty. symmetry.
        destruct (Nat.ltb_spec (List.length done) (S (List.length done))) as [_|L]; [apply Hrs|lia].
      + rewrite Hother by (right; unfold r; lia). rewrite HSt.
        destruct (Nat.ltb_spec i (List.length done)) as [L|L], (Nat.ltb_spec i (S (List.length done))) as [L'|L']; try reflexivity; lia.
  Qed.

  (** ** The end of a row *)

  Lemma laid_end t done cur v : laid t done cur -> sound done cur ->
    let r := Z.of_nat (List.length done) + 1 in
    let n := Z.max (widest cols done (Z.of_nat (List.length done))) (row_width cur) in
    1 <= n -> reads Rows r (fst (views_get Cols t)) v ->
    exists t', table_fill_missing (MkBox (Coord 1 r) (Coord n r)) CNone None (v_nature v) (fst (view_get Rows r (fst (views_get Cols t)))) = (t', Ok tt) /\
      read t' (done ++ [cur]).
  Proof.
    intros HL HS r n Hn Hv. assert (Hr : 1 <= r) by (unfold r; lia). pose proof HL as [HR HC HN HRo HCo HLo HSt].
    destruct (colcount_get t n HN) as (vs & Ev & _ & HN1 & G1). set (t1 := fst (views_get Cols t)) in *.
    assert (HR1 : treachable t1).
    { unfold t1. rewrite <- (unit_of_state (views_get Cols)). exact (treach_step t (TReadViews Cols) HR). }
    assert (HA1 : forall ax i, attr ax t1 i = attr ax t i).
    { intros ax i. unfold t1. rewrite <- (unit_of_state (views_get Cols)). apply (attr_keep (TReadViews Cols) t ax i HR eq_refl). intros []. }
    set (t2 := fst (view_get Rows r t1)). assert (HR2 : treachable t2) by (apply reach_view_read, HR1).
    assert (HA2 : forall ax i, attr ax t2 i = attr ax t i) by (intros ax i; unfold t2; rewrite keep_view_read by exact HR1; apply HA1).
    assert (HN2 : colcount t2 n) by (apply colcount_view_rows, HN1).
    assert (Eg2 : table_iter t2 = table_iter t) by (unfold table_iter, grid_iter, t2; rewrite read_grid; exact (f_equal (fun x => x) G1)).
    assert (Hna : v_nature v = Some (wr_nature cur)).
    { pose proof (HRo r cur (row_at_last done cur)) as X. rewrite <- HA1, (attr_at Rows r t1 v HR1 Hr Hv) in X. exact X. }
    rewrite Hna. set (bb := MkBox (Coord 1 r) (Coord n r)).
    assert (V : valid bb) by (unfold valid, bb; cbn; lia).
    destruct (fill_missing_spec bb CNone None (Some (wr_nature cur)) t2 HR2 V) as (t' & ks & E & HP & ND & Hks).
    exists t'. split; [exact E|].
    set (op := TFill bb CNone None (Some (wr_nature cur))).
    assert (Est : t' = fst (tstep op t2)) by (cbn [tstep op]; rewrite E; reflexivity).
    assert (HR' : treachable t') by (rewrite Est; apply treach_step, HR2).
    assert (HA' : forall ax i, attr ax t' i = attr ax t i).
    { intros ax i. rewrite <- HA2, Est. apply attr_keep; [exact HR2|reflexivity|intros []]. }
    rewrite Eg2 in HP, Hks.
    assert (Hk0 : 0 <= row_width cur) by (rewrite row_width_total; eapply tiled_total; apply HS).
    split.
    - exact HR'.
    - intros ct na b. rewrite drawn_end, <- HC. fold r n. split.
      + intros (s & Hs). rewrite HP in Hs. apply in_app_iff in Hs as [Hs|Hs]; [|left; eauto]. right.
        apply in_map_iff in Hs as ([x y] & X & Hk). injection X as <- _ <- <-. apply Hks in Hk as [Hk Hf].
        unfold covers, bb in Hk. cbn in Hk. assert (y = r) by lia. subst y. exists x. split; [|auto]. split; [|lia].
        destruct (Z_lt_ge_dec (row_width cur) x) as [|G]; [assumption|]. exfalso.
        destruct (proj2 (laid_covered t done cur x r HL HS)) as (d & Hd & Hcd); [split; [lia|right; unfold r; lia]|]. exact (Hf d Hd Hcd).
      + intros [(s & Hs)|(x & Hx & -> & -> & ->)].
        * exists s. rewrite HP. apply in_app_iff. auto.
        * exists []. rewrite HP. apply in_app_iff. left. apply in_map_iff. exists (Coord x r). split; [reflexivity|]. apply Hks. split.
          -- unfold covers, bb. cbn. lia.
          -- intros d Hd Hcd. destruct (proj1 (laid_covered t done cur x r HL HS)) as [_ [X|X]]; [eauto| |]; unfold r in *; lia.
    - rewrite app_length. cbn [List.length]. replace (Z.of_nat (List.length done + 1)) with (Z.of_nat (List.length done) + 1) by lia.
      rewrite widest_last. fold n. replace t' with (fst (table_fill_missing bb CNone None (Some (wr_nature cur)) t2)) by (rewrite E; reflexivity).
      apply colcount_fill; auto. cbn. lia.
    - intros q row Hq. rewrite HA'. apply HRo, Hq.
    - intros i Hi. rewrite HA'. apply HCo, Hi.
    - intros d Hd. rewrite HP in Hd. apply in_app_iff in Hd as [Hd|Hd]; [|apply HLo, Hd]. left.
      apply in_map_iff in Hd as (x & <- & _). split; reflexivity.
    - intros i k. rewrite HA', (HSt i k). rewrite app_length. cbn [List.length]. rewrite Nat.add_1_r. reflexivity.
  Qed.
End Layout.
