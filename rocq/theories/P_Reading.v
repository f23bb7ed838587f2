(** * A table made row by row and the tiles of the specification *)
From Verif Require Import Base M_Geometry M_Xml M_Cell M_Grid M_Table M_Regex M_Str M_Units M_Cals M_CalsParser.
From Verif Require Import S_Geometry S_Grid S_Table S_Units S_Cals S_Int S_CalsParser S_FormexRead.
From Verif Require Import P_Geometry P_Cell P_Grid P_GridFacts P_Table P_TableStep P_TableFacts P_TableMore P_Units P_Builder P_Str P_Cals P_Int P_CalsParser P_CalsLayout P_CalsEvents.
Open Scope list_scope.
Open Scope Z_scope.

(** ** Tiles and cells *)

Lemma mosaic_boxes cells g (P : box -> Prop) :
  mosaic cells g -> ((forall d, In d cells -> P (c_box d)) <-> (forall d, In d (map snd g) -> P (c_box d))).
Proof.
  intros (l & HP & HF).
  assert (H1 : (forall d, In d cells -> P (c_box d)) <-> (forall d, In d l -> P (c_box d))).
  { split; intros H d Hd; apply H; [rewrite <- HP|rewrite HP]; exact Hd. }
  rewrite H1. clear H1 HP. induction HF as [|c s l g Hs HF IH]; cbn [map In]; [tauto|].
  assert (Eb : c_box c = c_box (snd s)) by apply Hs. split.
  - intros H d [<-|Hd]; [rewrite <- Eb; apply H; left; reflexivity|]. refine (proj1 IH _ d Hd). intros d' Hd'. apply H. right. exact Hd'.
  - intros H d [<-|Hd]; [rewrite Eb; apply H; left; reflexivity|]. refine (proj2 IH _ d Hd). intros d' Hd'. apply H. right. exact Hd'.
Qed.
Lemma mosaic_free cells g k : mosaic cells g -> (free cells k <-> free (map snd g) k).
Proof. intros H. apply (mosaic_boxes cells g (fun b => ~ covers b k) H). Qed.
Lemma mosaic_first cells g ax p i : mosaic cells g -> (first_free ax p i cells <-> first_free ax p i (map snd g)).
Proof.
  intros H. unfold first_free. rewrite (mosaic_free cells g _ H). split; intros (H1 & H2 & H3).
  - split; [exact H1|]. split; [exact H2|]. intros j Hj. rewrite <- (mosaic_free cells g _ H). apply H3, Hj.
  - split; [exact H1|]. split; [exact H2|]. intros j Hj. rewrite (mosaic_free cells g _ H). apply H3, Hj.
Qed.
Lemma mosaic_cons cells cells' g c s :
  mosaic cells g -> Permutation cells' (c :: cells) -> displays c s -> mosaic cells' (s :: g).
Proof. intros (l & HP & HF) HP' Hs. exists (c :: l). split; [rewrite HP', HP; reflexivity|constructor; assumption]. Qed.
Lemma mosaic_app cells cells' g l' s' :
  mosaic cells g -> Permutation cells' (l' ++ cells) -> Forall2 displays l' s' -> mosaic cells' (s' ++ g).
Proof. intros (l & HP & HF) HP' Hs. exists (l' ++ l). split; [rewrite HP', HP; reflexivity|apply Forall2_app; assumption]. Qed.
Lemma mosaic_nil cells g : mosaic cells g -> (cells = [] <-> g = []).
Proof.
  intros (l & HP & HF). split.
  - intros ->. apply Permutation_sym, Permutation_nil in HP. subst. inversion HF. reflexivity.
  - intros ->. inversion HF; subst. apply Permutation_nil in HP. exact HP.
Qed.
Lemma mosaic_bounds cells g bb : mosaic cells g -> (bounds cells bb <-> bounds (map snd g) bb).
Proof.
  intros H. unfold bounds. pose proof (mosaic_boxes cells g (fun b => subarea b bb) H) as H1.
  split; intros (V & A & B); (split; [exact V|]); (split; [apply H1, A|]).
  - intros b Vb Hb. apply B; [exact Vb|]. apply (mosaic_boxes cells g (fun b' => subarea b' b) H), Hb.
  - intros b Vb Hb. apply B; [exact Vb|]. apply (mosaic_boxes cells g (fun b' => subarea b' b) H), Hb.
Qed.
Lemma mosaic_tile cells g c : mosaic cells g -> In c cells -> exists s, In s g /\ displays c s.
Proof.
  intros (l & HP & HF) Hc. rewrite <- HP in Hc. clear HP. induction HF as [|c0 s l g Hs HF IH]; [destruct Hc|].
  destruct Hc as [->|Hc]; [exists s; split; [left; reflexivity|exact Hs]|]. destruct (IH Hc) as (s' & H1 & H2). exists s'. split; [right; exact H1|exact H2].
Qed.
Lemma mosaic_cell cells g s : mosaic cells g -> In s g -> exists c, In c cells /\ displays c s.
Proof.
  intros (l & HP & HF) Hs.
  assert (H : exists c, In c l /\ displays c s).
  { clear HP. induction HF as [|c0 s0 l g H0 HF IH]; [destruct Hs|].
    destruct Hs as [->|Hs]; [exists c0; split; [left; reflexivity|exact H0]|]. destruct (IH Hs) as (c' & H1 & H2). exists c'. split; [right; exact H1|exact H2]. }
  destruct H as (c & H1 & H2). exists c. split; [rewrite <- HP; exact H1|exact H2].
Qed.
Lemma covered_fun bb na g g1 g2 : covered bb na g g1 -> covered bb na g g2 -> g1 = g2.
Proof. intros (ks & H & ->) (ks' & H' & ->). rewrite (selects_unique _ _ _ _ H H'). reflexivity. Qed.

(** ** The invariant *)

Definition frow_ok (r : option (string * look)) (a : styles * nature) : Prop :=
  match r with
  | Some (na, lk) => snd a = Some na /\ styled (fst a) lk
  | None => a = ([], None)
  end.
Definition fcol_ok (cs : collooks) (i : nat) (a : styles * nature) : Prop :=
  snd a = None /\ styled (fst a) (cs (Z.of_nat i + 1)).

Record follows (t : table) (n : Z) (g : list tile) (rows : list (string * look)) (cs : collooks) : Prop := {
  fo_reach : treachable t;
  fo_cells : mosaic (table_iter t) g;
  fo_count : colcount t n;
  fo_rows : forall i, frow_ok (nth_error rows i) (attr Rows t i);
  fo_cols_ : forall i, fcol_ok cs i (attr Cols t i)
}.

Lemma follows_keep op t n g rows cs n' g' :
  follows t n g rows cs -> rebuilds op = false -> (forall ax p, ~ sets_attributes ax p op) ->
  mosaic (table_iter (fst (tstep op t))) g' -> colcount (fst (tstep op t)) n' ->
  follows (fst (tstep op t)) n' g' rows cs.
Proof.
  intros [HR HP HC HRo HCo] Hb Hs HP' HC'. split; auto.
  - constructor. exact HR.
  - intros i. rewrite attr_keep; auto.
  - intros i. rewrite attr_keep; auto.
Qed.
Lemma follows_read t n g rows cs r : follows t n g rows cs -> follows (fst (view_get Rows r t)) n g rows cs.
Proof.
  intros H. rewrite <- (unit_of_state (view_get Rows r)). apply (follows_keep (TReadView Rows r) t n g rows cs n g H); cbn [tstep].
  - reflexivity.
  - intros ax p [].
  - rewrite unit_of_state. unfold table_iter, grid_iter. rewrite read_grid. apply H.
  - rewrite unit_of_state. apply colcount_view_rows, H.
Qed.
Lemma follows_read_cols t n g rows cs : follows t n g rows cs ->
  exists vs, views_get Cols t = (fst (views_get Cols t), Ok vs) /\ n = Z.of_nat (List.length vs) /\
             follows (fst (views_get Cols t)) n g rows cs.
Proof.
  intros H. destruct (colcount_get t n (fo_count _ _ _ _ _ H)) as (vs & E & En & HC & Hg).
  exists vs. split; [exact E|]. split; [exact En|].
  rewrite <- (unit_of_state (views_get Cols)) in *. apply (follows_keep (TReadViews Cols) t n g rows cs n g H); cbn [tstep].
  - reflexivity.
  - intros ax p [].
  - unfold table_iter, grid_iter. rewrite Hg. apply H.
  - exact HC.
Qed.
Lemma follows_nature t n g rows cs r v na lk :
  follows t n g rows cs -> 1 <= r -> reads Rows r t v -> nth_error rows (Z.to_nat (r - 1)) = Some (na, lk) ->
  v_nature v = Some na.
Proof.
  intros H Hr Hv Hn. destruct (treachable_tinv t (fo_reach _ _ _ _ _ H)) as (o & HT).
  pose proof (reads_attr Rows r t o v HT Hr Hv) as E. pose proof (fo_rows _ _ _ _ _ H (Z.to_nat (r - 1))) as R.
  rewrite Hn in R. destruct R as [R _]. rewrite <- E in R. exact R.
Qed.

(** ** Filling *)

Lemma fo_last_le t n g rows cs d : follows t n g rows cs -> In d (table_iter t) -> cx (bmax (c_box d)) <= n.
Proof.
  intros [HR _ HC _ _] Hd. destruct (treachable_tinv t HR) as (o & HS & HM). unfold colcount in HC.
  pose proof (proj2 HS Cols) as HG. unfold gh in HG. cbn [t_views ghost_of] in HG.
  destruct (t_cols t) as [vs|] eqn:Ec.
  - destruct (snd o) as [h|] eqn:Eo; [|contradiction]. destruct HG as (_ & HG & _).
    assert (In d h) by (apply (proj2 HM Cols h Eo), Hd). destruct (HG d H) as [_ H']. cbn in H'. lia.
  - destruct HC as [Hg _]. unfold table_iter, grid_iter in Hd. rewrite Hg in Hd. destruct Hd.
Qed.
Lemma fo_bounds_le t n g rows cs bb : follows t n g rows cs -> t_grid t <> [] -> bounds (table_iter t) bb -> cx (bmax bb) <= n.
Proof.
  intros H Hne (V & A & B). destruct (t_grid t) as [|c l] eqn:Eg; [congruence|].
  assert (Hc : In c (table_iter t)) by (unfold table_iter, grid_iter; rewrite Eg; left; reflexivity).
  destruct (treachable_tinv t (fo_reach _ _ _ _ _ H)) as (og & HS & HM).
  assert (HV : forall d, In d (table_iter t) -> valid (c_box d)).
  { intros d Hd. apply (inv_valid (t_grid t)); [apply HM|exact Hd]. }
  pose proof (HV c Hc) as Vc. pose proof (fo_last_le _ _ _ _ _ c H Hc) as Lc.
  specialize (B (MkBox (Coord 1 1) (Coord n (cy (bmax bb)))) ltac:(unfold valid in *; cbn; lia)).
  assert (Hall : forall d, In d (table_iter t) -> subarea (c_box d) (MkBox (Coord 1 1) (Coord n (cy (bmax bb))))).
  { intros d Hd k Hk. pose proof (A d Hd k Hk) as Hk'. pose proof (HV d Hd) as Vd. pose proof (fo_last_le _ _ _ _ _ d H Hd) as Ld.
    unfold covers, valid in *. cbn. lia. }
  specialize (B Hall (bmax bb)). unfold covers, valid in *. cbn in *. lia.
Qed.
Lemma follows_nonempty t n s g rows cs : follows t n (s :: g) rows cs -> t_grid t <> [].
Proof. intros H E. apply (mosaic_nil _ _ (fo_cells _ _ _ _ _ H)) in E. discriminate. Qed.

Lemma follows_fill t n g rows cs bb na :
  follows t n g rows cs -> valid bb -> cx (bmax bb) <= n ->
  exists t' g', table_fill_missing bb CNone None na t = (t', Ok tt) /\ covered bb na g g' /\ follows t' n g' rows cs.
Proof.
  intros H V Hle. destruct (fill_missing_spec bb CNone None na t (fo_reach _ _ _ _ _ H) V) as (t' & ks & E & HP & ND & Hks).
  destruct (free_selects (map snd g) (area bb)) as (ms & Hms).
  exists t', (map (fun k => (no_look, bare CNone na (MkBox k k))) ms ++ g). split; [exact E|].
  split; [exists ms; auto|].
  replace t' with (fst (tstep (TFill bb CNone None na) t)) by (cbn [tstep]; rewrite E; reflexivity).
  apply (follows_keep (TFill bb CNone None na) t n g rows cs); auto; cbn [tstep].
  - rewrite E. cbn [fst]. apply (mosaic_app (table_iter t) _ g (map (unit_cell CNone None na) ms)).
    + apply H.
    + rewrite HP. apply Permutation_app_tail, Permutation_map, NoDup_Permutation; [exact ND| |].
      * apply (selects_NoDup _ _ _ Hms), NoDup_area.
      * intros k. rewrite Hks, (selects_In _ _ _ k Hms), area_in, (mosaic_free _ g k (fo_cells _ _ _ _ _ H)). tauto.
    + clear. induction ms as [|k ms IH]; cbn [map]; constructor; [|exact IH].
      split; [reflexivity|]. split; [reflexivity|]. split; [reflexivity|]. intros x. reflexivity.
  - apply colcount_fill; auto; apply H.
Qed.

(** ** Insertion *)

Lemma follows_insert t n g rows cs r ct st na lk w h v :
  follows t n g rows cs -> 1 <= r -> reads Rows r t v -> styled (match st with Some s => s | None => [] end) lk ->
  exists i, first_free Rows r i (map snd g) /\
    let ins := insert_cell Rows r ct st (Some na) w h t in
    ((exists x t1, ins = (t1, Err x)) /\
       (~ (1 <= w /\ 1 <= h) \/ exists d, In d (map snd g) /\ clash (c_box d) (seat Rows r i w h))) \/
    (1 <= w /\ 1 <= h /\ (forall d, In d (map snd g) -> ~ clash (c_box d) (seat Rows r i w h)) /\
     exists t', ins = (t', Ok tt) /\
       follows t' (Z.max n (i + w - 1)) ((lk, bare ct (Some na) (seat Rows r i w h)) :: g) rows cs).
Proof.
  intros H Hr Hv Hst.
  destruct (insert_cell_spec Rows r ct st (Some na) w h t v (fo_reach _ _ _ _ _ H) Hr Hv) as (i & Hi & Hf & Hl & HI). cbv zeta in HI.
  assert (FF : first_free Rows r i (table_iter t)) by (split; [exact Hi|split; [exact Hf|exact Hl]]).
  exists i. split; [apply (mosaic_first _ _ _ _ _ (fo_cells _ _ _ _ _ H)), FF|]. cbv zeta.
  pose proof (mosaic_boxes _ g (fun b => ~ clash b (seat Rows r i w h)) (fo_cells _ _ _ _ _ H)) as HB.
  destruct HI as [(Hn & E)|(Hw & Hh & [((d & Hd & Hc) & E)|(Hno & t' & E & HP)])].
  - left. split; [eauto|left; exact Hn].
  - left. split; [eauto|right].
    destruct (existsb (fun d => box_intersect (c_box d) (seat Rows r i w h)) (map snd g)) eqn:Ex.
    + apply existsb_clash, Ex.
    + exfalso. refine (proj2 HB _ d Hd Hc). intros d' Hd' Hc'.
      assert (existsb (fun d => box_intersect (c_box d) (seat Rows r i w h)) (map snd g) = true)
          by (apply existsb_clash; eauto). congruence.
  - right. split; [exact Hw|]. split; [exact Hh|]. split; [apply HB, Hno|]. exists t'. split; [exact E|].
    replace t' with (fst (tstep (TInsert Rows r ct st (Some na) w h) t)) by (cbn [tstep]; rewrite E; reflexivity).
    apply (follows_keep _ t n g rows cs); auto; cbn [tstep].
    + rewrite E. cbn [fst]. eapply mosaic_cons; [apply H|exact HP|].
      split; [reflexivity|]. split; [reflexivity|]. split; [reflexivity|]. exact Hst.
    + rewrite E. cbn [fst]. apply (insert_colcount t r _ _ _ w h t' n i (fo_reach _ _ _ _ _ H) Hr E (fo_count _ _ _ _ _ H) FF).
Qed.

(** ** Rows and columns *)

Lemma styled_nil : styled [] no_look.
Proof. intros k. reflexivity. Qed.

Lemma follows_enter t n g rows cs r na :
  follows t n g rows cs -> Z.of_nat (List.length rows) = r - 1 ->
  exists t1 t2, unit_of (view_get Rows r) t = (t1, Ok tt) /\
    view_set_nature Rows r (Some na) t1 = (t2, Ok tt) /\
    follows t2 n g (rows ++ [(na, no_look)]) cs.
Proof.
  intros H Hr. pose proof H as [HR HP HC HRo HCo].
  assert (H1r : 1 <= r) by lia.
  set (t1 := fst (view_get Rows r t)).
  pose proof (follows_read t n g rows cs r H) as H1. fold t1 in H1.
  assert (HR1 : treachable t1) by apply H1.
  assert (Fn : forall v, v_pos (with_nature (Some na) v) = v_pos v /\ v_owned (with_nature (Some na) v) = v_owned v /\ v_caught (with_nature (Some na) v) = v_caught v)
    by (intros; split; [|split]; reflexivity).
  destruct (modify_ok Rows r (with_nature (Some na)) t1 Fn HR1 H1r) as [E2 G2].
  set (t2 := fst (view_modify Rows r (with_nature (Some na)) t1)) in *.
  assert (HR2 : treachable t2) by exact (treach_step t1 (TSetNature Rows r (Some na)) HR1).
  destruct (reads_exists Rows r t HR H1r) as (v & Hv).
  exists t1, t2. split.
  { unfold unit_of, sbind. unfold reads in Hv. unfold t1. destruct (view_get Rows r t) as [t' q]. cbn in Hv. rewrite Hv. reflexivity. }
  split; [exact E2|].
  assert (Hother : forall ax i, (ax = Cols \/ Z.of_nat i + 1 <> r) -> attr ax t2 i = attr ax t1 i).
  { intros ax i Hd. apply (attr_keep (TSetNature Rows r (Some na)) t1 ax i HR1 eq_refl). intros [X [Y|Y]]; [destruct Hd; congruence|lia]. }
  assert (Hlast : nth_error rows (Z.to_nat (r - 1)) = None) by (apply nth_error_None; lia).
  assert (Hsame : attr Rows t2 (Z.to_nat (r - 1)) = ([], Some na)).
  { destruct (reads_exists Rows r t1 HR1 H1r) as (v1 & Hv1).
    destruct (reads_exists Rows r t2 HR2 H1r) as (v2 & Hv2).
    rewrite (attr_at Rows r t2 v2 HR2 H1r Hv2).
    destruct (attribute_set Rows r (Some na) None t1 t2 v2 v1 HR1 H1r Hv1) as (A & _). destruct (A E2 Hv2) as [A1 A2].
    rewrite A1, A2. pose proof (fo_rows _ _ _ _ _ H1 (Z.to_nat (r - 1))) as R. rewrite Hlast in R. cbn in R.
    rewrite (attr_at Rows r t1 v1 HR1 H1r Hv1) in R. injection R as -> _. reflexivity. }
  split.
  - exact HR2.
  - unfold table_iter, grid_iter. rewrite G2. unfold t1. rewrite read_grid. exact HP.
  - apply colcount_modify_rows, H1.
  - intros i. destruct (Nat.eq_dec i (Z.to_nat (r - 1))) as [->|Hi].
    + rewrite Hsame. replace (Z.to_nat (r - 1)) with (List.length rows) by lia.
      rewrite nth_error_app2 by lia. rewrite Nat.sub_diag. split; [reflexivity|apply styled_nil].
    + rewrite Hother by (right; lia). pose proof (fo_rows _ _ _ _ _ H1 i) as R.
      destruct (Nat.lt_ge_cases i (List.length rows)) as [L|L].
      * rewrite nth_error_app1 by exact L. exact R.
      * rewrite nth_error_app2 by exact L. destruct (i - List.length rows)%nat eqn:Ei; [lia|].
        assert (En : nth_error rows i = None) by (apply nth_error_None; exact L). rewrite En in R. cbn. destruct n0; exact R.
  - intros i. rewrite Hother by (left; reflexivity). apply H1.
Qed.

Lemma follows_style t n g rows cs r na lk st :
  follows t n g (rows ++ [(na, no_look)]) cs -> Z.of_nat (List.length rows) = r - 1 -> styled st lk ->
  exists t1, view_set_styles Rows r (Some st) t = (t1, Ok tt) /\ follows t1 n g (rows ++ [(na, lk)]) cs.
Proof.
  intros H Hr Hst. pose proof H as [HR HP HC HRo HCo].
  assert (H1r : 1 <= r) by lia.
  assert (Fs : forall v, v_pos (with_styles (styles_of (Some st)) v) = v_pos v /\ v_owned (with_styles (styles_of (Some st)) v) = v_owned v /\ v_caught (with_styles (styles_of (Some st)) v) = v_caught v)
    by (intros; split; [|split]; reflexivity).
  destruct (modify_ok Rows r (with_styles (styles_of (Some st))) t Fs HR H1r) as [E2 G2].
  set (t2 := fst (view_modify Rows r (with_styles (styles_of (Some st))) t)) in *.
  assert (HR2 : treachable t2) by exact (treach_step t (TSetStyles Rows r (Some st)) HR).
  exists t2. split; [exact E2|].
  assert (Hother : forall ax i, (ax = Cols \/ Z.of_nat i + 1 <> r) -> attr ax t2 i = attr ax t i).
  { intros ax i Hd. apply (attr_keep (TSetStyles Rows r (Some st)) t ax i HR eq_refl). intros [X [Y|Y]]; [destruct Hd; congruence|lia]. }
  assert (Hsame : attr Rows t2 (Z.to_nat (r - 1)) = (st, Some na)).
  { destruct (reads_exists Rows r t HR H1r) as (v1 & Hv1).
    destruct (reads_exists Rows r t2 HR2 H1r) as (v2 & Hv2).
    rewrite (attr_at Rows r t2 v2 HR2 H1r Hv2).
    destruct (attribute_set Rows r None (Some st) t t2 v2 v1 HR H1r Hv1) as (_ & A & _). destruct (A E2 Hv2) as [A1 A2].
    rewrite A1, A2. pose proof (HRo (Z.to_nat (r - 1))) as R.
    rewrite nth_error_app2 in R by lia. replace (Z.to_nat (r - 1) - List.length rows)%nat with 0%nat in R by lia. cbn in R.
    rewrite (attr_at Rows r t v1 HR H1r Hv1) in R. cbn in R. destruct R as [-> _]. reflexivity. }
  split.
  - exact HR2.
  - unfold table_iter, grid_iter. rewrite G2. exact HP.
  - apply colcount_modify_rows, HC.
  - intros i. destruct (Nat.eq_dec i (Z.to_nat (r - 1))) as [->|Hi].
    + rewrite Hsame. replace (Z.to_nat (r - 1)) with (List.length rows) by lia.
      rewrite nth_error_app2 by lia. rewrite Nat.sub_diag. split; [reflexivity|exact Hst].
    + rewrite Hother by (right; lia). pose proof (HRo i) as R.
      destruct (Nat.lt_ge_cases i (List.length rows)) as [L|L].
      * rewrite nth_error_app1 in * by exact L. exact R.
      * rewrite nth_error_app2 in * by exact L. destruct (i - List.length rows)%nat as [|m] eqn:Ei; [lia|]. cbn in *. destruct m; exact R.
  - intros i. rewrite Hother by (left; reflexivity). apply HCo.
Qed.

Lemma follows_column cns t n g rows cs m c st :
  follows t n g rows cs -> 1 <= m -> has_styles st (column_style cns c) -> dict_ok st ->
  exists t', view_update_styles Cols m st t = (t', Ok tt) /\ follows t' (Z.max n m) g rows (looks_with cns m c cs).
Proof.
  intros H Hm Hst Hok. pose proof H as [HR HP HC HRo HCo]. unfold view_update_styles.
  set (f := fun v => with_styles (dupdate (v_styles v) st) v).
  assert (Ff : forall v, v_pos (f v) = v_pos v /\ v_owned (f v) = v_owned v /\ v_caught (f v) = v_caught v)
    by (intros; split; [|split]; reflexivity).
  destruct (modify_ok Cols m f t Ff HR Hm) as [E G]. set (t' := fst (view_modify Cols m f t)) in *.
  assert (HR' : treachable t') by exact (treach_step t (TUpdateStyles Cols m st) HR).
  exists t'. split; [exact E|].
  assert (Hother : forall ax i, (ax = Rows \/ Z.of_nat i + 1 <> m) -> attr ax t' i = attr ax t i).
  { intros ax i Hd. apply (attr_keep (TUpdateStyles Cols m st) t ax i HR eq_refl). intros [X [Y|Y]]; [destruct Hd; congruence|lia]. }
  split.
  - exact HR'.
  - unfold table_iter, grid_iter. rewrite G. exact HP.
  - apply colcount_modify_cols; assumption.
  - intros i. rewrite Hother by (left; reflexivity). apply HRo.
  - intros i. unfold fcol_ok, looks_with. destruct (Z.eqb_spec (Z.of_nat i + 1) m) as [<-|Hi].
    + destruct (reads_exists Cols (Z.of_nat i + 1) t HR Hm) as (v & Hv).
      destruct (reads_exists Cols (Z.of_nat i + 1) t' HR' Hm) as (v' & Hv').
      destruct (attribute_set Cols (Z.of_nat i + 1) None None t t' v' v HR Hm Hv) as (_ & _ & A).
      destruct (A st Hok E Hv') as [A1 A2]. pose proof (HCo i) as [B1 B2].
      pose proof (attr_at Cols _ t v HR Hm Hv) as Ea. pose proof (attr_at Cols _ t' v' HR' Hm Hv') as Ea'.
      replace (Z.to_nat (Z.of_nat i + 1 - 1)) with i in * by lia. rewrite Ea in B1, B2. rewrite Ea'. cbn [fst snd] in *.
      split; [congruence|]. intros k. rewrite A2, Hst, B2. destruct (column_style cns c k); reflexivity.
    + rewrite Hother by (right; exact Hi). destruct (HCo i) as [B1 B2]. split; [exact B1|exact B2].
Qed.

(** ** The end of a table *)

Lemma follows_end s t n s0 g rows cs :
  follows t n (s0 :: g) rows cs -> ps_table s = Some t ->
  exists bb t' g', bounds (map snd (s0 :: g)) bb /\ covered bb None (s0 :: g) g' /\
    end_table s = (with_table (Some t') s, Ok tt) /\ follows t' n g' rows cs.
Proof.
  intros H Et. pose proof (follows_nonempty _ _ _ _ _ _ H) as Hne.
  destruct (end_table_cases s t Et (fo_reach _ _ _ _ _ H)) as [[X _]|(bb & Hb & E)]; [congruence|].
  destruct (follows_fill t n (s0 :: g) rows cs bb None H (proj1 Hb) (fo_bounds_le _ _ _ _ _ _ H Hne Hb)) as (t' & g' & Ef & Hf & H').
  exists bb, t', g'. split; [apply (mosaic_bounds _ _ _ (fo_cells _ _ _ _ _ H)), Hb|]. split; [exact Hf|].
  rewrite Ef in E. split; [exact E|exact H'].
Qed.
Lemma bounds_nil bb : ~ bounds [] bb.
Proof.
  intros (Vb & _ & Hb).
  specialize (Hb (MkBox (Coord (cx (bmax bb) + 1) 1) (Coord (cx (bmax bb) + 1) 1)) ltac:(unfold valid in *; cbn; lia) ltac:(intros c []) (bmin bb)).
  unfold covers, valid in *. cbn in Hb. lia.
Qed.
