(** * The table made by the CALS parser and the layout of its specification *)
From Verif Require Import Base M_Geometry M_Xml M_Cell M_Grid M_Table M_Regex M_Str M_Units M_Cals M_CalsParser.
From Verif Require Import S_Geometry S_Grid S_Table S_Units S_Cals S_Int S_CalsParser.
From Verif Require Import P_Geometry P_Cell P_Grid P_GridFacts P_Table P_TableStep P_TableFacts P_TableMore P_Units P_Builder P_Str P_Cals P_Int P_CalsParser.
Open Scope list_scope.
Open Scope Z_scope.

(** ** Spots and cells *)

Lemma pictures_boxes ns cells g (P : box -> Prop) :
  pictures ns cells g -> ((forall d, In d cells -> P (c_box d)) <-> (forall d, In d (map snd g) -> P (c_box d))).
Proof.
  intros (l & HP & HF). 
  assert (H1 : (forall d, In d cells -> P (c_box d)) <-> (forall d, In d l -> P (c_box d))).
  { split; intros H d Hd; apply H; [rewrite <- HP|rewrite HP]; exact Hd. }
  rewrite H1. clear H1 HP. induction HF as [|c s l g Hs HF IH]; cbn [map In]; [tauto|].
  assert (Eb : c_box c = c_box (snd s)) by apply Hs. split.
  - intros H d [<-|Hd]; [rewrite <- Eb; apply H; left; reflexivity|]. refine (proj1 IH _ d Hd). intros d' Hd'. apply H. right. exact Hd'.
  - intros H d [<-|Hd]; [rewrite Eb; apply H; left; reflexivity|]. refine (proj2 IH _ d Hd). intros d' Hd'. apply H. right. exact Hd'.
Qed.
Lemma pictures_free ns cells g k : pictures ns cells g -> (free cells k <-> free (map snd g) k).
Proof. intros H. apply (pictures_boxes ns cells g (fun b => ~ covers b k) H). Qed.
Lemma pictures_first ns cells g ax p i : pictures ns cells g -> (first_free ax p i cells <-> first_free ax p i (map snd g)).
Proof.
  intros H. unfold first_free. rewrite (pictures_free ns cells g _ H). split; intros (H1 & H2 & H3).
  - split; [exact H1|]. split; [exact H2|]. intros j Hj. rewrite <- (pictures_free ns cells g _ H). apply H3, Hj.
  - split; [exact H1|]. split; [exact H2|]. intros j Hj. rewrite (pictures_free ns cells g _ H). apply H3, Hj.
Qed.
Lemma pictures_cons ns cells cells' g c s :
  pictures ns cells g -> Permutation cells' (c :: cells) -> shows ns c s -> pictures ns cells' (s :: g).
Proof.
  intros (l & HP & HF) HP' Hs. exists (c :: l). split; [rewrite HP', HP; reflexivity|constructor; assumption].
Qed.
Lemma pictures_app ns cells cells' g l' s' :
  pictures ns cells g -> Permutation cells' (l' ++ cells) -> Forall2 (shows ns) l' s' -> pictures ns cells' (s' ++ g).
Proof.
  intros (l & HP & HF) HP' Hs. exists (l' ++ l). split; [rewrite HP', HP; reflexivity|apply Forall2_app; assumption].
Qed.
Lemma pictures_nil ns cells g : pictures ns cells g -> (cells = [] <-> g = []).
Proof.
  intros (l & HP & HF). split.
  - intros ->. apply Permutation_sym, Permutation_nil in HP. subst. inversion HF. reflexivity.
  - intros ->. inversion HF; subst. apply Permutation_nil in HP. exact HP.
Qed.

Lemma first_free_fun ax p i j g : first_free ax p i g -> first_free ax p j g -> i = j.
Proof.
  intros (Hi & Fi & Li) (Hj & Fj & Lj). destruct (Z.lt_trichotomy i j) as [L|[E|L]]; [|exact E|].
  - exfalso. apply (Lj i); [lia|exact Fi].
  - exfalso. apply (Li j); [lia|exact Fj].
Qed.
Lemma bounds_fun g b b' : bounds g b -> bounds g b' -> b = b'.
Proof. intros (V & H1 & H2) (V' & H1' & H2'). apply subarea_antisym; auto. Qed.

Lemma area_positions bb : area bb = map (fun p => Coord (fst p) (snd p)) (fill_positions bb).
Proof.
  unfold area, fill_positions. rewrite !flat_map_concat_map, concat_map, map_map. f_equal. apply map_ext. intros y.
  rewrite map_map. reflexivity.
Qed.
Lemma NoDup_area bb : NoDup (area bb).
Proof.
  rewrite area_positions. apply FinFun.Injective_map_NoDup; [|apply NoDup_fill_positions].
  intros [x y] [x' y'] H. cbn in H. congruence.
Qed.
Lemma area_in bb k : In k (area bb) <-> covers bb k.
Proof.
  rewrite area_positions, in_map_iff. split.
  - intros ([x y] & <- & H). apply fill_positions_in in H. exact H.
  - intros H. exists (cx k, cy k). split; [destruct k; reflexivity|]. apply fill_positions_in. destruct k. exact H.
Qed.
Lemma selects_NoDup {A} (P : A -> Prop) l m : selects P l m -> NoDup l -> NoDup m.
Proof.
  induction 1; intros ND; [constructor|inversion ND; subst|inversion ND; subst; auto].
  constructor; auto. intros Hin. apply (selects_In _ _ _ a H0) in Hin. tauto.
Qed.
Lemma free_selects g l : exists m, selects (free g) l m.
Proof.
  exists (filter (fun k => freeb g k) l). apply selects_filter. intros k. apply freeb_free.
Qed.
Lemma filled_fun bb na g g1 g2 : filled bb na g g1 -> filled bb na g g2 -> g1 = g2.
Proof.
  intros (ks & H & ->) (ks' & H' & ->). rewrite (selects_unique _ _ _ _ H H'). reflexivity.
Qed.

(** ** The invariant *)

Definition row_ok (ns : option string) (r : option (string * xnode * xnode)) (a : styles * nature) : Prop :=
  match r with
  | Some (na, sec, row) => snd a = Some na /\ has_styles (fst a) (row_style ns sec row)
  | None => a = ([], None)
  end.
Definition col_ok (cs : colstyles) (i : nat) (a : styles * nature) : Prop :=
  snd a = None /\ has_styles (fst a) (cs (Z.of_nat i + 1)).

Record agrees (ns : option string) (t : table) (n : Z) (g : list spot) (rows : list (string * xnode * xnode)) (cs : colstyles) : Prop := {
  ag_reach : treachable t;
  ag_cells : pictures ns (table_iter t) g;
  ag_count : colcount t n;
  ag_rows : forall i, row_ok ns (nth_error rows i) (attr Rows t i);
  ag_cols : forall i, col_ok cs i (attr Cols t i)
}.

Lemma attr_keep op t ax i :
  treachable t -> rebuilds op = false -> ~ sets_attributes ax (Z.of_nat i + 1) op ->
  attr ax (fst (tstep op t)) i = attr ax t i.
Proof.
  intros HR Hb Hs. destruct (treachable_tinv t HR) as (o & HT).
  destruct (count_at_least ax (fst (tstep op t)) (treach_step t op HR)) as (n & m & _ & HL & _).
  eapply attr_step; eauto. congruence.
Qed.

Lemma agrees_keep ns op t n g rows cs n' g' :
  agrees ns t n g rows cs -> rebuilds op = false -> (forall ax p, ~ sets_attributes ax p op) ->
  pictures ns (table_iter (fst (tstep op t))) g' -> colcount (fst (tstep op t)) n' ->
  agrees ns (fst (tstep op t)) n' g' rows cs.
Proof.
  intros [HR HP HC HRo HCo] Hb Hs HP' HC'. split; auto.
  - constructor. exact HR.
  - intros i. rewrite attr_keep; auto.
  - intros i. rewrite attr_keep; auto.
Qed.

Lemma agrees_restyle ns t n g rows cs s na : agrees ns t n g rows cs -> agrees ns (restyle s na t) n g rows cs.
Proof.
  intros [HR HP HC HRo HCo]. split; auto. apply treachable_restyle, HR.
Qed.

Lemma read_grid ax p t : t_grid (fst (view_get ax p t)) = t_grid t.
Proof.
  unfold view_get, views_get, sbind, sget. destruct (t_views ax t); cbn.
  - destruct ax; reflexivity.
  - unfold slift. destruct (vl_refresh ax (t_grid t) []); destruct ax; reflexivity.
Qed.

Lemma agrees_read ns t n g rows cs r : agrees ns t n g rows cs -> agrees ns (fst (view_get Rows r t)) n g rows cs.
Proof.
  intros H. rewrite <- (unit_of_state (view_get Rows r)). apply (agrees_keep ns (TReadView Rows r) t n g rows cs n g H); cbn [tstep].
  - reflexivity.
  - intros ax p [].
  - rewrite unit_of_state. unfold table_iter, grid_iter. rewrite read_grid. apply H.
  - rewrite unit_of_state. apply colcount_view_rows, H.
Qed.
Lemma agrees_read_cols ns t n g rows cs : agrees ns t n g rows cs ->
  exists vs, views_get Cols t = (fst (views_get Cols t), Ok vs) /\ n = Z.of_nat (List.length vs) /\
             agrees ns (fst (views_get Cols t)) n g rows cs.
Proof.
  intros H. destruct (colcount_get t n (ag_count _ _ _ _ _ _ H)) as (vs & E & En & HC & Hg).
  exists vs. split; [exact E|]. split; [exact En|].
  rewrite <- (unit_of_state (views_get Cols)) in *. apply (agrees_keep ns (TReadViews Cols) t n g rows cs n g H); cbn [tstep].
  - reflexivity.
  - intros ax p [].
  - unfold table_iter, grid_iter. rewrite Hg. apply H.
  - exact HC.
Qed.

Lemma agrees_nature ns t n g rows cs r v na sec row :
  agrees ns t n g rows cs -> 1 <= r -> reads Rows r t v -> nth_error rows (Z.to_nat (r - 1)) = Some (na, sec, row) ->
  v_nature v = Some na.
Proof.
  intros H Hr Hv Hn. destruct (treachable_tinv t (ag_reach _ _ _ _ _ _ H)) as (o & HT).
  pose proof (reads_attr Rows r t o v HT Hr Hv) as E. pose proof (ag_rows _ _ _ _ _ _ H (Z.to_nat (r - 1))) as R.
  rewrite Hn in R. destruct R as [R _]. rewrite <- E in R. exact R.
Qed.

(** ** Filling *)

Lemma last_le_count ns t n g rows cs d : agrees ns t n g rows cs -> In d (table_iter t) -> cx (bmax (c_box d)) <= n.
Proof.
  intros [HR _ HC _ _] Hd. destruct (treachable_tinv t HR) as (o & HS & HM). unfold colcount in HC.
  pose proof (proj2 HS Cols) as HG. unfold gh in HG. cbn [t_views ghost_of] in HG.
  destruct (t_cols t) as [vs|] eqn:Ec.
  - destruct (snd o) as [h|] eqn:Eo; [|contradiction]. destruct HG as (_ & HG & _).
    assert (In d h) by (apply (proj2 HM Cols h Eo), Hd). destruct (HG d H) as [_ H']. cbn in H'. lia.
  - destruct HC as [Hg _]. unfold table_iter, grid_iter in Hd. rewrite Hg in Hd. destruct Hd.
Qed.

Lemma agrees_fill ns t n g rows cs bb na :
  agrees ns t n g rows cs -> valid bb -> cx (bmax bb) <= n ->
  exists t' g', table_fill_missing bb CNone None na t = (t', Ok tt) /\ filled bb na g g' /\ agrees ns t' n g' rows cs.
Proof.
  intros H V Hle. destruct (fill_missing_spec bb CNone None na t (ag_reach _ _ _ _ _ _ H) V) as (t' & ks & E & HP & ND & Hks).
  destruct (free_selects (map snd g) (area bb)) as (ms & Hms).
  exists t', (map (fun k => (None, bare CNone na (MkBox k k))) ms ++ g). split; [exact E|].
  split; [exists ms; auto|].
  replace t' with (fst (tstep (TFill bb CNone None na) t)) by (cbn [tstep]; rewrite E; reflexivity).
  apply (agrees_keep ns (TFill bb CNone None na) t n g rows cs); auto; cbn [tstep].
  - rewrite E. cbn [fst]. apply (pictures_app ns (table_iter t) _ g (map (unit_cell CNone None na) ms)).
    + apply H.
    + rewrite HP. apply Permutation_app_tail, Permutation_map, NoDup_Permutation; [exact ND| |].
      * apply (selects_NoDup _ _ _ Hms), NoDup_area.
      * intros k. rewrite Hks, (selects_In _ _ _ k Hms), area_in, (pictures_free ns _ g k (ag_cells _ _ _ _ _ _ H)). tauto.
    + clear. induction ms as [|k ms IH]; cbn [map]; constructor; [|exact IH].
      split; [reflexivity|]. split; [reflexivity|]. split; reflexivity.
  - apply colcount_fill; auto; apply H.
Qed.

(** ** Insertion *)

Lemma insert_colcount t p ct s na w h t' n i :
  treachable t -> 1 <= p -> insert_cell Rows p ct s na w h t = (t', Ok tt) -> colcount t n ->
  first_free Rows p i (table_iter t) -> colcount t' (Z.max n (i + w - 1)).
Proof.
  intros HR Hp E Hn Hi. destruct (treachable_tinv t HR) as (o & HS & HM).
  destruct (insert_cell_st Rows p ct s na w h t _ o HS (proj1 HM) (seen_mem Rows (t_grid t, o) HM)) as (t1 & HS1 & H).
  destruct H as [(_ & Hn' & _)|(q & j & v' & Evg & Eq & Hq & Hj & Hqp & Hf & Hl & H)]; [lia|].
  specialize (Hqp Hp). subst q. rewrite Hqp in *.
  assert (j = i). { apply (first_free_fun Rows p j i (table_iter t)); [|exact Hi]. split; [exact Hj|]. split; [exact Hf|exact Hl]. }
  subst j. cbv zeta in H. destruct H as [(_ & E')|(Hw & Hh & E')]; [congruence|].
  rewrite E' in E. clear E'.
  assert (HM1 : mem_inv (t_grid t, ghost_set Rows (seen (ghost_of Rows o) (t_grid t)) o))
    by (eapply gt_mem_inv; [apply gt_read|exact HM]).
  pose proof (proj1 HS1) as Eg1.
  assert (HT1 : tinv t1 (ghost_set Rows (seen (ghost_of Rows o) (t_grid t)) o)) by (split; rewrite Eg1; assumption).
  assert (Hn1 : colcount t1 n).
  { replace t1 with (fst (view_get Rows p t)) by (rewrite Evg; reflexivity). apply colcount_view_rows, Hn. }
  destruct (colcount_set _ _ t1 _ t' n HT1 E Hn1) as (c' & Hget & HP & HC).
  set (c := MkCell _ _ _ _) in E.
  destruct (table_setitem_st (PCoord (at_pos Rows p i)) c t1 _ _ (proj1 HT1) (proj1 (proj2 HT1))) as [(e & _ & Et)|(g' & c2 & t2 & Ee & Hget2 & _ & _ & Et & HS')]; [congruence|].
  rewrite Et in E. injection E as ->. rewrite (proj1 HS') in Hget. rewrite Hget2 in Hget. injection Hget as ->.
  pose proof (setitem_same _ c _ g' c' (proj1 (proj2 HT1)) Ee Hget2) as Ec. rewrite Ec in HC; [exact HC|]. unfold pinned. cbn. constructor.
Qed.

Lemma agrees_insert ns t n g rows cs r na sec row e w h v (o : pcals_opts) :
  pc_ns o = ns ->
  agrees ns t n g rows cs -> 1 <= r -> nth_error rows (Z.to_nat (r - 1)) = Some (na, sec, row) -> reads Rows r t v ->
  exists i, first_free Rows r i (map snd g) /\
    let ins := insert_cell Rows r (CList (entry_content e)) (Some (entry_styles o e)) (v_nature v) w h t in
    ((exists x t1, ins = (t1, Err x)) /\
       (~ (1 <= w /\ 1 <= h) \/ exists d, In d (map snd g) /\ clash (c_box d) (seat Rows r i w h))) \/
    (1 <= w /\ 1 <= h /\ (forall d, In d (map snd g) -> ~ clash (c_box d) (seat Rows r i w h)) /\
     exists t', ins = (t', Ok tt) /\
       agrees ns t' (Z.max n (i + w - 1)) ((Some e, bare (content_of e) (Some na) (seat Rows r i w h)) :: g) rows cs).
Proof.
  intros Ens H Hr Hrow Hv.
  assert (Hna : v_nature v = Some na) by (eapply agrees_nature; eauto).
  destruct (insert_cell_spec Rows r (CList (entry_content e)) (Some (entry_styles o e)) (v_nature v) w h t v (ag_reach _ _ _ _ _ _ H) Hr Hv)
    as (i & Hi & Hf & Hl & HI). cbv zeta in HI.
  assert (FF : first_free Rows r i (table_iter t)) by (split; [exact Hi|split; [exact Hf|exact Hl]]).
  exists i. split; [apply (pictures_first ns _ _ _ _ _ (ag_cells _ _ _ _ _ _ H)), FF|]. cbv zeta.
  pose proof (pictures_boxes ns _ g (fun b => ~ clash b (seat Rows r i w h)) (ag_cells _ _ _ _ _ _ H)) as HB.
  destruct HI as [(Hn & E)|(Hw & Hh & [((d & Hd & Hc) & E)|(Hno & t' & E & HP)])].
  - left. split; [eauto|left; exact Hn].
  - left. split; [eauto|right].
    destruct (existsb (fun d => box_intersect (c_box d) (seat Rows r i w h)) (map snd g)) eqn:Ex.
    + apply existsb_clash, Ex.
    + exfalso. refine (proj2 HB _ d Hd Hc). intros d' Hd' Hc'.
      assert (existsb (fun d => box_intersect (c_box d) (seat Rows r i w h)) (map snd g) = true)
          by (apply existsb_clash; eauto). congruence.
  - right. split; [exact Hw|]. split; [exact Hh|]. split; [apply HB, Hno|]. exists t'. split; [exact E|].
    replace t' with (fst (tstep (TInsert Rows r (CList (entry_content e)) (Some (entry_styles o e)) (v_nature v) w h) t))
      by (cbn [tstep]; rewrite E; reflexivity).
    apply (agrees_keep ns _ t n g rows cs); auto; cbn [tstep].
    + rewrite E. cbn [fst]. eapply pictures_cons; [apply H|exact HP|]. rewrite Hna.
      split; [cbn; unfold content_of; rewrite entry_content_spec; reflexivity|].
      split; [reflexivity|]. split; [reflexivity|]. cbn. rewrite <- Ens. apply entry_styles_spec.
    + rewrite E. cbn [fst]. apply (insert_colcount t r _ _ _ w h t' n i (ag_reach _ _ _ _ _ _ H) Hr E (ag_count _ _ _ _ _ _ H) FF).
Qed.

(** ** Rows and columns *)

Lemma modify_ok ax p f t :
  (forall v, v_pos (f v) = v_pos v /\ v_owned (f v) = v_owned v /\ v_caught (f v) = v_caught v) ->
  treachable t -> 1 <= p ->
  view_modify ax p f t = (fst (view_modify ax p f t), Ok tt) /\ t_grid (fst (view_modify ax p f t)) = t_grid t.
Proof.
  intros Hf HR Hp. destruct (treachable_tinv t HR) as (o & HS & HM).
  destruct (view_modify_st ax p f t _ o Hf HS (proj1 (proj1 HM))) as (HS' & Hok & _).
  split; [|apply HS']. specialize (Hok Hp). destruct (view_modify ax p f t) as [t' r]. cbn in *. congruence.
Qed.
Lemma colcount_modify_rows p f t n : colcount t n -> colcount (fst (view_modify Rows p f t)) n.
Proof.
  intros H. unfold view_modify, sbind. apply (colcount_view_rows t n p) in H.
  destruct (view_get Rows p t) as [t1 [v|e]]; cbn [fst] in *; [|exact H].
  apply colcount_rows in H. destruct (views_get Rows t1) as [t2 [vs|e]]; cbn [fst] in *; [|exact H].
  unfold slift. destruct (py_upd vs (p - 1) f); exact H.
Qed.
Lemma upd_length {A} (l : list A) n f : List.length (upd_nth l n f) = List.length l.
Proof. revert n. induction l as [|a l IH]; intros [|n]; cbn; auto. Qed.
Lemma colcount_modify_cols p f t n : colcount t n -> 1 <= p -> colcount (fst (view_modify Cols p f t)) (Z.max n p).
Proof.
  intros H Hp. destruct (colcount_get t n H) as (vs & E & En & _). unfold view_modify, view_get, sbind. rewrite E.
  set (t1 := fst (views_get Cols t)). cbn [views_put sbind sget sput].
  unfold slift at 1. destruct (py_nth_pos (fit_to_size p false vs) p) as (a & Ha & _); [rewrite fit_length_false; lia|]. rewrite Ha.
  assert (Eg : views_get Cols (t_set_views Cols (fit_to_size p false vs) t1) = (t_set_views Cols (fit_to_size p false vs) t1, Ok (fit_to_size p false vs))) by reflexivity.
  rewrite Eg. unfold slift. clear Eg.
  destruct (py_upd (fit_to_size p false vs) (p - 1) f) as [vs'|e] eqn:Eu; unfold colcount; cbn [fst sput t_set_views t_cols].
  - rewrite py_upd_pos in Eu by (rewrite fit_length_false; lia). injection Eu as <-. rewrite upd_length, fit_length_false. lia.
  - rewrite fit_length_false. lia.
Qed.

Lemma attr_at ax p t v : treachable t -> 1 <= p -> reads ax p t v -> attr ax t (Z.to_nat (p - 1)) = (v_styles v, v_nature v).
Proof.
  intros HR Hp Hv. destruct (treachable_tinv t HR) as (o & HT). symmetry. eapply reads_attr; eauto.
Qed.

Lemma agrees_row ns t n g rows cs r na sec row st :
  agrees ns t n g rows cs -> Z.of_nat (List.length rows) = r - 1 -> has_styles st (row_style ns sec row) ->
  exists t1 t2 t3, unit_of (view_get Rows r) t = (t1, Ok tt) /\
    view_set_nature Rows r (Some na) t1 = (t2, Ok tt) /\
    view_set_styles Rows r (Some st) t2 = (t3, Ok tt) /\
    agrees ns t3 n g (rows ++ [(na, sec, row)]) cs.
Proof.
  intros H Hr Hst. pose proof H as [HR HP HC HRo HCo].
  assert (H1r : 1 <= r) by lia.
  set (t1 := fst (view_get Rows r t)).
  pose proof (agrees_read ns t n g rows cs r H) as H1. fold t1 in H1.
  assert (HR1 : treachable t1) by apply H1.
  assert (Fn : forall v, v_pos (with_nature (Some na) v) = v_pos v /\ v_owned (with_nature (Some na) v) = v_owned v /\ v_caught (with_nature (Some na) v) = v_caught v)
    by (intros; split; [|split]; reflexivity).
  assert (Fs : forall v, v_pos (with_styles (styles_of (Some st)) v) = v_pos v /\ v_owned (with_styles (styles_of (Some st)) v) = v_owned v /\ v_caught (with_styles (styles_of (Some st)) v) = v_caught v)
    by (intros; split; [|split]; reflexivity).
  destruct (modify_ok Rows r (with_nature (Some na)) t1 Fn HR1 H1r) as [E2 G2].
  set (t2 := fst (view_modify Rows r (with_nature (Some na)) t1)) in *.
  assert (HR2 : treachable t2) by exact (treach_step t1 (TSetNature Rows r (Some na)) HR1).
  destruct (modify_ok Rows r (with_styles (styles_of (Some st))) t2 Fs HR2 H1r) as [E3 G3].
  set (t3 := fst (view_modify Rows r (with_styles (styles_of (Some st))) t2)) in *.
  assert (HR3 : treachable t3) by exact (treach_step t2 (TSetStyles Rows r (Some st)) HR2).
  destruct (reads_exists Rows r t HR H1r) as (v & Hv).
  exists t1, t2, t3. split.
  { unfold unit_of, sbind. unfold reads in Hv. unfold t1. destruct (view_get Rows r t) as [t' q]. cbn in Hv. rewrite Hv. reflexivity. }
  split; [exact E2|]. split; [exact E3|].
  assert (Hother : forall ax i, (ax = Cols \/ Z.of_nat i + 1 <> r) -> attr ax t3 i = attr ax t1 i).
  { intros ax i Hd. transitivity (attr ax t2 i).
    - apply (attr_keep (TSetStyles Rows r (Some st)) t2 ax i HR2 eq_refl). intros [X [Y|Y]]; [destruct Hd; congruence|lia].
    - apply (attr_keep (TSetNature Rows r (Some na)) t1 ax i HR1 eq_refl). intros [X [Y|Y]]; [destruct Hd; congruence|lia]. }
  assert (Hsame : attr Rows t3 (Z.to_nat (r - 1)) = (st, Some na)).
  { destruct (reads_exists Rows r t1 HR1 H1r) as (v1 & Hv1).
    destruct (reads_exists Rows r t2 HR2 H1r) as (v2 & Hv2).
    destruct (reads_exists Rows r t3 HR3 H1r) as (v3 & Hv3).
    rewrite (attr_at Rows r t3 v3 HR3 H1r Hv3).
    destruct (attribute_set Rows r (Some na) None t1 t2 v2 v1 HR1 H1r Hv1) as (A & _). destruct (A E2 Hv2) as [A1 _].
    destruct (attribute_set Rows r None (Some st) t2 t3 v3 v2 HR2 H1r Hv2) as (_ & B & _). destruct (B E3 Hv3) as [B1 B2].
    rewrite B1, B2, A1. reflexivity. }
  split.
  - exact HR3.
  - unfold table_iter, grid_iter. rewrite G3, G2. unfold t1. rewrite read_grid. exact HP.
  - apply colcount_modify_rows, colcount_modify_rows, H1.
  - intros i. destruct (Nat.eq_dec i (Z.to_nat (r - 1))) as [->|Hi].
    + rewrite Hsame. replace (Z.to_nat (r - 1)) with (List.length rows) by lia.
      rewrite nth_error_app2 by lia. rewrite Nat.sub_diag. cbn. auto.
    + rewrite Hother by (right; lia). pose proof (ag_rows _ _ _ _ _ _ H1 i) as R.
      destruct (Nat.lt_ge_cases i (List.length rows)) as [L|L].
      * rewrite nth_error_app1 by exact L. exact R.
      * rewrite nth_error_app2 by exact L. destruct (i - List.length rows)%nat eqn:Ei; [lia|].
        assert (En : nth_error rows i = None) by (apply nth_error_None; exact L). rewrite En in R. cbn. destruct n0; exact R.
  - intros i. rewrite Hother by (left; reflexivity). apply H1.
Qed.

Lemma agrees_column ns t n g rows cs m c st :
  agrees ns t n g rows cs -> 1 <= m -> has_styles st (column_style ns c) -> dict_ok st ->
  exists t', view_update_styles Cols m st t = (t', Ok tt) /\ agrees ns t' (Z.max n m) g rows (colstyles_with ns m c cs).
Proof.
  intros H Hm Hst Hok. pose proof H as [HR HP HC HRo HCo]. unfold view_update_styles.
  set (f := fun v => with_styles (dupdate (v_styles v) st) v).
  assert (Ff : forall v, v_pos (f v) = v_pos v /\ v_owned (f v) = v_owned v /\ v_caught (f v) = v_caught v)
    by (intros; split; [|split]; reflexivity).
  destruct (modify_ok Cols m f t Ff HR Hm) as [E G]. set (t' := fst (view_modify Cols m f t)) in *.
  assert (HR' : treachable t') by exact (treach_step t (TUpdateStyles Cols m st) HR).
  exists t'. split; [exact E|].
  assert (Hother : forall ax i, (ax = Rows \/ Z.of_nat i + 1 <> m) -> attr ax t' i = attr ax t i).
  { intros ax i Hd. apply (attr_keep (TUpdateStyles Cols m st) t ax i HR eq_refl). intros [X [Y|Y]]; [destruct Hd; congruence|lia]. }
  split.
  - exact HR'.
  - unfold table_iter, grid_iter. rewrite G. exact HP.
  - apply colcount_modify_cols; assumption.
  - intros i. rewrite Hother by (left; reflexivity). apply HRo.
  - intros i. unfold col_ok, colstyles_with. destruct (Z.eqb_spec (Z.of_nat i + 1) m) as [<-|Hi].
    + destruct (reads_exists Cols (Z.of_nat i + 1) t HR Hm) as (v & Hv).
      destruct (reads_exists Cols (Z.of_nat i + 1) t' HR' Hm) as (v' & Hv').
      destruct (attribute_set Cols (Z.of_nat i + 1) None None t t' v' v HR Hm Hv) as (_ & _ & A).
      destruct (A st Hok E Hv') as [A1 A2]. pose proof (HCo i) as [B1 B2].
      pose proof (attr_at Cols _ t v HR Hm Hv) as Ea. pose proof (attr_at Cols _ t' v' HR' Hm Hv') as Ea'.
      replace (Z.to_nat (Z.of_nat i + 1 - 1)) with i in * by lia. rewrite Ea in B1, B2. rewrite Ea'. cbn [fst snd] in *.
      split; [congruence|]. intros k. rewrite A2, Hst, B2. unfold or_else. destruct (column_style ns c k); reflexivity.
    + rewrite Hother by (right; exact Hi). apply HCo.
Qed.
