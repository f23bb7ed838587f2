(** * The tables which are rectangles *)
From Verif Require Import Base M_Geometry M_Xml M_Cell M_Grid M_Table M_Str M_Cals M_CalsParser M_FormexParser M_FormexRead.
From Verif Require Import S_Geometry S_Grid S_Table S_Cals S_CalsParser S_RoundTrip S_FormexRead S_Convert.
From Verif Require Import P_Geometry P_Grid P_GridFacts P_Table P_CalsLayout P_CalsSim P_CalsTable P_CalsMore P_FormexSim P_FormexMore P_Parsed.
Open Scope list_scope.
Open Scope Z_scope.

Definition within_cols (n : Z) (cells : list cell) : Prop := forall c, In c cells -> valid (c_box c) /\ cx (bmax (c_box c)) <= n.
Definition reaches_col (n : Z) (cells : list cell) : Prop := exists c, In c cells /\ cx (bmax (c_box c)) = n.

Lemma bounds_some cells bb : bounds cells bb -> exists c, In c cells.
Proof.
  intros (HV & _ & HL). destruct cells as [|c l]; [|exists c; left; reflexivity]. exfalso.
  pose proof (HL (MkBox (Coord (cx (bmax bb) + 1) 1) (Coord (cx (bmax bb) + 1) 1))) as H. specialize (H ltac:(unfold valid in *; cbn; lia) ltac:(intros ? [])).
  specialize (H (bmax bb)). unfold covers, valid in *. cbn in *. lia.
Qed.
Lemma within_covers n cells c : within_cols n cells -> In c cells -> forall k, covers (c_box c) k -> cx k <= n.
Proof. intros H Hc k Hk. destruct (H c Hc) as [_ Hm]. unfold covers in Hk. lia. Qed.
Lemma bounds_within n cells bb : within_cols n cells -> bounds cells bb -> cx (bmax bb) <= n.
Proof.
  intros HW HB. destruct (bounds_some _ _ HB) as (c0 & H0). destruct HB as (HV & HS & HL).
  destruct (HW c0 H0) as [V0 M0]. pose proof (HS c0 H0 (bmin (c_box c0))) as S0. specialize (S0 ltac:(unfold covers, valid in *; lia)).
  destruct (Z_le_gt_dec (cx (bmax bb)) n) as [Hz|Hz]; [exact Hz|exfalso].
  assert (Hsub : subarea bb (MkBox (bmin bb) (Coord n (cy (bmax bb))))).
  { apply HL.
    - unfold covers, valid in *. cbn. lia.
    - intros c Hc k Hk. pose proof (within_covers _ _ _ HW Hc k Hk) as H1. specialize (HS c Hc k Hk). unfold covers in *. cbn. lia. }
  specialize (Hsub (bmax bb)). unfold covers, valid in *. cbn in Hsub. lia.
Qed.
Lemma bounds_reach n cells bb : within_cols n cells -> reaches_col n cells -> bounds cells bb -> cx (bmax bb) = n.
Proof.
  intros HW (c & Hc & E) HB. pose proof (bounds_within _ _ _ HW HB) as H1. destruct HB as (HV & HS & _). destruct (HW c Hc) as [V _].
  specialize (HS c Hc (bmax (c_box c))). unfold covers, valid in *. lia.
Qed.
Lemma within_fill n cells bb na ks : within_cols n cells -> valid bb -> cx (bmax bb) <= n -> (forall k, In k ks -> In k (area bb)) ->
  within_cols n (map (fun k => bare CNone na (MkBox k k)) ks ++ cells).
Proof.
  intros HW HV Hb Hk c Hc. apply in_app_iff in Hc as [Hc|Hc]; [|apply HW, Hc]. apply in_map_iff in Hc as (k & <- & Hin).
  apply Hk, area_in in Hin. unfold bare, covers, valid in *. cbn. lia.
Qed.
Lemma within_more n n' cells : n <= n' -> within_cols n cells -> within_cols n' cells.
Proof. intros Hn HW c Hc. destruct (HW c Hc). split; [assumption|lia]. Qed.
Lemma within_cons n cells ct na r i w h : 1 <= r -> 1 <= i -> 1 <= w -> 1 <= h -> within_cols n cells ->
  within_cols (Z.max n (i + w - 1)) (bare ct na (seat Rows r i w h) :: cells).
Proof.
  intros Hr Hi Hw Hh HW c [<-|Hc]; [|destruct (HW c Hc); split; [assumption|lia]]. unfold bare, seat, valid. cbn. lia.
Qed.

(** ** CALS *)
Lemma map_fill na (ks : list coord) (g : list spot) :
  map snd (map (fun k => (None, bare CNone na (MkBox k k)) : spot) ks ++ g) = map (fun k => bare CNone na (MkBox k k)) ks ++ map snd g.
Proof. rewrite map_app, map_map. reflexivity. Qed.
Lemma filled_within n bb na g g' : within_cols n (map snd g) -> valid bb -> cx (bmax bb) <= n -> filled bb na g g' -> within_cols n (map snd g').
Proof.
  intros HW HV Hb (ks & Hsel & ->). rewrite map_fill. apply (within_fill n _ bb); auto. intros k Hk. apply (selects_In _ _ _ k Hsel) in Hk. apply Hk.
Qed.
Lemma placed_within ns watch r na k es n g n2 g2 : placed ns watch r na k es n g n2 g2 -> 1 <= r -> within_cols n (map snd g) -> n <= n2 /\ within_cols n2 (map snd g2).
Proof.
  induction 1 as [k n g|k e es n g i w h g1 n2 g2 _ Hw Hh Hf _ Hset HP IH]; intros Hr HW; [split; [lia|exact HW]|].
  assert (HW1 : within_cols (Z.max n (i + w - 1)) (map snd g1)).
  { pose proof (within_cons n (map snd g) (content_of e) na r i w h Hr (proj1 Hf) Hw Hh HW) as HX.
    destruct Hset as [x bb g' _ _ _ Hb Hfill|_]; [|exact HX]. eapply filled_within; [| | |exact Hfill]; [exact HX|apply Hb|exact (bounds_within _ _ _ HX Hb)]. }
  destruct (IH Hr HW1). split; [lia|assumption].
Qed.
Lemma lays_rows_reach ns watch its l l' : lays ns watch its l l' -> (forall c, ~ In (Column c) its) -> 0 <= l_row l -> its <> [] \/ reaches_col (l_cols l) (map snd (l_spots l)) ->
  within_cols (l_cols l) (map snd (l_spots l)) -> within_cols (l_cols l') (map snd (l_spots l')) /\ reaches_col (l_cols l') (map snd (l_spots l')).
Proof.
  intros HL. induction HL as [l|c its r k n g cs m l' Hm H IH|na sec row its r k n g cs n1 g1 g2 l' Hp Hn Hf H IH]; intros HC Hr HX HW.
  - split; [exact HW|]. destruct HX as [HX|HX]; [congruence|exact HX].
  - exfalso. apply (HC c). left. reflexivity.
  - cbn [l_row l_cols l_spots] in *. destruct (placed_within _ _ _ _ _ _ _ _ _ _ Hp ltac:(lia) HW) as [_ HW1].
    assert (HW2 : within_cols n1 (map snd g2)) by (eapply filled_within; [exact HW1| | |exact Hf]; unfold valid; cbn; lia).
    apply IH; [intros c Hc; apply (HC c); right; exact Hc|lia| |exact HW2]. right.
    destruct (filled_all _ _ _ _ (Coord n1 (r + 1)) Hf) as (s & Hs & Hcov); [unfold covers; cbn; lia|]. exists (snd s). split; [apply in_map, Hs|].
    destruct (HW2 (snd s)) as [_ HM]; [apply in_map, Hs|]. unfold covers in Hcov. cbn in Hcov. lia.
Qed.

Lemma placed_grow ns watch r na k es n g n2 g2 : placed ns watch r na k es n g n2 g2 -> incl g g2.
Proof.
  induction 1 as [k n g|k e es n g i w h g1 n2 g2 _ Hw Hh Hf _ Hset HP IH]; [apply incl_refl|]. intros s Hs. apply IH.
  destruct Hset as [x bb g' _ _ _ Hb Hfill|_]; [apply (filled_incl _ _ _ _ Hfill)|]; right; exact Hs.
Qed.
Lemma lays_grow ns watch its l l' : lays ns watch its l l' -> incl (l_spots l) (l_spots l').
Proof.
  intros HL. induction HL as [l|c its r k n g cs m l' Hm H IH|na sec row its r k n g cs n1 g1 g2 l' Hp Hn Hf H IH]; [apply incl_refl|exact IH|].
  intros s Hs. apply IH. cbn in *. apply (filled_incl _ _ _ _ Hf), (placed_grow _ _ _ _ _ _ _ _ _ _ Hp), Hs.
Qed.

Lemma tiles_bounds n cells cells' bb : within_cols n cells -> reaches_col n cells -> bounds cells bb -> incl cells cells' ->
  (forall c, In c cells' -> valid (c_box c) /\ subarea (c_box c) bb) -> (exists c, In c cells /\ covers (c_box c) (Coord 1 1)) ->
  (forall k, covers bb k -> exists c, In c cells' /\ covers (c_box c) k) -> no_overlap cells' -> tiles cells' n (cy (bmax bb)).
Proof.
  intros HW HR HB HI HS (c1 & Hc1 & Hcov1) HC HN. pose proof (bounds_reach _ _ _ HW HR HB) as En.
  destruct HB as (HV & HS0 & _). pose proof (HS0 c1 Hc1 _ Hcov1) as H1.
  assert (Eb : forall k, covers bb k <-> covers (MkBox (Coord 1 1) (Coord n (cy (bmax bb)))) k).
  { intros k. unfold covers, valid in *. cbn [bmin bmax cx cy] in *. lia. }
  split; [unfold valid in HV; lia|]. split; [unfold valid in HV; lia|]. split; [apply Forall_forall; intros c Hc; apply HS, Hc|]. split; [exact HN|].
  split; [intros c Hc k Hk; apply Eb, (proj2 (HS c Hc)), Hk|intros k Hk; apply HC, Eb, Hk].
Qed.
Lemma cals_tiles ns watch e l g : laid_out ns watch e l g -> columns_first (items ns e) -> no_overlap (map snd g) -> exists m, tiles (map snd g) (l_cols l) m.
Proof.
  intros HLO (a & b & Eab & Ha & Hb) HN. pose proof (laid_out_from _ _ _ _ _ HLO) as HF. destruct HLO as (HL & bb & HB & Hfill).
  pose proof HL as HL0. rewrite Eab in HL. apply lays_split in HL as (l1 & HA & HX). destruct (lays_columns _ _ _ _ _ Ha HA) as [E1 E2]. cbn in E1, E2.
  assert (Hne : b <> []).
  { intros ->. inversion HX; subst. rewrite E2 in HB. destruct (bounds_some _ _ HB) as (? & []). }
  destruct (lays_rows_reach _ _ _ _ _ HX Hb ltac:(lia) (or_introl Hne) ltac:(rewrite E2; intros ? [])) as [HW HR].
  exists (cy (bmax bb)). apply (tiles_bounds _ (map snd (l_spots l)) _ bb HW HR HB).
  - apply incl_map. intros s Hs. apply (filled_incl _ _ _ _ Hfill), Hs.
  - intros c Hc. pose proof Hc as Hc'. apply in_map_iff in Hc as (s & <- & Hs). split; [eapply spot_from_valid, HF, Hs|].
    destruct Hfill as (ks & Hsel & ->). apply in_app_iff in Hs as [Hs|Hs].
    + apply in_map_iff in Hs as (k & <- & Hk). apply (selects_In _ _ _ k Hsel) in Hk as [Hk _]. apply area_in in Hk. intros q Hq.
      unfold bare, covers in *. cbn in Hq. lia.
    + apply HB. apply in_map, Hs.
  - assert (H1 : 1 <= l_row l1 \/ exists na sec row b', b = Row na sec row :: b').
    { right. destruct b as [|[c|na sec row] b']; [congruence|exfalso; apply (Hb c); left; reflexivity|eauto 6]. }
    destruct H1 as [H1|(na & sec & row & b' & ->)]; [lia|]. inversion HX as [| |? ? ? ? r k n g0 cs n1 g1 g2 ? Hp Hn Hfl HY]; subst.
    cbn in E1, E2. subst r g0. destruct (filled_all _ _ _ _ (Coord 1 1) Hfl) as (s & Hs & Hcov); [unfold covers; cbn; lia|].
    exists (snd s). split; [|exact Hcov]. apply in_map. eapply lays_grow; [exact HY|exact Hs].
  - intros k Hk. destruct (filled_all _ _ _ _ _ Hfill Hk) as (s & Hs & Hcov). exists (snd s). split; [apply in_map, Hs|exact Hcov].
  - exact HN.
Qed.

(** ** Formex *)
Lemma fmap_fill na (ks : list coord) (g : list tile) :
  map snd (map (fun k => (no_look, bare CNone na (MkBox k k)) : tile) ks ++ g) = map (fun k => bare CNone na (MkBox k k)) ks ++ map snd g.
Proof. rewrite map_app, map_map. reflexivity. Qed.
Lemma covered_within n bb na g g' : within_cols n (map snd g) -> valid bb -> cx (bmax bb) <= n -> covered bb na g g' -> within_cols n (map snd g').
Proof.
  intros HW HV Hb (ks & Hsel & ->). rewrite fmap_fill. apply (within_fill n _ bb); auto. intros k Hk. apply (selects_In _ _ _ k Hsel) in Hk. apply Hk.
Qed.
Lemma seated_within ns watch r qs n g n2 g2 : seated ns watch r qs n g n2 g2 -> 1 <= r -> within_cols n (map snd g) ->
  n <= n2 /\ within_cols n2 (map snd g2) /\ grows g g2.
Proof.
  induction 1 as [n g|q qs n g i g1 n2 g2 Hw Hh Hf _ Hset HP IH]; intros Hr HW; [split; [lia|split; [exact HW|intros s Hs; exact Hs]]|].
  assert (HW1 : within_cols (Z.max n (i + q_width q - 1)) (map snd g1)).
  { pose proof (within_cons n (map snd g) (q_content q) (q_nature q) r i (q_width q) (q_height q) Hr (proj1 Hf) Hw Hh HW) as HX.
    destruct Hset as [e0 x bb g' _ _ _ _ Hb Hfill|_]; [|exact HX]. eapply covered_within; [| | |exact Hfill]; [exact HX|apply Hb|exact (bounds_within _ _ _ HX Hb)]. }
  destruct (IH Hr HW1) as (H1 & H2 & H3). split; [lia|]. split; [assumption|]. intros s Hs. apply H3, (settles_grows _ _ _ _ _ Hset). right. exact Hs.
Qed.
Lemma flays_rows_reach ns cns em watch its l l' : flays ns cns em watch its l l' -> (forall c, ~ In (FColumn c) its) -> 0 <= f_row l ->
  (f_tiles l <> [] -> reaches_col (f_cols l) (map snd (f_tiles l))) -> within_cols (f_cols l) (map snd (f_tiles l)) ->
  within_cols (f_cols l') (map snd (f_tiles l')) /\ (f_tiles l' <> [] -> reaches_col (f_cols l') (map snd (f_tiles l'))) /\ grows (f_tiles l) (f_tiles l').
Proof.
  intros HL. induction HL as [l|c its r k n g cs m l' Hm H IH|b e its r k n g cs qs n1 g1 g2 l' Ha Hp Hn Hf H IH|e its r k n g cs bb n1 g1 l' Hb Hp H IH]; intros HC Hr HX HW.
  - split; [exact HW|]. split; [exact HX|]. intros s Hs. exact Hs.
  - exfalso. apply (HC c). left. reflexivity.
  - cbn [f_row f_cols f_tiles] in *. destruct (seated_within _ _ _ _ _ _ _ _ Hp ltac:(lia) HW) as (_ & HW1 & HG).
    assert (HW2 : within_cols n1 (map snd g2)) by (eapply covered_within; [exact HW1| | |exact Hf]; unfold valid; cbn; lia).
    destruct IH as (I1 & I2 & I3); [intros c Hc; apply (HC c); right; exact Hc|lia| |exact HW2|].
    + intros _. destruct (covered_all _ _ _ _ (Coord n1 (r + 1)) Hf) as (s & Hs & Hcov); [unfold covers; cbn; lia|]. exists (snd s). split; [apply in_map, Hs|].
      destruct (HW2 (snd s)) as [_ HM]; [apply in_map, Hs|]. unfold covers in Hcov. cbn in Hcov. lia.
    + split; [exact I1|]. split; [exact I2|]. intros s Hs. apply I3, (covered_grows _ _ _ _ Hf), HG, Hs.
  - cbn [f_row f_cols f_tiles] in *. destruct (seated_within _ _ _ _ _ _ _ _ Hp ltac:(lia) HW) as (Hn & HW1 & HG).
    destruct (bounds_some _ _ Hb) as (c0 & Hc0). destruct HX as (c & Hc & Ec); [destruct g; [destruct Hc0|discriminate]|].
    destruct IH as (I1 & I2 & I3); [intros x Hx; apply (HC x); right; exact Hx|lia| |exact HW1|].
    + intros _. apply seated_inv in Hp as (i & g3 & Hw & Hh & Hfree & _ & Hset & Hrest). inversion Hrest; subst.
      match goal with |- reaches_col (Z.max (cx (bmax (c_box c))) ?z) _ => destruct (Z_le_gt_dec z (cx (bmax (c_box c)))) as [Hz|Hz] end.
      * exists c. split; [|lia]. apply in_map_iff in Hc as (s & <- & Hs). apply in_map, HG, Hs.
      * eexists. split; [apply in_map, (settles_grows _ _ _ _ _ Hset); left; reflexivity|]. unfold bare, seat. cbn in *. lia.
    + split; [exact I1|]. split; [exact I2|]. intros s Hs. apply I3, HG, Hs.
Qed.
Lemma flays_only_columns ns cns em watch its l l' : flays ns cns em watch its l l' -> (forall i, In i its -> exists c, i = FColumn c) -> f_row l' = f_row l /\ f_tiles l' = f_tiles l.
Proof.
  intros HL. induction HL as [l|c its r k n g cs m l' Hm H IH|b e its r k n g cs qs n1 g1 g2 l' Ha Hp Hn Hf H IH|e its r k n g cs bb n1 g1 l' Hb Hp H IH]; intros HC.
  - auto.
  - apply IH. intros i Hi. apply HC. right. exact Hi.
  - destruct (HC _ (or_introl eq_refl)) as (c & E). discriminate.
  - destruct (HC _ (or_introl eq_refl)) as (c & E). discriminate.
Qed.
Lemma formex_tiles ns cns em watch b bef e l g : flaid_out ns cns em watch b bef e l g -> fcolumns_first (fitems ns cns b bef e) -> no_overlap (map snd g) ->
  exists m, tiles (map snd g) (f_cols l) m.
Proof.
  intros (HL & bb & HB & Hfill) (a & x & Eab & Ha & Hb) HN. rewrite Eab in HL. apply flays_split in HL as (l1 & HA & HX).
  destruct (flays_only_columns _ _ _ _ _ _ _ HA Ha) as [E1 E2]. cbn in E1, E2.
  destruct (flays_rows_reach _ _ _ _ _ _ _ HX Hb ltac:(lia) ltac:(congruence) ltac:(rewrite E2; intros ? [])) as (HW & HR & _).
  assert (Hne : f_tiles l <> []) by (destruct (bounds_some _ _ HB) as (c & Hc); destruct (f_tiles l); [destruct Hc|discriminate]).
  exists (cy (bmax bb)). apply (tiles_bounds _ (map snd (f_tiles l)) _ bb HW (HR Hne) HB).
  - apply incl_map. intros s Hs. apply (covered_grows _ _ _ _ Hfill), Hs.
  - intros c Hc. apply in_map_iff in Hc as (s & <- & Hs). destruct Hfill as (ks & Hsel & ->). apply in_app_iff in Hs as [Hs|Hs].
    + apply in_map_iff in Hs as (k & <- & Hk). apply (selects_In _ _ _ k Hsel) in Hk as [Hk _]. apply area_in in Hk. destruct HB as (HV & _).
      split; [unfold bare, covers, valid in *; cbn; lia|]. intros q Hq. unfold bare, covers in *. cbn in Hq. lia.
    + split; [apply HW, in_map, Hs|apply HB, in_map, Hs].
  - destruct x as [|[c|b' row|nt] its].
    + inversion HX; subst. congruence.
    + exfalso. apply (Hb c). left. reflexivity.
    + inversion HX as [| |? ? ? r k n g0 cs qs n1 g1 g2 ? Hask Hp Hn Hf HY|]; subst. cbn in E1, E2. subst r g0.
      destruct (covered_all _ _ _ _ (Coord 1 1) Hf) as (s & Hs & Hcov); [unfold covers; cbn; lia|]. exists (snd s). split; [|exact Hcov]. apply in_map.
      destruct (seated_within _ _ _ _ _ _ _ _ Hp ltac:(lia)) as (_ & HW1 & _); [intros ? []|].
      assert (HW2 : within_cols n1 (map snd g2)) by (eapply covered_within; [exact HW1| | |exact Hf]; unfold valid; cbn; lia).
      refine (proj2 (proj2 (flays_rows_reach _ _ _ _ _ _ _ HY _ _ _ _)) s Hs); cbn [f_row f_tiles f_cols].
      * intros c Hc. apply (Hb c). right. exact Hc.
      * lia.
      * intros _. destruct (covered_all _ _ _ _ (Coord n1 1) Hf) as (s2 & Hs2 & Hcov2); [unfold covers; cbn; lia|]. exists (snd s2). split; [apply in_map, Hs2|].
        destruct (HW2 (snd s2)) as [_ HM]; [apply in_map, Hs2|]. unfold covers in Hcov2. cbn in Hcov2. lia.
      * exact HW2.
    + inversion HX as [| | |? ? r k n g0 cs bb0 n1 g1 ? Hbb Hp HY]; subst. cbn in E2. subst g0. destruct (bounds_some _ _ Hbb) as (? & []).
  - intros k Hk. destruct (covered_all _ _ _ _ _ Hfill Hk) as (s & Hs & Hcov). exists (snd s). split; [apply in_map, Hs|exact Hcov].
  - exact HN.
Qed.

(** ** For the examples *)
Definition coversb (b : box) (k : coord) : bool := (cx (bmin b) <=? cx k) && (cx k <=? cx (bmax b)) && (cy (bmin b) <=? cy k) && (cy k <=? cy (bmax b)).
Definition apart (a b : box) : bool := (cx (bmax a) <? cx (bmin b)) || (cx (bmax b) <? cx (bmin a)) || (cy (bmax a) <? cy (bmin b)) || (cy (bmax b) <? cy (bmin a)).
Fixpoint all_apart (cells : list cell) : bool :=
  match cells with [] => true | c :: l => forallb (fun d => apart (c_box c) (c_box d)) l && all_apart l end.
Definition tilesb (cells : list cell) (n m : Z) : bool :=
  (1 <=? n) && (1 <=? m) &&
  forallb (fun c => coversb (MkBox (Coord 1 1) (Coord n m)) (bmin (c_box c)) && coversb (MkBox (Coord 1 1) (Coord n m)) (bmax (c_box c)) &&
                    (cx (bmin (c_box c)) <=? cx (bmax (c_box c))) && (cy (bmin (c_box c)) <=? cy (bmax (c_box c)))) cells &&
  all_apart cells && forallb (fun k => existsb (fun c => coversb (c_box c) k) cells) (area (MkBox (Coord 1 1) (Coord n m))).
Lemma coversb_covers b k : coversb b k = true <-> covers b k.
Proof. unfold coversb, covers. rewrite !andb_true_iff, !Z.leb_le. tauto. Qed.
Lemma apart_overlap a b : apart a b = true -> ~ overlap a b.
Proof. unfold apart. rewrite !orb_true_iff, !Z.ltb_lt. intros H (k & H1 & H2). unfold covers in *. lia. Qed.
Lemma all_apart_no_overlap cells : all_apart cells = true -> no_overlap cells.
Proof.
  induction cells as [|c l IH]; intros H; [constructor|]. cbn in H. apply andb_true_iff in H as [H1 H2]. constructor; [|apply IH, H2].
  apply Forall_forall. intros d Hd. rewrite forallb_forall in H1. apply apart_overlap, H1, Hd.
Qed.
Lemma tilesb_tiles cells n m : tilesb cells n m = true -> tiles cells n m.
Proof.
  unfold tilesb. rewrite !andb_true_iff, !Z.leb_le, !forallb_forall. intros ((((Hn & Hm) & HC) & HA) & HX). split; [exact Hn|]. split; [exact Hm|].
  assert (HC' : forall c, In c cells -> valid (c_box c) /\ subarea (c_box c) (MkBox (Coord 1 1) (Coord n m))).
  { intros c Hc. specialize (HC c Hc). rewrite !andb_true_iff, !coversb_covers, !Z.leb_le in HC. unfold covers in HC. cbn [bmin bmax cx cy] in HC. split; [unfold valid; lia|].
    intros k. unfold covers. cbn [bmin bmax cx cy]. lia. }
  split; [apply Forall_forall; intros c Hc; apply HC', Hc|]. split; [apply all_apart_no_overlap, HA|]. split; [intros c Hc; apply HC', Hc|].
  intros k Hk. apply area_in in Hk. specialize (HX k Hk). apply existsb_exists in HX as (c & Hc & Hcov). apply coversb_covers in Hcov. eauto.
Qed.
(** The layout of a table which is read *)
Lemma tiles_back {A} (R : cell -> A -> Prop) (f : A -> cell) l cells g n m :
  Permutation l cells -> Forall2 R l g -> (forall c a, R c a -> c_box c = c_box (f a)) -> tiles cells n m -> tiles (map f g) n m.
Proof.
  intros HP HF HR HT. assert (E : map c_box l = map c_box (map f g)).
  { clear - HF HR. induction HF as [|c a l g H F IH]; cbn; [reflexivity|]. rewrite IH, (HR c a H). reflexivity. }
  apply (tiles_boxes cells); [|apply (no_overlap_boxes l _ E), (no_overlap_shuffle _ _ (Permutation_sym HP)), HT|exact HT].
  intros b. rewrite <- E. split; intros H; [apply (Permutation_in _ (Permutation_map c_box (Permutation_sym HP))), H|apply (Permutation_in _ (Permutation_map c_box HP)), H].
Qed.
