(** * Proofs about tables *)
From Verif Require Import Base M_Geometry M_Xml M_Cell M_Grid M_Table.
From Verif Require Import S_Geometry S_Cell S_Grid S_Table P_Geometry P_Cell P_Grid P_GridFacts.

(** ** Lists *)

Lemma nth_error_ext {A} (l m : list A) : (forall i, nth_error l i = nth_error m i) -> l = m.
Proof.
  revert m. induction l as [|a l IH]; intros [|b m] H; auto.
  - specialize (H O). discriminate.
  - specialize (H O). discriminate.
  - pose proof (H O) as H0. cbn in H0. injection H0 as <-. f_equal. apply IH.
    intros i. exact (H (S i)).
Qed.

Lemma nth_error_upd_nth {A} (l : list A) n f i :
  nth_error (upd_nth l n f) i =
  if Nat.eqb i n then option_map f (nth_error l i) else nth_error l i.
Proof.
  revert n i. induction l as [|a l IH]; intros [|n] [|i]; cbn; auto.
  - destruct (Nat.eqb i n); reflexivity.
Qed.

Lemma upd_nth_length {A} (l : list A) n f : List.length (upd_nth l n f) = List.length l.
Proof. revert n. induction l as [|a l IH]; intros [|n]; cbn; auto. Qed.

Lemma py_index_pos {A} (l : list A) p :
  1 <= p <= Z.of_nat (List.length l) -> py_index l (p - 1) = Some (Z.to_nat (p - 1)).
Proof. intros H. unfold py_index. destruct (_ && _) eqn:E; [reflexivity|]. lia. Qed.

Lemma py_upd_pos {A} (l : list A) p f :
  1 <= p <= Z.of_nat (List.length l) -> py_upd l (p - 1) f = Ok (upd_nth l (Z.to_nat (p - 1)) f).
Proof. intros H. unfold py_upd. rewrite py_index_pos by exact H. reflexivity. Qed.

Lemma py_nth_pos {A} (l : list A) p :
  1 <= p <= Z.of_nat (List.length l) ->
  exists a, py_nth l (p - 1) = Ok a /\ nth_error l (Z.to_nat (p - 1)) = Some a.
Proof.
  intros H. unfold py_nth. rewrite py_index_pos by exact H.
  destruct (nth_error l (Z.to_nat (p - 1))) eqn:E; [eauto|].
  apply nth_error_None in E. lia.
Qed.

Lemma nth_error_zrange a b i :
  nth_error (zrange a b) i = if Z.of_nat i <? b - a then Some (a + Z.of_nat i) else None.
Proof.
  unfold zrange. rewrite nth_error_map.
  destruct (Z.of_nat i <? b - a) eqn:E.
  - rewrite nth_error_nth' with (d := O) by (rewrite seq_length; lia).
    cbn. rewrite seq_nth by lia. reflexivity.
  - replace (nth_error (seq 0 (Z.to_nat (b - a))) i) with (@None nat); [reflexivity|].
    symmetry. apply nth_error_None. rewrite seq_length. lia.
Qed.

(** ** View lists *)

Definition pos_ok (vs : list view) : Prop :=
  forall i v, nth_error vs i = Some v -> v_pos v = Z.of_nat i + 1.

Lemma pos_ok_nil : pos_ok [].
Proof. intros [|i] v H; discriminate. Qed.

Definition trunc (n : Z) (tr : bool) (vs : list view) : list view :=
  if tr then firstn (Z.to_nat n) vs else vs.

Lemma trunc_length n tr vs :
  0 <= n -> Z.of_nat (List.length (trunc n tr vs)) =
  if tr then Z.min n (Z.of_nat (List.length vs)) else Z.of_nat (List.length vs).
Proof. intros H. destruct tr; cbn; [rewrite firstn_length; lia | reflexivity]. Qed.

Lemma fit_length n tr vs :
  Z.of_nat (List.length (fit_to_size n tr vs)) =
  Z.max n (Z.of_nat (List.length (trunc n tr vs))).
Proof.
  unfold fit_to_size. fold (trunc n tr vs). rewrite app_length, map_length, zrange_length. lia.
Qed.

Lemma fit_length_true n vs : 0 <= n -> Z.of_nat (List.length (fit_to_size n true vs)) = n.
Proof. intros H. rewrite fit_length, trunc_length by exact H. lia. Qed.

Lemma fit_length_false n vs :
  Z.of_nat (List.length (fit_to_size n false vs)) = Z.max n (Z.of_nat (List.length vs)).
Proof. rewrite fit_length. reflexivity. Qed.

Lemma nth_error_trunc n tr vs i v : nth_error (trunc n tr vs) i = Some v -> nth_error vs i = Some v.
Proof.
  destruct tr; cbn; auto. intros H. rewrite <- (firstn_skipn (Z.to_nat n) vs).
  rewrite nth_error_app1; auto. apply nth_error_Some. congruence.
Qed.

Lemma nth_error_fit n tr vs i v :
  nth_error (fit_to_size n tr vs) i = Some v ->
  nth_error (trunc n tr vs) i = Some v \/
  (Z.of_nat (List.length (trunc n tr vs)) <= Z.of_nat i < n /\ v = new_view (Z.of_nat i + 1)).
Proof.
  unfold fit_to_size. fold (trunc n tr vs). intros H.
  destruct (Nat.lt_ge_cases i (List.length (trunc n tr vs))) as [L|L].
  - rewrite nth_error_app1 in H by exact L. auto.
  - rewrite nth_error_app2 in H by exact L. rewrite nth_error_map, nth_error_zrange in H.
    destruct (_ <? _) eqn:E; [|discriminate]. cbn in H. injection H as <-.
    right. split; [lia|]. f_equal. lia.
Qed.

Lemma fit_pos_ok n tr vs : pos_ok vs -> pos_ok (fit_to_size n tr vs).
Proof.
  intros H i v Hv. apply nth_error_fit in Hv as [Hv|[_ ->]].
  - apply H. eapply nth_error_trunc, Hv.
  - reflexivity.
Qed.

Lemma fit_small n vs : n <= Z.of_nat (List.length vs) -> fit_to_size n false vs = vs.
Proof.
  intros H. unfold fit_to_size, zrange.
  replace (Z.to_nat (n - Z.of_nat (List.length vs))) with O by lia. apply app_nil_r.
Qed.

(** *** adopting a cell *)

Lemma view_adopt_pos ax c v : v_pos (view_adopt ax c v) = v_pos v.
Proof. reflexivity. Qed.

Lemma can_own_spec ax v c : can_own ax v c = true <-> starts_at ax (v_pos v) c.
Proof. unfold can_own, c_min; destruct ax; cbn; lia. Qed.

Lemma can_catch_spec ax v c :
  valid (c_box c) -> (can_catch ax v c = true <-> spans ax (v_pos v) c).
Proof. intros V. destruct ax; unfold can_catch; rewrite box_has_covers; unfold covers, valid, spans, c_min in *; cbn; lia. Qed.

Lemma view_adopt_outside ax c v :
  valid (c_box c) -> ~ (ax_lo ax (c_box c) <= v_pos v <= ax_hi ax (c_box c)) -> view_adopt ax c v = v.
Proof.
  intros V H. unfold view_adopt.
  destruct (can_own ax v c) eqn:E1.
  { exfalso. apply can_own_spec in E1. destruct V as [V1 V2], ax; cbn in *; lia. }
  destruct (can_catch ax v c) eqn:E2.
  { exfalso. apply can_catch_spec in E2; auto. destruct ax; cbn in *; lia. }
  destruct v; reflexivity.
Qed.

Lemma adopt_at_nth ax c ps vs :
  NoDup ps -> (forall p, In p ps -> 1 <= p <= Z.of_nat (List.length vs)) ->
  exists vs', adopt_at ax c ps vs = Ok vs' /\
    forall i, nth_error vs' i =
      if existsb (fun p => p =? Z.of_nat i + 1) ps
      then option_map (view_adopt ax c) (nth_error vs i) else nth_error vs i.
Proof.
  revert vs. induction ps as [|p ps IH]; intros vs ND Hr.
  - exists vs. cbn. auto.
  - cbn [adopt_at]. rewrite py_upd_pos by (apply Hr; left; reflexivity). cbn [rbind].
    inversion ND as [|? ? Hn ND']; subst.
    destruct (IH (upd_nth vs (Z.to_nat (p - 1)) (view_adopt ax c)) ND') as (vs' & E & Hv).
    { intros q Hq. rewrite upd_nth_length. apply Hr. right. exact Hq. }
    exists vs'. split; [exact E|]. intros i. rewrite Hv. cbn [existsb].
    rewrite nth_error_upd_nth.
    assert (Hp : 1 <= p) by (apply Hr; left; reflexivity).
    destruct (p =? Z.of_nat i + 1) eqn:Ep; cbn [orb].
    + replace (Nat.eqb i (Z.to_nat (p - 1))) with true by (symmetry; apply Nat.eqb_eq; lia).
      destruct (existsb _ ps) eqn:Ex; [|reflexivity].
      exfalso. apply existsb_exists in Ex as (q & Hq & Eq). apply Hn.
      replace p with q by lia. exact Hq.
    + replace (Nat.eqb i (Z.to_nat (p - 1))) with false by (symmetry; apply Nat.eqb_neq; lia).
      reflexivity.
Qed.

Lemma ax_lo_valid ax b : valid b -> 1 <= ax_lo ax b <= ax_hi ax b.
Proof. intros [H1 H2]. destruct ax; cbn; lia. Qed.

Lemma vl_adopt_eq ax c vs :
  pos_ok vs -> valid (c_box c) ->
  vl_adopt ax c vs = Ok (map (view_adopt ax c) (fit_to_size (ax_hi ax (c_box c)) false vs)).
Proof.
  intros HP V. unfold vl_adopt.
  set (fs := fit_to_size (ax_hi ax (c_box c)) false vs).
  pose proof (ax_lo_valid ax _ V) as HL.
  assert (HPf : pos_ok fs) by apply fit_pos_ok, HP.
  assert (HLf : ax_hi ax (c_box c) <= Z.of_nat (List.length fs)) by (unfold fs; rewrite fit_length_false; lia).
  destruct (adopt_at_nth ax c (zrange (ax_lo ax (c_box c)) (ax_hi ax (c_box c) + 1)) fs) as (vs' & E & Hv).
  - apply NoDup_zrange.
  - intros p Hp. apply in_zrange in Hp. lia.
  - rewrite E. f_equal. apply nth_error_ext. intros i. rewrite Hv, nth_error_map.
    destruct (existsb _ _) eqn:Ex; [reflexivity|].
    destruct (nth_error fs i) as [v|] eqn:Ei; [|reflexivity]. cbn. f_equal. symmetry.
    apply view_adopt_outside; [exact V|]. rewrite (HPf i v Ei). intros Hin.
    assert (existsb (fun p => p =? Z.of_nat i + 1) (zrange (ax_lo ax (c_box c)) (ax_hi ax (c_box c) + 1)) = true).
    { apply existsb_exists. exists (Z.of_nat i + 1). split; [apply in_zrange; lia|lia]. }
    congruence.
Qed.

(** *** What a view list shows: the sequence of adopted cells *)

Definition vl_rep (ax : axis) (h : list cell) (vs : list view) : Prop :=
  pos_ok vs /\
  (forall c, In c h -> valid (c_box c) /\ ax_hi ax (c_box c) <= Z.of_nat (List.length vs)) /\
  (forall v, In v vs -> v_owned v = filter (can_own ax v) h /\ v_caught v = filter (can_catch ax v) h).

Lemma filter_none {A} (f : A -> bool) l : (forall a, In a l -> f a = false) -> filter f l = [].
Proof.
  induction l as [|a l IH]; intros H; cbn; [reflexivity|].
  rewrite (H a) by (left; reflexivity). apply IH. intros b Hb. apply H. right. exact Hb.
Qed.

Lemma filter_ext_In {A} (f g : A -> bool) l : (forall a, In a l -> f a = g a) -> filter f l = filter g l.
Proof.
  induction l as [|a l IH]; intros H; cbn; [reflexivity|].
  rewrite (H a) by (left; reflexivity). rewrite IH; [reflexivity|]. intros b Hb. apply H. right. exact Hb.
Qed.

Lemma can_own_pos ax v v' c : v_pos v = v_pos v' -> can_own ax v c = can_own ax v' c.
Proof. intros H. destruct ax; cbn; rewrite H; reflexivity. Qed.
Lemma can_catch_pos ax v v' c : v_pos v = v_pos v' -> can_catch ax v c = can_catch ax v' c.
Proof. intros H. destruct ax; cbn; rewrite H; reflexivity. Qed.

Lemma beyond_not_seen ax h n v :
  (forall c, In c h -> valid (c_box c) /\ ax_hi ax (c_box c) <= n) -> n < v_pos v ->
  filter (can_own ax v) h = [] /\ filter (can_catch ax v) h = [].
Proof.
  intros H Hn. split; apply filter_none; intros c Hc; destruct (H c Hc) as [V L];
    pose proof (ax_lo_valid ax _ V) as HL.
  - destruct (can_own ax v c) eqn:E; [|reflexivity]. apply can_own_spec in E. destruct ax; cbn in *; lia.
  - destruct (can_catch ax v c) eqn:E; [|reflexivity]. apply can_catch_spec in E; auto. destruct ax; cbn in *; lia.
Qed.

Lemma vl_rep_fit ax h n vs : vl_rep ax h vs -> vl_rep ax h (fit_to_size n false vs).
Proof.
  intros (HP & HC & HV). split; [apply fit_pos_ok, HP|]. split.
  - intros c Hc. destruct (HC c Hc) as [V L]. split; [exact V|]. rewrite fit_length_false. lia.
  - intros v Hv. apply In_nth_error in Hv as [i Hi].
    apply nth_error_fit in Hi as [Hi|[Hi ->]].
    + apply HV. eapply nth_error_In, Hi.
    + cbn [trunc] in Hi. destruct (beyond_not_seen ax h (Z.of_nat (List.length vs)) (new_view (Z.of_nat i + 1)) HC) as [E1 E2].
      * cbn. lia.
      * rewrite E1, E2. split; reflexivity.
Qed.

Lemma vl_rep_adopt ax h c vs :
  vl_rep ax h vs -> valid (c_box c) ->
  exists vs', vl_adopt ax c vs = Ok vs' /\ vl_rep ax (h ++ [c]) vs'.
Proof.
  intros HR V. destruct HR as (HP & HC & HV) eqn:EHR. clear EHR.
  exists (map (view_adopt ax c) (fit_to_size (ax_hi ax (c_box c)) false vs)).
  split; [apply vl_adopt_eq; assumption|].
  destruct (vl_rep_fit ax h (ax_hi ax (c_box c)) vs HR) as (FP & FC & FV).
  split; [|split].
  - intros i v Hv. rewrite nth_error_map in Hv.
    destruct (nth_error (fit_to_size _ _ _) i) as [w|] eqn:E; [|discriminate]. cbn in Hv. injection Hv as <-.
    rewrite view_adopt_pos. apply FP, E.
  - intros d Hd. rewrite map_length. apply in_app_iff in Hd as [Hd|[<-|[]]].
    + apply FC, Hd.
    + split; [exact V|]. rewrite fit_length_false. lia.
  - intros v Hv. apply in_map_iff in Hv as (w & <- & Hw). destruct (FV w Hw) as [E1 E2].
    unfold view_adopt at 1 3. cbn [v_owned v_caught].
    rewrite !filter_app. cbn [filter].
    rewrite (filter_ext (can_own ax (view_adopt ax c w)) (can_own ax w))
      by (intros; apply can_own_pos; reflexivity).
    rewrite (filter_ext (can_catch ax (view_adopt ax c w)) (can_catch ax w))
      by (intros; apply can_catch_pos; reflexivity).
    rewrite (can_own_pos ax (view_adopt ax c w) w) by reflexivity.
    rewrite (can_catch_pos ax (view_adopt ax c w) w) by reflexivity.
    rewrite <- E1, <- E2.
    destruct (can_own ax w c), (can_catch ax w c); rewrite ?app_nil_r; split; reflexivity.
Qed.

Lemma vl_rep_adopt_all ax cells h vs :
  vl_rep ax h vs -> all_valid cells ->
  exists vs', vl_adopt_all ax cells vs = Ok vs' /\ vl_rep ax (h ++ cells) vs'.
Proof.
  revert h vs. induction cells as [|c cells IH]; intros h vs HR HV.
  - exists vs. rewrite app_nil_r. split; [reflexivity|exact HR].
  - inversion HV as [|? ? V HV']; subst. destruct (vl_rep_adopt ax h c vs HR V) as (vs1 & E1 & R1).
    destruct (IH (h ++ [c]) vs1 R1 HV') as (vs2 & E2 & R2).
    exists vs2. cbn. rewrite E1. cbn. split; [exact E2|]. rewrite <- app_assoc in R2. exact R2.
Qed.

Lemma vl_rep_reset ax n vs : pos_ok vs -> vl_rep ax [] (map view_reset (fit_to_size n true vs)).
Proof.
  intros HP. split; [|split].
  - intros i v Hv. rewrite nth_error_map in Hv.
    destruct (nth_error (fit_to_size _ _ _) i) as [w|] eqn:E; [|discriminate]. cbn in Hv. injection Hv as <-.
    cbn. apply (fit_pos_ok n true vs HP i w E).
  - intros c [].
  - intros v Hv. apply in_map_iff in Hv as (w & <- & _). split; reflexivity.
Qed.

Lemma vl_rep_refresh ax g vs :
  pos_ok vs -> all_valid g ->
  exists vs', vl_refresh ax g vs = Ok vs' /\ vl_rep ax g vs'.
Proof.
  intros HP HV. unfold vl_refresh.
  destruct (bounding_box_spec g HV) as [[-> E]|(Hne & bb & E & _)]; rewrite E; cbn [rbind].
  - exists []. split; [reflexivity|]. split; [apply pos_ok_nil|]. split; intros ? [].
  - destruct (vl_rep_adopt_all ax g [] _ (vl_rep_reset ax (ax_hi ax bb) vs HP) HV) as (vs' & E' & R).
    eauto.
Qed.

(** ** Tables *)

Lemma t_views_set ax ax' vs t :
  t_views ax (t_set_views ax' vs t) =
  match ax, ax' with Rows, Rows | Cols, Cols => Some vs | _, _ => t_views ax t end.
Proof. destruct ax, ax'; reflexivity. Qed.
Lemma t_grid_set ax vs t : t_grid (t_set_views ax vs t) = t_grid t.
Proof. destruct ax; reflexivity. Qed.
Lemma t_styles_set ax vs t : t_styles (t_set_views ax vs t) = t_styles t.
Proof. destruct ax; reflexivity. Qed.
Lemma t_nature_set ax vs t : t_nature (t_set_views ax vs t) = t_nature t.
Proof. destruct ax; reflexivity. Qed.

(** [gh ax t oh]: the ghost sequence of adopted cells of a view list *)
Definition gh (ax : axis) (t : table) (oh : option (list cell)) : Prop :=
  match t_views ax t, oh with
  | None, None => True
  | Some vs, Some h => vl_rep ax h vs
  | _, _ => False
  end.

Definition other (ax : axis) : axis := match ax with Rows => Cols | Cols => Rows end.

Definition seen (oh : option (list cell)) (g : grid) : list cell :=
  match oh with Some h => h | None => g end.

(** The state of a table with its two ghosts *)
Definition tst (t : table) (g : grid) (orr oc : option (list cell)) : Prop :=
  t_grid t = g /\ gh Rows t orr /\ gh Cols t oc.

Definition ghost_set (ax : axis) (h : list cell) (o : option (list cell) * option (list cell)) :=
  match ax with Rows => (Some h, snd o) | Cols => (fst o, Some h) end.
Definition ghost_of (ax : axis) (o : option (list cell) * option (list cell)) :=
  match ax with Rows => fst o | Cols => snd o end.

Definition st (t : table) (g : grid) (o : option (list cell) * option (list cell)) : Prop :=
  t_grid t = g /\ forall ax, gh ax t (ghost_of ax o).

Lemma views_put_st ax vs h t g o :
  st t g o -> vl_rep ax h vs ->
  views_put ax vs t = (t_set_views ax vs t, Ok tt) /\ st (t_set_views ax vs t) g (ghost_set ax h o).
Proof.
  intros [Hg Hv] HR. split; [reflexivity|]. split; [rewrite t_grid_set; exact Hg|].
  intros ax'. unfold gh. rewrite t_views_set.
  pose proof (Hv ax') as H. unfold gh in H.
  destruct ax, ax', o as [o1 o2]; cbn in *; auto.
Qed.

Lemma views_get_st ax t g o :
  st t g o -> all_valid g ->
  exists t' vs, views_get ax t = (t', Ok vs) /\ st t' g (ghost_set ax (seen (ghost_of ax o) g) o) /\
                t_views ax t' = Some vs /\ vl_rep ax (seen (ghost_of ax o) g) vs.
Proof.
  intros [Hg Hv] HV. unfold views_get, sbind, sget.
  pose proof (Hv ax) as Ha. unfold gh in Ha.
  destruct (t_views ax t) as [vs|] eqn:E.
  - destruct (ghost_of ax o) as [h|] eqn:Eo; [|contradiction].
    exists t, vs. split; [reflexivity|]. split; [|split; [exact E|exact Ha]].
    split; [exact Hg|]. intros ax'. pose proof (Hv ax') as H'.
    destruct ax, ax', o as [o1 o2]; cbn in *; subst; auto; unfold gh in *; cbn in *.
  - destruct (ghost_of ax o) as [h|] eqn:Eo; [contradiction|].
    destruct (vl_rep_refresh ax g [] pos_ok_nil HV) as (vs & Evs & R).
    rewrite Hg, Evs. unfold slift, sput, sret.
    exists (t_set_views ax vs t), vs. split; [reflexivity|].
    split; [|split; [rewrite t_views_set; destruct ax; reflexivity|exact R]].
    apply (views_put_st ax vs g t g o); [split; assumption|exact R].
Qed.

Lemma ghost_set_set ax h h' o : ghost_set ax h (ghost_set ax h' o) = ghost_set ax h o.
Proof. destruct ax, o; reflexivity. Qed.
Lemma ghost_of_set ax h o : ghost_of ax (ghost_set ax h o) = Some h.
Proof. destruct ax, o; reflexivity. Qed.
Lemma ghost_of_set_other ax ax' h o : ax <> ax' -> ghost_of ax (ghost_set ax' h o) = ghost_of ax o.
Proof. destruct ax, ax', o; congruence || reflexivity. Qed.

Lemma view_get_st ax p t g o :
  st t g o -> all_valid g ->
  exists t' vs, st t' g (ghost_set ax (seen (ghost_of ax o) g) o) /\
     t_views ax t' = Some vs /\ vl_rep ax (seen (ghost_of ax o) g) vs /\
     p <= Z.of_nat (List.length vs) /\
     view_get ax p t = (t', py_nth vs (p - 1)).
Proof.
  intros HS HV. destruct (views_get_st ax t g o HS HV) as (t1 & vs & E & HS1 & E1 & R).
  unfold view_get, sbind. rewrite E.
  pose proof (vl_rep_fit ax _ p vs R) as R'.
  destruct (views_put_st ax _ _ t1 g _ HS1 R') as [E2 HS2]. rewrite E2.
  exists (t_set_views ax (fit_to_size p false vs) t1), (fit_to_size p false vs).
  rewrite ghost_set_set in HS2. split; [exact HS2|].
  split; [rewrite t_views_set; destruct ax; reflexivity|]. split; [exact R'|].
  split; [rewrite fit_length_false; lia|reflexivity].
Qed.

Lemma refresh_cell_st c t g o :
  st t g o -> all_valid g -> valid (c_box c) ->
  exists t', refresh_cell c t = (t', Ok tt) /\
    st t' g (Some (seen (fst o) g ++ [c]), Some (seen (snd o) g ++ [c])).
Proof.
  intros HS HV V. unfold refresh_cell, sbind, slift.
  destruct (views_get_st Rows t g o HS HV) as (t1 & rs & E1 & HS1 & _ & R1). rewrite E1.
  destruct (vl_rep_adopt Rows _ c rs R1 V) as (rs' & E2 & R2). rewrite E2.
  destruct (views_put_st Rows _ _ t1 g _ HS1 R2) as [E3 HS3]. rewrite E3.
  destruct (views_get_st Cols _ g _ HS3 HV) as (t4 & cs & E4 & HS4 & _ & R4). rewrite E4.
  destruct (vl_rep_adopt Cols _ c cs R4 V) as (cs' & E5 & R5). rewrite E5.
  destruct (views_put_st Cols _ _ t4 g _ HS4 R5) as [E6 HS6].
  exists (t_set_views Cols cs' t4). rewrite E6. split; [reflexivity|].
  destruct o as [o1 o2]. exact HS6.
Qed.

Lemma refresh_all_st t g o :
  st t g o -> all_valid g ->
  exists t', refresh_all t = (t', Ok tt) /\ st t' g (Some g, Some g).
Proof.
  intros HS HV. unfold refresh_all, sbind, slift, sget.
  destruct (views_get_st Rows t g o HS HV) as (t1 & rs & E1 & HS1 & _ & R1). rewrite E1.
  replace (t_grid t1) with g by (symmetry; apply HS1).
  destruct (vl_rep_refresh Rows g rs (proj1 R1) HV) as (rs' & E2 & R2). rewrite E2.
  destruct (views_put_st Rows _ _ t1 g _ HS1 R2) as [E3 HS3]. rewrite E3.
  destruct (views_get_st Cols _ g _ HS3 HV) as (t4 & cs & E4 & HS4 & _ & R4). rewrite E4.
  destruct (vl_rep_refresh Cols g cs (proj1 R4) HV) as (cs' & E5 & R5). rewrite E5.
  destruct (views_put_st Cols _ _ t4 g _ HS4 R5) as [E6 HS6].
  exists (t_set_views Cols cs' t4). rewrite E6. split; [reflexivity|].
  destruct o as [o1 o2]. exact HS6.
Qed.

Lemma on_grid_st {A} (m : SM grid A) t g o :
  st t g o -> exists t', on_grid m t = (t', snd (m g)) /\ st t' (fst (m g)) o.
Proof.
  intros [Hg Hv]. unfold on_grid. rewrite Hg. destruct (m g) as [g' r].
  eexists. split; [reflexivity|]. split; [reflexivity|].
  intros ax. specialize (Hv ax). destruct ax; exact Hv.
Qed.
