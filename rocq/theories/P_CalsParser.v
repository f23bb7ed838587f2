(** * Facts about the CALS parser *)
From Verif Require Import Base M_Geometry M_Xml M_Cell M_Grid M_Table M_Regex M_Str M_Units M_Cals M_CalsParser.
From Verif Require Import S_Geometry S_Grid S_Table S_Units S_Cals S_Int S_CalsParser.
From Verif Require Import P_Geometry P_Cell P_Grid P_GridFacts P_Table P_TableStep P_TableFacts P_TableMore P_Units P_Builder P_Str P_Cals P_Int.
Open Scope list_scope.
Open Scope Z_scope.

(** ** The attributes of a table do not matter to its cells *)

Definition restyle (s : styles) (na : nature) (t : table) : table :=
  MkTable (t_grid t) (t_rows t) (t_cols t) s na.
Definition blind {A} (m : SM table A) : Prop :=
  forall t s na, m (restyle s na t) = (restyle s na (fst (m t)), snd (m t)).

Lemma blind_ret {A} (a : A) : blind (sret a).
Proof. intros t s na. reflexivity. Qed.
Lemma blind_raise {A} e : blind (sraise e : SM table A).
Proof. intros t s na. reflexivity. Qed.
Lemma blind_lift {A} (r : result A) : blind (slift r).
Proof. intros t s na. reflexivity. Qed.
Lemma blind_bind {A B} (m : SM table A) (k : A -> SM table B) :
  blind m -> (forall a, blind (k a)) -> blind (sbind m k).
Proof.
  intros Hm Hk t s na. unfold sbind. rewrite Hm. destruct (m t) as [t1 [a|e]]; cbn [fst snd]; [apply Hk|reflexivity].
Qed.
Lemma blind_get {B} (k : table -> SM table B) :
  (forall t s na, k (restyle s na t) = k t) -> (forall t, blind (k t)) -> blind (sbind sget k).
Proof. intros He Hk t s na. unfold sbind, sget. rewrite He. apply Hk. Qed.
Lemma blind_on_grid {A} (m : SM grid A) : blind (on_grid m).
Proof. intros t s na. unfold on_grid. cbn [t_grid restyle]. destruct (m (t_grid t)); reflexivity. Qed.
Lemma blind_views_get ax : blind (views_get ax).
Proof.
  intros t s na. unfold views_get, sbind, sget. replace (t_views ax (restyle s na t)) with (t_views ax t) by (destruct ax; reflexivity).
  destruct (t_views ax t); [reflexivity|]. unfold slift, sput, sret. cbn [t_grid restyle].
  destruct (vl_refresh ax (t_grid t) []); destruct ax; reflexivity.
Qed.
Lemma blind_views_put ax vs : blind (views_put ax vs).
Proof. intros t s na. destruct ax; reflexivity. Qed.
Lemma blind_view_get ax p : blind (view_get ax p).
Proof.
  apply blind_bind; [apply blind_views_get|]. intros vs. apply blind_bind; [apply blind_views_put|]. intros _. apply blind_lift.
Qed.
Lemma blind_refresh_cell c : blind (refresh_cell c).
Proof.
  apply blind_bind; [apply blind_views_get|]. intros rs. apply blind_bind; [apply blind_lift|]. intros rs'.
  apply blind_bind; [apply blind_views_put|]. intros _.
  apply blind_bind; [apply blind_views_get|]. intros cs. apply blind_bind; [apply blind_lift|]. intros cs'.
  apply blind_views_put.
Qed.
Lemma blind_refresh_all : blind refresh_all.
Proof.
  apply blind_bind; [apply blind_views_get|]. intros rs.
  apply blind_get; [reflexivity|]. intros t0.
  apply blind_bind; [apply blind_lift|]. intros rs'.
  apply blind_bind; [apply blind_views_put|]. intros _.
  apply blind_bind; [apply blind_views_get|]. intros cs. apply blind_bind; [apply blind_lift|]. intros cs'.
  apply blind_views_put.
Qed.
Lemma blind_setitem v c : blind (table_setitem v c).
Proof.
  apply blind_bind; [apply blind_on_grid|]. intros _.
  apply blind_get; [reflexivity|]. intros t0. apply blind_bind; [apply blind_lift|]. intros c'. apply blind_refresh_cell.
Qed.
Lemma blind_delitem v : blind (table_delitem v).
Proof. apply blind_bind; [apply blind_on_grid|]. intros _. apply blind_refresh_all. Qed.
Lemma blind_iter {A} (f : A -> SM table unit) l : (forall a, blind (f a)) -> blind (siter f l).
Proof.
  intros H. induction l as [|a l IH]; cbn [siter]; [apply blind_ret|]. apply blind_bind; [apply H|]. intros _. exact IH.
Qed.
Lemma blind_fill_one ct s na xy : blind (fill_one ct s na xy).
Proof.
  unfold fill_one. apply blind_get; [reflexivity|]. intros t0.
  apply blind_bind; [apply blind_lift|]. intros []; [apply blind_ret|].
  apply blind_bind; [apply blind_lift|]. intros c. apply blind_setitem.
Qed.
Lemma blind_modify ax p f : blind (view_modify ax p f).
Proof.
  apply blind_bind; [apply blind_view_get|]. intros v. apply blind_bind; [apply blind_views_get|]. intros vs.
  apply blind_bind; [apply blind_lift|]. intros vs'. apply blind_views_put.
Qed.
Lemma blind_unit {A} (m : SM table A) : blind m -> blind (unit_of m).
Proof. intros H. apply blind_bind; [exact H|]. intros _. apply blind_ret. Qed.
Lemma blind_insert ax p ct s na w h : blind (insert_cell ax p ct s na w h).
Proof.
  apply blind_bind; [apply blind_view_get|]. intros v. apply blind_bind; [apply blind_lift|]. intros i.
  apply blind_bind; [apply blind_lift|]. intros c. apply blind_setitem.
Qed.

Lemma blind_step op : blind (tstep op).
Proof.
  destruct op; cbn [tstep].
  - apply blind_setitem.
  - apply blind_delitem.
  - apply blind_bind; [apply blind_on_grid|]. intros _. apply blind_refresh_all.
  - apply blind_bind; [apply blind_on_grid|]. intros _. apply blind_refresh_all.
  - apply blind_iter. intros xy. apply blind_fill_one.
  - apply blind_insert.
  - apply blind_unit, blind_views_get.
  - apply blind_unit, blind_view_get.
  - apply blind_modify.
  - apply blind_modify.
  - apply blind_modify.
  - apply blind_unit. apply blind_get; [reflexivity|]. intros t0.
    apply blind_bind; [apply blind_lift|]. intros c. apply blind_bind; [apply blind_delitem|]. intros _. apply blind_ret.
  - apply blind_unit. intros t s na. unfold table_setdefault, table_getitem. cbn [t_grid restyle].
    destruct (grid_getitem (t_grid t) v) as [d|[]]; try reflexivity.
    assert (H : blind (table_setitem v c ;;; sret c)).
    { apply blind_bind; [apply blind_setitem|]. intros _. apply blind_ret. }
    apply H.
  - apply blind_iter. intros kv. apply blind_setitem.
  - apply blind_unit. unfold table_popitem, table_iter, table_getitem.
    apply blind_get; [reflexivity|]. intros t0. destruct (grid_iter (t_grid t0)) as [|c g]; [apply blind_raise|].
    apply blind_bind; [apply blind_lift|]. intros d. apply blind_bind; [apply blind_delitem|]. intros _. apply blind_ret.
Qed.

Lemma treachable_restyle t s na : treachable t -> treachable (restyle s na t).
Proof.
  induction 1 as [cells s0 na0 t E | t op _ IH].
  - unfold table_new in E. destruct (grid_new cells) as [g|e] eqn:Eg; cbn in E; [|discriminate]. injection E as <-.
    apply (treach_new cells (Some s) na). unfold table_new. rewrite Eg. reflexivity.
  - pose proof (blind_step op t s na) as H.
    replace (restyle s na (fst (tstep op t))) with (fst (tstep op (restyle s na t))) by (rewrite H; reflexivity).
    constructor. exact IH.
Qed.

(** ** The number of columns *)

Definition colcount (t : table) (n : Z) : Prop :=
  match t_cols t with None => t_grid t = [] /\ n = 0 | Some vs => n = Z.of_nat (List.length vs) end.

Lemma colcount_get t n : colcount t n -> exists vs, views_get Cols t = (fst (views_get Cols t), Ok vs) /\
  n = Z.of_nat (List.length vs) /\ colcount (fst (views_get Cols t)) n /\ t_grid (fst (views_get Cols t)) = t_grid t.
Proof.
  intros H. unfold colcount in H. unfold views_get, sbind, sget. cbn [t_views].
  destruct (t_cols t) as [vs|] eqn:E.
  - exists vs. unfold colcount. cbn. rewrite E. auto.
  - destruct H as [Hg ->]. rewrite Hg. unfold slift, vl_refresh. cbn. exists []. auto.
Qed.
Lemma colcount_rows t n : colcount t n -> colcount (fst (views_get Rows t)) n.
Proof.
  intros H. unfold views_get, sbind, sget. cbn [t_views]. destruct (t_rows t) as [vs|]; [exact H|].
  unfold slift. destruct (vl_refresh Rows (t_grid t) []); exact H.
Qed.
Lemma colcount_view_rows t n p : colcount t n -> colcount (fst (view_get Rows p t)) n.
Proof.
  intros H. apply colcount_rows in H. unfold view_get, sbind.
  destruct (views_get Rows t) as [t1 [vs|e]]; cbn [fst] in *; [|exact H]. exact H.
Qed.
Lemma colcount_count t n : colcount t n -> view_count Cols t n.
Proof.
  intros H. destruct (colcount_get t n H) as (vs & E & En & _). exists vs. rewrite E. auto.
Qed.

Lemma colcount_refresh c t n g o :
  st t g o -> all_valid g -> valid (c_box c) ->
  match t_cols t with None => g = [c] /\ n = 0 | Some vs => n = Z.of_nat (List.length vs) end ->
  colcount (fst (refresh_cell c t)) (Z.max n (cx (bmax (c_box c)))).
Proof.
  intros HS HV V H. unfold refresh_cell, sbind, slift.
  destruct (views_get_st Rows t g o HS HV) as (t1 & rs & E1 & HS1 & V1 & R1). rewrite E1.
  assert (Hc1 : t_cols t1 = t_cols t).
  { replace t1 with (fst (views_get Rows t)) by (rewrite E1; reflexivity). unfold views_get, sbind, sget. cbn [t_views].
    destruct (t_rows t); [reflexivity|]. unfold slift. destruct (vl_refresh Rows (t_grid t) []); reflexivity. }
  destruct (vl_rep_adopt Rows _ c rs R1 V) as (rs' & E2 & R2). rewrite E2.
  destruct (views_put_st Rows _ _ t1 g _ HS1 R2) as [E3 HS3]. rewrite E3.
  destruct (views_get_st Cols _ g _ HS3 HV) as (t4 & cs & E4 & HS4 & V4 & R4). rewrite E4.
  assert (Hn : Z.max n (cx (bmax (c_box c))) = Z.max (Z.of_nat (List.length cs)) (cx (bmax (c_box c)))).
  { unfold views_get, sbind, sget in E4. cbn [t_views t_cols t_set_views] in E4. rewrite Hc1 in E4.
    destruct (t_cols t) as [vs|].
    - cbn in E4. injection E4 as _ <-. congruence.
    - destruct H as [Hg ->]. cbn [t_grid] in E4. rewrite (proj1 HS1), Hg in E4. unfold slift, vl_refresh in E4.
      destruct (bounding_box_spec [c]) as [[X _]|(_ & bb & Eb & Vb & Hb)]; [apply Forall_cons; [exact V|apply Forall_nil]|discriminate X|].
      rewrite Eb in E4. cbn [rbind] in E4.
      destruct (bounding_box_least [c] bb) as (_ & B1 & B2); [apply Forall_cons; [exact V|apply Forall_nil]|exact Eb|].
      specialize (B1 c (or_introl eq_refl)).
      assert (B3 : subarea bb (c_box c)). { apply B2; [exact V|]. intros d [<-|[]]. apply subarea_refl. }
      assert (Ex : cx (bmax bb) = cx (bmax (c_box c))) by (rewrite (subarea_antisym bb (c_box c)); auto).
      cbn [vl_adopt_all ax_hi] in E4.
      rewrite vl_adopt_eq in E4 by (try exact V; apply (vl_rep_reset Cols _ [] pos_ok_nil)).
      cbn [rbind sput sret] in E4. injection E4 as _ <-. cbn [ax_hi].
      rewrite map_length. rewrite fit_length_false, map_length, fit_length. rewrite Ex. unfold trunc. rewrite firstn_nil. unfold valid in V. cbn [List.length]. lia. }
  rewrite vl_adopt_eq by (try exact V; apply R4). cbn [fst views_put sbind sget sput].
  unfold colcount, t_set_views. cbn [t_cols]. rewrite map_length, fit_length_false. cbn [ax_hi]. lia.
Qed.

Lemma colcount_set v c t o t' n :
  tinv t o -> table_setitem v c t = (t', Ok tt) -> colcount t n ->
  exists c', grid_getitem (t_grid t') v = Ok c' /\ Permutation (t_grid t') (c' :: t_grid t) /\
             colcount t' (Z.max n (cx (bmax (c_box c')))).
Proof.
  intros [HS HM] E Hn. pose proof (proj1 HM) as HI. cbn in HI.
  destruct (table_setitem_st v c t _ o HS HI) as [(e & _ & E')|(g' & c' & t1 & Eg & Hget & HP & HI' & E' & HS')]; [congruence|].
  rewrite E' in E. injection E as ->. pose proof (proj1 HS') as Et'. rewrite Et'. exists c'. split; [exact Hget|]. split; [exact HP|].
  unfold table_setitem, sbind, on_grid, sget, slift in E'. rewrite Eg in E'. cbn [t_grid] in E'. rewrite Hget in E'.
  set (t0 := MkTable g' (t_rows t) (t_cols t) (t_styles t) (t_nature t)) in *.
  replace t' with (fst (refresh_cell c' t0)) by (rewrite E'; reflexivity).
  assert (V : valid (c_box c')). { apply (inv_valid g'); [exact HI'|]. rewrite HP. left. reflexivity. }
  eapply (colcount_refresh c' t0 n g' o).
  - split; [reflexivity|]. intros ax. specialize (proj2 HS ax). unfold gh. destruct ax; cbn; auto.
  - apply HI'.
  - exact V.
  - unfold t0. cbn. unfold colcount in Hn. destruct (t_cols t); [exact Hn|]. destruct Hn as [Hg ->]. split; [|reflexivity].
    rewrite Hg in HP. apply Permutation_length_1_inv. symmetry. exact HP.
Qed.

Lemma colcount_fill bb ct s na t n :
  treachable t -> valid bb -> colcount t n -> cx (bmax bb) <= n ->
  colcount (fst (table_fill_missing bb ct s na t)) n.
Proof.
  intros HR V Hn Hle. destruct (treachable_tinv t HR) as (o & HT). unfold table_fill_missing.
  assert (Hps : forall p, In p (fill_positions bb) -> 1 <= fst p /\ 1 <= snd p /\ fst p <= n).
  { intros [x y] H. apply fill_positions_in in H. unfold covers, valid in *. cbn in *. lia. }
  clear Hle V HR. revert t o HT Hn Hps. generalize (fill_positions bb) as ps.
  induction ps as [|[x y] ps IH]; intros t o HT Hn Hps; [exact Hn|].
  cbn [siter]. unfold sbind. destruct (Hps (x, y) (or_introl eq_refl)) as (Hx & Hy & Hxn). cbn [fst snd] in *.
  destruct (fill_one_st ct s na x y t _ o (proj1 HT) (proj1 (proj2 HT)) Hx Hy) as [[Hc E]|(HF & g1 & t1 & Eg & Hget & HP1 & HI1 & E & HS1)];
    rewrite E.
  - eapply IH; eauto. intros p Hp. apply Hps. right. exact Hp.
  - pose proof (proj1 HS1) as Eg1. eapply (IH t1).
    + split; [rewrite Eg1; exact HS1|]. rewrite Eg1. eapply gt_mem_inv; [|apply HT]. eapply gt_set; eassumption.
    + set (c := unit_cell ct s na (Coord x y)) in *.
      assert (Es : exists c0, table_setitem (PTuple [PInt x; PInt y]) c0 t = (t1, Ok tt)).
      { unfold fill_one, sbind, sget, slift in E. cbn [fst snd] in E. destruct (table_contains t _) as [[]|e]; [| |discriminate].
        - injection E as <-. exfalso. rewrite Eg1 in HP1. apply Permutation_length in HP1. cbn in HP1. lia.
        - destruct (cell_new ct s na x y 1 1) as [c0|e]; [|discriminate]. exists c0. exact E. }
      destruct Es as (c0 & Es).
      destruct (colcount_set _ _ t o t1 n HT Es Hn) as (c' & Hg' & _ & Hn').
      rewrite Eg1 in Hg'. rewrite Hget in Hg'. injection Hg' as <-. unfold c in Hn'. cbn in Hn'.
      replace (Z.max n x) with n in Hn' by lia. exact Hn'.
    + intros p Hp. apply Hps. right. exact Hp.
Qed.

(** ** Styles *)

Lemma has_styles_nil : has_styles [] (fun _ => None).
Proof. intros k. reflexivity. Qed.
Lemma dict_ok_nil {V} : dict_ok ([] : dict V).
Proof. apply NoDup_nil. Qed.
Lemma in_keys_dset {V} (d : dict V) k v x : In x (map fst (dset d k v)) <-> x = k \/ In x (map fst d).
Proof.
  induction d as [|[k1 v1] d IH]; cbn; [intuition|].
  destruct (String.eqb_spec k k1) as [->|Hk]; cbn; [intuition congruence|]. rewrite IH. tauto.
Qed.
Lemma dict_ok_dset' {V} (d : dict V) k v : dict_ok d -> dict_ok (dset d k v).
Proof.
  unfold dict_ok. induction d as [|[k1 v1] d IH]; cbn; intros H; [constructor; [auto|constructor]|].
  inversion H; subst. destruct (String.eqb_spec k k1) as [->|Hk]; cbn; [constructor; auto|].
  constructor; [|auto]. rewrite in_keys_dset. intros [->|?]; contradiction.
Qed.
Lemma dict_ok_map_style d v k s : dict_ok s -> dict_ok (map_style d v k s).
Proof. intros H. unfold map_style. destruct v as [v|]; [|exact H]. destruct (dget d v); [apply dict_ok_dset'|]; exact H. Qed.
Lemma dict_ok_text_style v k s : dict_ok s -> dict_ok (text_style v k s).
Proof. intros H. unfold text_style. destruct (truthy v); [apply dict_ok_dset'|]; exact H. Qed.

Lemma dget_map_style d v k s x :
  dget (map_style d v k s) x =
  match (if String.eqb x k then match v with Some v => dget d v | None => None end else None) with
  | Some w => Some (SStr w) | None => dget s x end.
Proof.
  unfold map_style. destruct (String.eqb_spec x k) as [->|H].
  - destruct v as [v|]; [|reflexivity]. destruct (dget d v); [apply dget_dset_same|reflexivity].
  - destruct v as [v|]; [|reflexivity]. destruct (dget d v); [|reflexivity]. apply dget_dset_other. congruence.
Qed.
Lemma dget_text_style v k s x :
  dget (text_style v k s) x =
  match (if String.eqb x k then not_empty v else None) with
  | Some w => Some (SStr w) | None => dget s x end.
Proof.
  unfold text_style. destruct (String.eqb_spec x k) as [->|H].
  - destruct v as [[|c v]|]; cbn [truthy not_empty]; try reflexivity. apply dget_dset_same.
  - destruct (truthy v); [|reflexivity]. apply dget_dset_other. congruence.
Qed.

Lemma seps_line v : match v with Some v => dget SEPS v | None => None end = separator_line v.
Proof.
  destruct v as [v|]; [|reflexivity]. unfold SEPS, separator_line. cbn [dget].
  destruct (String.eqb v "0"); [reflexivity|]. destruct (String.eqb v "1"); reflexivity.
Qed.
Lemma valigns_of v : match v with Some v => dget VALIGNS v | None => None end = valign_of v.
Proof.
  destruct v as [v|]; [|reflexivity]. unfold VALIGNS, valign_of, one_in. cbn [dget existsb].
  destruct (String.eqb_spec v "top") as [->|]; [reflexivity|].
  destruct (String.eqb_spec v "middle") as [->|]; [reflexivity|].
  destruct (String.eqb_spec v "bottom") as [->|]; reflexivity.
Qed.
Lemma align_of_other s : s <> "char"%string -> align_of (Some s) = one_in ["left"; "right"; "center"; "justify"]%string (Some s).
Proof.
  intros H. unfold align_of. repeat (match goal with
    | |- match match ?x with _ => _ end with _ => _ end = _ => destruct x; try reflexivity
    | |- match ?x with _ => _ end = _ => destruct x; try reflexivity
    end). congruence.
Qed.
Lemma aligns_of v : match v with Some v => dget PALIGNS v | None => None end = align_of v.
Proof.
  destruct v as [v|]; [|reflexivity].
  destruct (String.eqb_spec v "char") as [->|Hc]; [reflexivity|]. rewrite align_of_other by exact Hc.
  unfold PALIGNS, one_in. cbn [dget existsb].
  destruct (String.eqb_spec v "left") as [->|]; [reflexivity|].
  destruct (String.eqb_spec v "right") as [->|]; [reflexivity|].
  destruct (String.eqb_spec v "center") as [->|]; [reflexivity|].
  destruct (String.eqb_spec v "justify") as [->|]; [reflexivity|].
  destruct (String.eqb_spec v "char") as [->|]; [congruence|reflexivity].
Qed.

Section Styles.
  Variable o : pcals_opts.
  Notation ns := (pc_ns o).
  Lemma pget_attribute e name : pget o e name = attribute ns e name.
  Proof. unfold pget, pcals, attribute. rewrite qname_expanded. reflexivity. Qed.
  Lemma entry_content_spec e : entry_content e = text_of e ++ map CNode (x_children e).
  Proof. unfold entry_content, text_of. destruct (x_text e) as [[|c s]|]; reflexivity. Qed.

  Ltac style_key k name :=
    let H := fresh in destruct (String.eqb_spec k name) as [H|H];
    [subst k; cbv beta iota; repeat match goal with |- context [String.eqb ?a ?b] => let r := eval vm_compute in (String.eqb a b) in change (String.eqb a b) with r end; cbv iota|].
  Ltac last_case := match goal with |- match ?x with _ => _ end = match ?x with _ => _ end => destruct x; reflexivity | _ => idtac end.

  Lemma entry_styles_spec e : has_styles (entry_styles o e) (entry_style ns e).
  Proof.
    intros k. unfold entry_styles. rewrite entry_content_spec. cbv zeta.
    set (s0 := map_style PALIGNS _ _ _).
    assert (H : dget (match text_of e ++ map CNode (x_children e) with
                      | [] => dset (text_style (pget o e "cellstyle") "cellstyle" s0) "x-cell-empty" (SStr "true")
                      | _ => text_style (pget o e "cellstyle") "cellstyle" s0 end) k =
                match (if String.eqb k "x-cell-empty" then
                         match text_of e, x_children e with [], [] => Some "true"%string | _, _ => None end else None) with
                | Some w => Some (SStr w) | None => dget (text_style (pget o e "cellstyle") "cellstyle" s0) k end).
    { destruct (text_of e) as [|a l]; cbn [app].
      - destruct (x_children e) as [|b l]; cbn [map].
        + destruct (String.eqb_spec k "x-cell-empty") as [->|Hk]; [apply dget_dset_same|apply dget_dset_other; congruence].
        + destruct (String.eqb k "x-cell-empty"); reflexivity.
      - destruct (String.eqb k "x-cell-empty"); reflexivity. }
    etransitivity; [exact H|]. unfold s0. clear H s0. rewrite dget_text_style, !dget_map_style, dget_text_style, !dget_map_style.
    rewrite !seps_line, valigns_of, aligns_of, !pget_attribute. unfold entry_style. cbv zeta. cbn [dget].
    style_key k "border-right"%string; [last_case|].
    style_key k "border-bottom"%string; [last_case|].
    style_key k "background-color"%string; [last_case|].
    style_key k "vertical-align"%string; [last_case|].
    style_key k "align"%string; [last_case|].
    style_key k "cellstyle"%string; [last_case|].
    style_key k "x-cell-empty"%string; [last_case|]. reflexivity.
  Qed.
  Lemma row_styles_spec sec row : has_styles (row_styles o row (Some sec)) (row_style ns sec row).
  Proof.
    intros k. unfold row_styles. cbv zeta. rewrite !dget_text_style, !dget_map_style.
    rewrite !seps_line, !valigns_of, !pget_attribute. unfold row_style, or_else. cbv zeta. cbn [dget].
    style_key k "vertical-align"%string. { destruct (valign_of (attribute ns row "valign")); reflexivity. }
    style_key k "border-bottom"%string; [last_case|].
    style_key k "background-color"%string; [last_case|].
    style_key k "rowstyle"%string; [last_case|]. reflexivity.
  Qed.
  Lemma colspec_styles_spec c : has_styles (colspec_styles o c) (column_style ns c) /\ dict_ok (colspec_styles o c).
  Proof.
    split.
    - intros k. unfold colspec_styles. cbv zeta. rewrite !dget_map_style, !dget_text_style, !dget_map_style.
      rewrite !seps_line, !aligns_of, !pget_attribute. unfold column_style. cbv zeta. cbn [dget].
      style_key k "border-right"%string; [last_case|].
      style_key k "border-bottom"%string; [last_case|].
      style_key k "width"%string; [last_case|].
      style_key k "align"%string; [last_case|]. reflexivity.
    - unfold colspec_styles. cbv zeta. repeat (apply dict_ok_map_style || apply dict_ok_text_style). apply dict_ok_nil.
  Qed.

  (** The column and row spans *)
  Lemma entry_spans_spec e k w h : 1 <= k -> (entry_spans o e k = Ok (w, h) <-> entry_span ns e k w h).
  Proof.
    intros Hk. unfold entry_spans, entry_span. cbv zeta. rewrite !pget_attribute.
    assert (HN : forall name n, first_int (match attribute ns e name with Some v => v | None => py_str_int k end) = Ok n <->
                                names_column ns e name k n).
    { intros name n. unfold names_column. destruct (attribute ns e name) as [s|]; [apply first_int_spec|].
      rewrite first_int_spec. split.
      - intros H. apply (first_number_fun _ _ _ H). apply (first_number_column "" k); [intros c []|lia].
      - intros ->. apply (first_number_column "" k); [intros c []|lia]. }
    assert (HM : forall n, py_int (match attribute ns e "morerows" with Some v => v | None => "0"%string end) = Ok n <->
                 match attribute ns e "morerows" with Some s => int_text s n | None => n = 0 end).
    { intros n. destruct (attribute ns e "morerows") as [s|]; [apply py_int_spec|]. change (py_int "0") with (Ok 0). split; congruence. }
    split.
    - intros H.
      destruct (first_int (match attribute ns e "namest" with Some v => v | None => py_str_int k end)) as [a|] eqn:Ea; cbn [rbind] in H; [|discriminate].
      destruct (first_int (match attribute ns e "nameend" with Some v => v | None => py_str_int k end)) as [b|] eqn:Eb; cbn [rbind] in H; [|discriminate].
      destruct (py_int (match attribute ns e "morerows" with Some v => v | None => "0"%string end)) as [m|] eqn:Em; cbn [rbind] in H; [|discriminate].
      injection H as <- <-. apply HN in Ea. apply HN in Eb. pose proof (proj1 (HM m) eq_refl) as Em'. clear Em HM. rename Em' into Em.
      split; [exists a, b; auto|]. destruct (attribute ns e "morerows"); [|lia]. replace (m + 1 - 1) with m by lia. exact Em.
    - intros [(a & b & Ha & Hb & ->) Hm]. apply HN in Ha. apply HN in Hb. rewrite Ha, Hb. cbn [rbind].
      assert (Em : py_int (match attribute ns e "morerows" with Some v => v | None => "0"%string end) = Ok (h - 1)).
      { apply HM. destruct (attribute ns e "morerows"); [exact Hm|lia]. }
      rewrite Em. cbn [rbind]. repeat f_equal. lia.
  Qed.
  Lemma entry_span_fun e k w h w' h' : entry_span ns e k w h -> entry_span ns e k w' h' -> w = w' /\ h = h'.
  Proof.
    assert (HN : forall name n n', names_column ns e name k n -> names_column ns e name k n' -> n = n').
    { intros name n n'. unfold names_column. destruct (attribute ns e name); [apply first_number_fun|congruence]. }
    intros [(a & b & Ha & Hb & ->) Hm] [(a' & b' & Ha' & Hb' & ->) Hm'].
    rewrite (HN _ _ _ Ha Ha'), (HN _ _ _ Hb Hb'). split; [reflexivity|].
    destruct (attribute ns e "morerows"); [|congruence]. pose proof (int_text_fun _ _ _ Hm Hm'). lia.
  Qed.
End Styles.
