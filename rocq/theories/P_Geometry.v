(** * Proofs about coordinates, sizes and boxes *)
From Verif Require Import Base M_Alphabet M_Geometry S_Geometry.

Ltac geo_destruct :=
  repeat match goal with
         | b : box |- _ => destruct b as [[? ?] [? ?]]
         | c : coord |- _ => destruct c as [? ?]
         | s : size |- _ => destruct s as [? ?]
         end.

Ltac geo_unfold :=
  unfold box_has_box, box_has, covers, valid, box_lt, row_major, box_intersect, box_width, box_height,
    box_size, box_validate in *;
  cbn [cx cy sw sh bmin bmax] in *.

Ltac geo := intros; geo_destruct; geo_unfold; try lia.

Lemma coord_eta c : Coord (cx c) (cy c) = c.
Proof. destruct c; reflexivity. Qed.

Lemma coord_ext a b : cx a = cx b -> cy a = cy b -> a = b.
Proof. destruct a, b; cbn; intros; subst; reflexivity. Qed.

Lemma box_ext a b :
  cx (bmin a) = cx (bmin b) -> cy (bmin a) = cy (bmin b) ->
  cx (bmax a) = cx (bmax b) -> cy (bmax a) = cy (bmax b) -> a = b.
Proof. destruct a as [[? ?][? ?]], b as [[? ?][? ?]]; cbn; intros; subst; reflexivity. Qed.

(** ** Operators *)

Lemma int_add_spec x v z : int_add x v = Ok z <-> exists d, number v d /\ z = x + d.
Proof.
  destruct v; cbn; split; intros H; try discriminate;
    try (destruct H as (d & Hd & Hz); inversion Hd; subst; try reflexivity; fail).
  - inversion H; subst. destruct b; eexists; split; try constructor; lia.
  - inversion H; subst. eexists; split; [constructor | lia].
Qed.

Lemma int_sub_spec x v z : int_sub x v = Ok z <-> exists d, number v d /\ z = x - d.
Proof.
  destruct v; cbn; split; intros H; try discriminate;
    try (destruct H as (d & Hd & Hz); inversion Hd; subst; try reflexivity; fail).
  - inversion H; subst. destruct b; eexists; split; try constructor; lia.
  - inversion H; subst. eexists; split; [constructor | lia].
Qed.

Lemma int_add_err x v : (exists z, int_add x v = Ok z) \/ int_add x v = Err ETypeError.
Proof. destruct v; cbn; eauto. Qed.

Lemma py_nth_0 {A} (a : A) l : py_nth (a :: l) 0 = Ok a.
Proof.
  unfold py_nth, py_index. cbn [List.length].
  replace ((0 <=? 0) && (0 <? Z.of_nat (S (List.length l)))) with true by lia. reflexivity.
Qed.
Lemma py_nth_1 {A} (a b : A) l : py_nth (a :: b :: l) 1 = Ok b.
Proof.
  unfold py_nth, py_index. cbn [List.length].
  replace ((0 <=? 1) && (1 <? Z.of_nat (S (S (List.length l))))) with true by lia. reflexivity.
Qed.
Lemma py_nth_nil {A} i : py_nth (@nil A) i = Err EIndexError.
Proof.
  unfold py_nth, py_index. cbn [List.length].
  replace ((0 <=? i) && (i <? Z.of_nat 0)) with false by lia.
  replace ((i <? 0) && (- Z.of_nat 0 <=? i)) with false by lia. reflexivity.
Qed.
Lemma py_nth_single_1 {A} (a : A) : py_nth [a] 1 = Err EIndexError.
Proof. reflexivity. Qed.

Lemma coord_add_spec c v c' :
  coord_add c v = Ok c' <->
  exists dx dy, offset v dx dy /\ c' = Coord (cx c + dx) (cy c + dy).
Proof.
  split.
  - destruct v; cbn [coord_add]; intros H; try discriminate.
    + inversion H; subst. do 2 eexists; split; [constructor | reflexivity].
    + destruct l as [|v0 [|v1 l]].
      * rewrite py_nth_nil in H; discriminate.
      * rewrite py_nth_0 in H. cbn [rbind] in H.
        destruct (int_add (cx c) v0); cbn [rbind] in H; [|discriminate].
        rewrite py_nth_single_1 in H; discriminate.
      * rewrite py_nth_0, py_nth_1 in H. cbn [rbind] in H.
        destruct (int_add (cx c) v0) as [x|] eqn:E0; cbn [rbind] in H; [|discriminate].
        destruct (int_add (cy c) v1) as [y|] eqn:E1; cbn [rbind] in H; [|discriminate].
        inversion H; subst.
        apply int_add_spec in E0 as (dx & Hx & ->). apply int_add_spec in E1 as (dy & Hy & ->).
        do 2 eexists; split; [constructor; eassumption | reflexivity].
    + inversion H; subst. destruct s; do 2 eexists; split; [constructor | reflexivity].
  - intros (dx & dy & Ho & ->). inversion Ho; subst; cbn [coord_add]; cbn [sw sh]; try reflexivity.
    rewrite py_nth_0, py_nth_1. cbn [rbind].
    assert (E0 : int_add (cx c) v0 = Ok (cx c + dx)) by (apply int_add_spec; eauto).
    assert (E1 : int_add (cy c) v1 = Ok (cy c + dy)) by (apply int_add_spec; eauto).
    rewrite E0; cbn [rbind]; rewrite E1; reflexivity.
Qed.

Lemma coord_sub_spec c v c' :
  coord_sub c v = Ok c' <->
  exists dx dy, offset v dx dy /\ c' = Coord (cx c - dx) (cy c - dy).
Proof.
  split.
  - destruct v; cbn [coord_sub]; intros H; try discriminate.
    + inversion H; subst. do 2 eexists; split; [constructor | reflexivity].
    + destruct l as [|v0 [|v1 l]].
      * rewrite py_nth_nil in H; discriminate.
      * rewrite py_nth_0 in H. cbn [rbind] in H.
        destruct (int_sub (cx c) v0); cbn [rbind] in H; [|discriminate].
        rewrite py_nth_single_1 in H; discriminate.
      * rewrite py_nth_0, py_nth_1 in H. cbn [rbind] in H.
        destruct (int_sub (cx c) v0) as [x|] eqn:E0; cbn [rbind] in H; [|discriminate].
        destruct (int_sub (cy c) v1) as [y|] eqn:E1; cbn [rbind] in H; [|discriminate].
        inversion H; subst.
        apply int_sub_spec in E0 as (dx & Hx & ->). apply int_sub_spec in E1 as (dy & Hy & ->).
        do 2 eexists; split; [constructor; eassumption | reflexivity].
    + inversion H; subst. destruct s; do 2 eexists; split; [constructor | reflexivity].
  - intros (dx & dy & Ho & ->). inversion Ho; subst; cbn [coord_sub]; cbn [sw sh]; try reflexivity.
    rewrite py_nth_0, py_nth_1. cbn [rbind].
    assert (E0 : int_sub (cx c) v0 = Ok (cx c - dx)) by (apply int_sub_spec; eauto).
    assert (E1 : int_sub (cy c) v1 = Ok (cy c - dy)) by (apply int_sub_spec; eauto).
    rewrite E0; cbn [rbind]; rewrite E1; reflexivity.
Qed.

Lemma coord_add_type_error c v :
  (forall l, v <> PTuple l) -> (forall dx dy, ~ offset v dx dy) -> coord_add c v = Err ETypeError.
Proof.
  intros Ht Ho. destruct v; cbn; try reflexivity.
  - exfalso; eapply Ho; constructor.
  - exfalso; eapply Ht; reflexivity.
  - exfalso; destruct s; eapply Ho; constructor.
Qed.

Lemma coord_sub_type_error c v :
  (forall l, v <> PTuple l) -> (forall dx dy, ~ offset v dx dy) -> coord_sub c v = Err ETypeError.
Proof.
  intros Ht Ho. destruct v; cbn; try reflexivity.
  - exfalso; eapply Ho; constructor.
  - exfalso; eapply Ht; reflexivity.
  - exfalso; destruct s; eapply Ho; constructor.
Qed.

Lemma offset_fun v dx dy dx' dy' : offset v dx dy -> offset v dx' dy' -> dx = dx' /\ dy = dy'.
Proof.
  intros H1 H2. inversion H1; subst; inversion H2; subst; try (split; reflexivity).
  split;
    match goal with
    | H : number ?v ?a, H' : number ?v ?b |- ?a = ?b => inversion H; subst; inversion H'; reflexivity
    end.
Qed.

Lemma coord_add_sub c v c' : coord_add c v = Ok c' <-> coord_sub c' v = Ok c.
Proof.
  rewrite coord_add_spec, coord_sub_spec. split; intros (dx & dy & Ho & ->);
    exists dx, dy; (split; [exact Ho|]); apply coord_ext; cbn [cx cy]; lia.
Qed.

Lemma coord_add_add c s t c1 :
  coord_add c (PSize s) = Ok c1 ->
  exists u, size_add s (PSize t) = Ok u /\ coord_add c1 (PSize t) = coord_add c (PSize u).
Proof.
  cbn. intros H; inversion H; subst. eexists; split; [reflexivity|]. cbn. f_equal.
  apply coord_ext; cbn; lia.
Qed.

Lemma size_add_spec s v s' :
  size_add s v = Ok s' <-> exists dx dy, offset v dx dy /\ s' = Size (sw s + dx) (sh s + dy).
Proof.
  destruct s as [w h]. pose proof (coord_add_spec (Coord w h) v) as H.
  assert (E : size_add (Size w h) v = (c <-? coord_add (Coord w h) v ;; Ok (Size (cx c) (cy c)))).
  { destruct v; cbn; try reflexivity.
    destruct (py_nth l 0) as [v0|]; cbn; [|reflexivity].
    destruct (int_add w v0); cbn; [|reflexivity].
    destruct (py_nth l 1) as [v1|]; cbn; [|reflexivity].
    destruct (int_add h v1); reflexivity. }
  rewrite E. cbn [sw sh]. split.
  - destruct (coord_add (Coord w h) v) as [c|] eqn:Ec; cbn [rbind]; intros Hs; [|discriminate].
    inversion Hs; subst.
    destruct (proj1 (H c) eq_refl) as (dx & dy & Ho & ->). cbn; eauto.
  - intros (dx & dy & Ho & ->).
    rewrite (proj2 (H (Coord (w + dx) (h + dy)))); [reflexivity|]. cbn. eauto.
Qed.

Lemma size_sub_spec s v s' :
  size_sub s v = Ok s' <-> exists dx dy, offset v dx dy /\ s' = Size (sw s - dx) (sh s - dy).
Proof.
  destruct s as [w h]. pose proof (coord_sub_spec (Coord w h) v) as H.
  assert (E : size_sub (Size w h) v = (c <-? coord_sub (Coord w h) v ;; Ok (Size (cx c) (cy c)))).
  { destruct v; cbn; try reflexivity.
    destruct (py_nth l 0) as [v0|]; cbn; [|reflexivity].
    destruct (int_sub w v0); cbn; [|reflexivity].
    destruct (py_nth l 1) as [v1|]; cbn; [|reflexivity].
    destruct (int_sub h v1); reflexivity. }
  rewrite E. cbn [sw sh]. split.
  - destruct (coord_sub (Coord w h) v) as [c|] eqn:Ec; cbn [rbind]; intros Hs; [|discriminate].
    inversion Hs; subst.
    destruct (proj1 (H c) eq_refl) as (dx & dy & Ho & ->). cbn; eauto.
  - intros (dx & dy & Ho & ->).
    rewrite (proj2 (H (Coord (w - dx) (h - dy)))); [reflexivity|]. cbn. eauto.
Qed.

Lemma size_add_type_error s v :
  (forall l, v <> PTuple l) -> (forall dx dy, ~ offset v dx dy) ->
  size_add s v = Err ETypeError /\ size_sub s v = Err ETypeError.
Proof.
  intros Ht Ho. destruct v; cbn; try (split; reflexivity).
  - exfalso; eapply Ho; constructor.
  - exfalso; eapply Ht; reflexivity.
  - exfalso; destruct s0; eapply Ho; constructor.
Qed.

Lemma size_mul_spec s v :
  size_mul s v = match v with PInt k => Ok (Size (sw s * k) (sh s * k)) | _ => Err ETypeError end.
Proof. destruct v; reflexivity. Qed.

(** ** Construction *)

Lemma box_validate_ok x1 y1 x2 y2 :
  1 <= x1 <= x2 -> 1 <= y1 <= y2 ->
  box_validate x1 y1 x2 y2 = Ok (MkBox (Coord x1 y1) (Coord x2 y2)).
Proof.
  intros. unfold box_validate.
  replace ((0 <? x1) && (x1 <=? x2) && ((0 <? y1) && (y1 <=? y2))) with true by lia. reflexivity.
Qed.

Lemma box_validate_err x1 y1 x2 y2 :
  ~ (1 <= x1 <= x2 /\ 1 <= y1 <= y2) -> box_validate x1 y1 x2 y2 = Err EValueError.
Proof.
  intros. unfold box_validate.
  replace ((0 <? x1) && (x1 <=? x2) && ((0 <? y1) && (y1 <=? y2))) with false by lia. reflexivity.
Qed.

Lemma box_validate_inv x1 y1 x2 y2 b :
  box_validate x1 y1 x2 y2 = Ok b ->
  b = MkBox (Coord x1 y1) (Coord x2 y2) /\ valid b.
Proof.
  unfold box_validate.
  destruct ((0 <? x1) && (x1 <=? x2) && ((0 <? y1) && (y1 <=? y2))) eqn:E; intros H; [|discriminate].
  inversion H; subst. split; [reflexivity|]. unfold valid; cbn; lia.
Qed.

Lemma box_new_form args x1 y1 x2 y2 :
  box_form args x1 y1 x2 y2 -> box_new args = box_validate x1 y1 x2 y2.
Proof.
  intros H; inversion H; subst; try reflexivity.
Qed.

Lemma box_new_form_ok args x1 y1 x2 y2 :
  box_form args x1 y1 x2 y2 ->
  (1 <= x1 <= x2 /\ 1 <= y1 <= y2 ->
   box_new args = Ok (MkBox (Coord x1 y1) (Coord x2 y2))) /\
  (~ (1 <= x1 <= x2 /\ 1 <= y1 <= y2) -> box_new args = Err EValueError).
Proof.
  intros H. rewrite (box_new_form _ _ _ _ _ H). split.
  - intros [? ?]; apply box_validate_ok; assumption.
  - apply box_validate_err.
Qed.

Lemma box_new_type_error args :
  (forall x1 y1 x2 y2, ~ box_form args x1 y1 x2 y2) -> (forall b, args <> [PBox b]) ->
  box_new args = Err ETypeError.
Proof.
  intros Hf Hb.
  destruct args as [|[] args]; try reflexivity;
    destruct args as [|[] args]; try reflexivity;
    try (exfalso; destruct c; eapply Hf; constructor; fail);
    try (exfalso; eapply Hb; reflexivity);
    destruct args as [|[] args]; try reflexivity;
    try (exfalso; destruct c, c0; eapply Hf; constructor; fail);
    try (exfalso; destruct c, s; eapply Hf; constructor; fail);
    try (exfalso; eapply Hf; constructor; fail);
    destruct args as [|[] args]; try reflexivity;
    destruct args as [|[] args]; try reflexivity;
    try (exfalso; eapply Hf; constructor; fail).
Qed.

Lemma box_new_valid args b :
  box_new args = Ok b -> (forall b', args = [PBox b'] -> valid b') -> valid b.
Proof.
  intros H Hb.
  destruct args as [|[] args]; try discriminate H;
    destruct args as [|[] args]; cbn in H; try discriminate H;
    try (inversion H; subst; apply Hb; reflexivity);
    try (apply box_validate_inv in H; apply H);
    destruct args as [|[] args]; cbn in H; try discriminate H;
    try (apply box_validate_inv in H; apply H);
    destruct args as [|[] args]; cbn in H; try discriminate H;
    destruct args as [|[] args]; cbn in H; try discriminate H;
    try (apply box_validate_inv in H; apply H).
Qed.

(** ** Membership *)

Lemma box_has_covers b c : box_has b c = true <-> covers b c.
Proof. geo. Qed.

Lemma box_has_not b c : box_has b c = false <-> ~ covers b c.
Proof. rewrite <- box_has_covers. destruct (box_has b c); split; congruence. Qed.

Lemma valid_min_max b : valid b -> covers b (bmin b) /\ covers b (bmax b).
Proof. geo. Qed.

Lemma box_has_box_subarea b b2 : valid b2 -> box_has_box b b2 = true <-> subarea b2 b.
Proof.
  intros V. split.
  - intros H c. geo.
  - intros H. destruct (valid_min_max _ V) as [H1 H2]. apply H in H1. apply H in H2.
    unfold box_has_box. rewrite andb_true_iff, !box_has_covers. auto.
Qed.

Lemma box_contains_spec b v :
  (forall c, denotes_coord v c -> box_contains b v = Ok (box_has b c)) /\
  (forall b2, v = PBox b2 -> box_contains b v = Ok (box_has_box b b2)) /\
  ((forall c, ~ denotes_coord v c) -> (forall b2, v <> PBox b2) ->
   box_contains b v = Err ETypeError).
Proof.
  split; [|split].
  - intros c H; inversion H; subst; reflexivity.
  - intros b2 ->; reflexivity.
  - intros Hc Hb. destruct v; cbn; try reflexivity.
    + destruct l as [|[] [|[] [|? ?]]]; cbn; try reflexivity. exfalso; eapply Hc; constructor.
    + exfalso; eapply Hc; constructor.
    + exfalso; eapply Hb; reflexivity.
Qed.

Lemma in_zrange a b x : In x (zrange a b) <-> a <= x < b.
Proof.
  unfold zrange. rewrite in_map_iff. split.
  - intros (i & <- & Hi). apply in_seq in Hi. lia.
  - intros H. exists (Z.to_nat (x - a)). split; [lia|]. apply in_seq. lia.
Qed.

Lemma zrange_length a b : List.length (zrange a b) = Z.to_nat (b - a).
Proof. unfold zrange. rewrite map_length, seq_length. reflexivity. Qed.

Lemma NoDup_zrange a b : NoDup (zrange a b).
Proof.
  unfold zrange. apply FinFun.Injective_map_NoDup.
  - intros i j H. lia.
  - apply seq_NoDup.
Qed.

Definition area_coords (b : box) : list coord :=
  flat_map (fun y => map (fun x => Coord x y) (zrange (cx (bmin b)) (cx (bmax b) + 1)))
    (zrange (cy (bmin b)) (cy (bmax b) + 1)).

Lemma area_coords_in b c : In c (area_coords b) <-> covers b c.
Proof.
  unfold area_coords. rewrite in_flat_map. split.
  - intros (y & Hy & Hc). apply in_map_iff in Hc as (x & <- & Hx).
    apply in_zrange in Hx. apply in_zrange in Hy. unfold covers; cbn; lia.
  - intros [Hx Hy]. exists (cy c). split; [apply in_zrange; lia|].
    apply in_map_iff. exists (cx c). split; [apply coord_eta | apply in_zrange; lia].
Qed.

Lemma NoDup_app_intro {A} (l m : list A) :
  NoDup l -> NoDup m -> (forall a, In a l -> ~ In a m) -> NoDup (l ++ m).
Proof.
  induction l as [|a l IH]; cbn; intros Hl Hm H; [exact Hm|].
  inversion Hl; subst. constructor.
  - rewrite in_app_iff. intros [?|?]; [contradiction | eapply H; eauto].
  - apply IH; auto.
Qed.

Lemma NoDup_area_coords b : NoDup (area_coords b).
Proof.
  unfold area_coords. pose proof (NoDup_zrange (cy (bmin b)) (cy (bmax b) + 1)) as Hn.
  induction (zrange (cy (bmin b)) (cy (bmax b) + 1)) as [|y l IH]; cbn; [constructor|].
  inversion Hn; subst. apply NoDup_app_intro.
  - apply FinFun.Injective_map_NoDup; [|apply NoDup_zrange].
    intros i j H. inversion H; reflexivity.
  - apply IH; assumption.
  - intros c H Hf. apply in_map_iff in H as (x & <- & _).
    apply in_flat_map in Hf as (y' & Hy' & Hc). apply in_map_iff in Hc as (x' & Hx' & _).
    inversion Hx'; subst. contradiction.
Qed.

Lemma area_coords_length b :
  valid b -> Z.of_nat (List.length (area_coords b)) = box_width b * box_height b.
Proof.
  intros V. unfold area_coords.
  assert (H : forall l, List.length (flat_map (fun y => map (fun x => Coord x y)
       (zrange (cx (bmin b)) (cx (bmax b) + 1))) l)
       = (List.length l * Z.to_nat (box_width b))%nat).
  { induction l as [|y l IH]; cbn [flat_map List.length]; [lia|].
    rewrite app_length, IH, map_length, zrange_length. unfold box_width. lia. }
  rewrite H, zrange_length.
  replace (cy (bmax b) + 1 - cy (bmin b)) with (box_height b) by (unfold box_height; lia).
  assert (0 <= box_height b) by (revert V; geo).
  assert (0 <= box_width b) by (revert V; geo).
  rewrite Nat2Z.inj_mul, !Z2Nat.id by assumption. lia.
Qed.

Lemma lists_area_length l b :
  valid b -> lists_area l b -> Z.of_nat (List.length l) = box_width b * box_height b.
Proof.
  intros V [Hn Hi]. rewrite <- area_coords_length by exact V. f_equal.
  apply Permutation_length. apply NoDup_Permutation; auto using NoDup_area_coords.
  intros c. rewrite Hi, area_coords_in. reflexivity.
Qed.

(** ** Union and intersection *)

Lemma py_min_le a l x : x <= py_min a l <-> x <= a /\ Forall (fun z => x <= z) l.
Proof.
  unfold py_min. revert a. induction l as [|b l IH]; cbn; intros a.
  - split; [auto | intuition].
  - rewrite IH, Forall_cons_iff, Z.min_glb_iff. tauto.
Qed.

Lemma py_max_ge a l x : py_max a l <= x <-> a <= x /\ Forall (fun z => z <= x) l.
Proof.
  unfold py_max. revert a. induction l as [|b l IH]; cbn; intros a.
  - split; [auto | intuition].
  - rewrite IH, Forall_cons_iff, Z.max_lub_iff. tauto.
Qed.

Lemma Forall_In_map {A} (f : A -> Z) (P : Z -> Prop) l :
  Forall P (map f l) <-> forall a, In a l -> P (f a).
Proof. rewrite Forall_map, Forall_forall. reflexivity. Qed.

Lemma box_union_eq b bs :
  Forall valid (b :: bs) ->
  exists u, box_union b bs = Ok u /\ valid u /\
            (forall v : box, valid v -> (subarea u v <-> Forall (fun a => subarea a v) (b :: bs))).
Proof.
  intros HV.
  set (x1 := py_min (cx (bmin b)) (map (fun b => cx (bmin b)) bs)).
  set (y1 := py_min (cy (bmin b)) (map (fun b => cy (bmin b)) bs)).
  set (x2 := py_max (cx (bmax b)) (map (fun b => cx (bmax b)) bs)).
  set (y2 := py_max (cy (bmax b)) (map (fun b => cy (bmax b)) bs)).
  assert (Hx1 : forall x, x <= x1 <-> (forall a, In a (b :: bs) -> x <= cx (bmin a))).
  { intros x. unfold x1. rewrite py_min_le, Forall_In_map. cbn. split.
    - intros [H1 H2] a [<-|Ha]; auto.
    - auto. }
  assert (Hy1 : forall x, x <= y1 <-> (forall a, In a (b :: bs) -> x <= cy (bmin a))).
  { intros x. unfold y1. rewrite py_min_le, Forall_In_map. cbn. split.
    - intros [H1 H2] a [<-|Ha]; auto.
    - auto. }
  assert (Hx2 : forall x, x2 <= x <-> (forall a, In a (b :: bs) -> cx (bmax a) <= x)).
  { intros x. unfold x2. rewrite py_max_ge, Forall_In_map. cbn. split.
    - intros [H1 H2] a [<-|Ha]; auto.
    - auto. }
  assert (Hy2 : forall x, y2 <= x <-> (forall a, In a (b :: bs) -> cy (bmax a) <= x)).
  { intros x. unfold y2. rewrite py_max_ge, Forall_In_map. cbn. split.
    - intros [H1 H2] a [<-|Ha]; auto.
    - auto. }
  set (u := MkBox (Coord x1 y1) (Coord x2 y2)).
  rewrite Forall_forall in HV.
  assert (Hin : forall a, In a (b :: bs) ->
             x1 <= cx (bmin a) /\ y1 <= cy (bmin a) /\ cx (bmax a) <= x2 /\ cy (bmax a) <= y2).
  { intros a Ha.
    pose proof (proj1 (Hx1 x1) (Z.le_refl _) a Ha). pose proof (proj1 (Hy1 y1) (Z.le_refl _) a Ha).
    pose proof (proj1 (Hx2 x2) (Z.le_refl _) a Ha). pose proof (proj1 (Hy2 y2) (Z.le_refl _) a Ha).
    auto. }
  assert (Vu : valid u).
  { pose proof (Hin b (or_introl eq_refl)) as Hb. pose proof (HV b (or_introl eq_refl)) as Vb.
    assert (1 <= x1) by (apply Hx1; intros a Ha; apply HV in Ha; revert Ha; geo).
    assert (1 <= y1) by (apply Hy1; intros a Ha; apply HV in Ha; revert Ha; geo).
    unfold valid, u in *. cbn. lia. }
  exists u. split; [|split; [exact Vu|]].
  - unfold box_union. fold x1 y1 x2 y2. unfold box_new. cbn [cx cy].
    rewrite box_validate_ok by (unfold valid, u in Vu; cbn in Vu; lia). cbn [rbind].
    fold u.
    replace (forallb (fun b0 => box_has_box u b0) (b :: bs)) with true; [reflexivity|].
    symmetry. apply forallb_forall. intros a Ha. specialize (Hin a Ha). specialize (HV a Ha).
    unfold u. revert Hin HV. geo.
  - intros v Vv. rewrite Forall_forall. split.
    + intros Hs a Ha c Hc. apply Hs. specialize (Hin a Ha). revert Hin Hc. unfold u. geo.
    + intros Hs c Hc.
      assert (B : forall a, In a (b :: bs) -> covers v (bmin a) /\ covers v (bmax a)).
      { intros a Ha. destruct (valid_min_max a (HV a Ha)). split; apply (Hs a Ha); assumption. }
      assert (cx (bmin v) <= x1) by (apply Hx1; intros a Ha; destruct (B a Ha) as [B1 B2]; apply B1).
      assert (cy (bmin v) <= y1) by (apply Hy1; intros a Ha; destruct (B a Ha) as [B1 B2]; apply B1).
      assert (x2 <= cx (bmax v)) by (apply Hx2; intros a Ha; destruct (B a Ha) as [B1 B2]; apply B2).
      assert (y2 <= cy (bmax v)) by (apply Hy2; intros a Ha; destruct (B a Ha) as [B1 B2]; apply B2).
      unfold covers, u in *. cbn in Hc. lia.
Qed.

Lemma subarea_refl a : subarea a a.
Proof. intros c H; exact H. Qed.

Lemma subarea_trans a b c : subarea a b -> subarea b c -> subarea a c.
Proof. intros H1 H2 x Hx. apply H2, H1, Hx. Qed.

Lemma subarea_antisym a b : valid a -> valid b -> subarea a b -> subarea b a -> a = b.
Proof.
  intros Va Vb H1 H2. destruct (valid_min_max a Va) as [A1 A2]. destruct (valid_min_max b Vb) as [B1 B2].
  apply H1 in A1. apply H1 in A2. apply H2 in B1. apply H2 in B2.
  apply box_ext; unfold covers in *; lia.
Qed.

Lemma box_union_perm b bs b' bs' :
  Forall valid (b :: bs) -> Permutation (b :: bs) (b' :: bs') ->
  box_union b bs = box_union b' bs'.
Proof.
  intros HV HP.
  assert (HV' : Forall valid (b' :: bs')) by (eapply Permutation_Forall; eassumption).
  destruct (box_union_eq b bs HV) as (u & Eu & Vu & Hu).
  destruct (box_union_eq b' bs' HV') as (u' & Eu' & Vu' & Hu').
  rewrite Eu, Eu'. f_equal. apply subarea_antisym; auto.
  - apply Hu; auto. eapply Permutation_Forall; [apply Permutation_sym; exact HP|].
    apply Hu'; auto using subarea_refl.
  - apply Hu'; auto. eapply Permutation_Forall; [exact HP|]. apply Hu; auto using subarea_refl.
Qed.

Lemma box_union_same_set b bs b' bs' :
  Forall valid (b :: bs) -> (forall a, In a (b :: bs) <-> In a (b' :: bs')) ->
  box_union b bs = box_union b' bs'.
Proof.
  intros HV HP.
  assert (HV' : Forall valid (b' :: bs')).
  { rewrite Forall_forall in *. intros a Ha. apply HV, HP, Ha. }
  destruct (box_union_eq b bs HV) as (u & Eu & Vu & Hu).
  destruct (box_union_eq b' bs' HV') as (u' & Eu' & Vu' & Hu').
  rewrite Eu, Eu'. f_equal. apply subarea_antisym; auto.
  - apply Hu; auto. pose proof (proj1 (Hu' u' Vu') (subarea_refl _)) as H.
    rewrite Forall_forall in *. intros a Ha. apply H, HP, Ha.
  - apply Hu'; auto. pose proof (proj1 (Hu u Vu) (subarea_refl _)) as H.
    rewrite Forall_forall in *. intros a Ha. apply H, HP, Ha.
Qed.

Lemma box_union_single b : valid b -> box_union b [] = Ok b.
Proof.
  intros V. destruct (box_union_eq b [] (Forall_cons _ V (Forall_nil _))) as (u & Eu & Vu & Hu).
  rewrite Eu. f_equal. apply subarea_antisym; auto.
  - apply Hu; auto. constructor; [apply subarea_refl | constructor].
  - pose proof (proj1 (Hu u Vu) (subarea_refl _)) as H. inversion H; assumption.
Qed.

Lemma py_max_le a l x : py_max a l <= x <-> a <= x /\ Forall (fun z => z <= x) l.
Proof. apply py_max_ge. Qed.

Lemma box_intersection_eq b bs :
  Forall valid (b :: bs) ->
  (forall i, box_intersection b bs = Ok i ->
             valid i /\ forall c, covers i c <-> Forall (fun a => covers a c) (b :: bs)) /\
  (forall e, box_intersection b bs = Err e ->
             e = EValueError /\ ~ exists c, Forall (fun a => covers a c) (b :: bs)).
Proof.
  intros HV.
  set (x1 := py_max (cx (bmin b)) (map (fun b => cx (bmin b)) bs)).
  set (y1 := py_max (cy (bmin b)) (map (fun b => cy (bmin b)) bs)).
  set (x2 := py_min (cx (bmax b)) (map (fun b => cx (bmax b)) bs)).
  set (y2 := py_min (cy (bmax b)) (map (fun b => cy (bmax b)) bs)).
  assert (Hx1 : forall x, x1 <= x <-> (forall a, In a (b :: bs) -> cx (bmin a) <= x)).
  { intros x. unfold x1. rewrite py_max_le, Forall_In_map. cbn. split.
    - intros [H1 H2] a [<-|Ha]; auto.
    - auto. }
  assert (Hy1 : forall x, y1 <= x <-> (forall a, In a (b :: bs) -> cy (bmin a) <= x)).
  { intros x. unfold y1. rewrite py_max_le, Forall_In_map. cbn. split.
    - intros [H1 H2] a [<-|Ha]; auto.
    - auto. }
  assert (Hx2 : forall x, x <= x2 <-> (forall a, In a (b :: bs) -> x <= cx (bmax a))).
  { intros x. unfold x2. rewrite py_min_le, Forall_In_map. cbn. split.
    - intros [H1 H2] a [<-|Ha]; auto.
    - auto. }
  assert (Hy2 : forall x, x <= y2 <-> (forall a, In a (b :: bs) -> x <= cy (bmax a))).
  { intros x. unfold y2. rewrite py_min_le, Forall_In_map. cbn. split.
    - intros [H1 H2] a [<-|Ha]; auto.
    - auto. }
  assert (Hc : forall c, Forall (fun a => covers a c) (b :: bs) <->
                         x1 <= cx c <= x2 /\ y1 <= cy c <= y2).
  { intros c. rewrite Forall_forall, Hx1, Hy1, Hx2, Hy2. unfold covers. split.
    - intros H. repeat split; intros a Ha; apply H in Ha; lia.
    - intros [[H1 H2] [H3 H4]] a Ha. repeat split; auto. }
  rewrite Forall_forall in HV. pose proof (HV b (or_introl eq_refl)) as Vb.
  assert (P1 : 1 <= x1 /\ 1 <= y1).
  { pose proof (proj1 (Hx1 x1) (Z.le_refl _) b (or_introl eq_refl)).
    pose proof (proj1 (Hy1 y1) (Z.le_refl _) b (or_introl eq_refl)).
    unfold valid in Vb; lia. }
  unfold box_intersection. fold x1 y1 x2 y2. unfold box_new. cbn [cx cy]. split.
  - intros i Hi. apply box_validate_inv in Hi as [-> Vi]. split; [exact Vi|].
    intros c. rewrite Hc. unfold covers; cbn. reflexivity.
  - intros e He. unfold box_validate in He.
    destruct ((0 <? x1) && (x1 <=? x2) && ((0 <? y1) && (y1 <=? y2))) eqn:E; inversion He.
    split; [reflexivity|]. intros [c H]. apply Hc in H. lia.
Qed.

(** ** intersect *)

Lemma box_intersect_sym a b : box_intersect a b = box_intersect b a.
Proof. unfold box_intersect. rewrite orb_comm. reflexivity. Qed.

Lemma box_intersect_spec a b :
  box_intersect a b = true <->
  covers b (bmin a) \/ covers b (bmax a) \/ covers a (bmin b) \/ covers a (bmax b).
Proof. unfold box_intersect. rewrite !orb_true_iff, !box_has_covers. tauto. Qed.

Lemma box_intersect_sound a b : valid a -> valid b -> box_intersect a b = true -> overlap a b.
Proof.
  intros Va Vb H. destruct (valid_min_max a Va). destruct (valid_min_max b Vb).
  apply box_intersect_spec in H as [H|[H|[H|H]]]; eexists; eauto.
Qed.

(** The overlapping pairs which are missed are exactly the crossing ones: going from one to the
    other, one box sticks out on the left or right on both... (stated by corners) *)
Lemma box_intersect_missed a b :
  valid a -> valid b -> overlap a b ->
  (box_intersect a b = false <->
   ((cx (bmin a) < cx (bmin b) /\ cy (bmin b) < cy (bmin a)) \/
    (cx (bmin b) < cx (bmin a) /\ cy (bmin a) < cy (bmin b))) /\
   ((cx (bmax a) < cx (bmax b) /\ cy (bmax b) < cy (bmax a)) \/
    (cx (bmax b) < cx (bmax a) /\ cy (bmax a) < cy (bmax b)))).
Proof.
  intros Va Vb [c [H1 H2]].
  assert (E : box_intersect a b = false <->
              ~ (covers b (bmin a) \/ covers b (bmax a) \/ covers a (bmin b) \/ covers a (bmax b))).
  { rewrite <- box_intersect_spec. destruct (box_intersect a b); split; congruence. }
  rewrite E. clear E. revert Va Vb H1 H2. geo.
Qed.

Lemma box_intersect_complete_unit a b :
  valid a -> valid b -> overlap a b -> bmin a = bmax a -> box_intersect a b = true.
Proof.
  intros Va Vb [c [H1 H2]] E. apply box_intersect_spec. left.
  revert Va Vb H1 H2 E. intros. destruct a as [[x y] [x' y']]; cbn in E. inversion E; subst.
  revert Va Vb H1 H2. clear E. geo.
Qed.

Lemma box_intersect_complete_same_rows a b :
  valid a -> valid b -> overlap a b ->
  cy (bmin a) = cy (bmin b) -> box_intersect a b = true.
Proof.
  intros Va Vb [c [H1 H2]] E. apply box_intersect_spec.
  revert Va Vb H1 H2 E. geo.
Qed.

Lemma box_intersect_complete_same_cols a b :
  valid a -> valid b -> overlap a b ->
  cx (bmin a) = cx (bmin b) -> box_intersect a b = true.
Proof.
  intros Va Vb [c [H1 H2]] E. apply box_intersect_spec.
  revert Va Vb H1 H2 E. geo.
Qed.

(** ** transform *)

Lemma coord_from_value_spec v c : coord_from_value v = Ok c <-> denotes_coord v c.
Proof.
  split.
  - destruct v; cbn; try discriminate.
    + destruct l as [|[] [|[] [|? ?]]]; try discriminate. intros H; inversion H; constructor.
    + intros H; inversion H; constructor.
  - intros H; inversion H; reflexivity.
Qed.

Lemma coord_from_value_err v : (forall c, ~ denotes_coord v c) -> coord_from_value v = Err ETypeError.
Proof.
  intros H. destruct (coord_from_value v) eqn:E.
  - apply coord_from_value_spec in E. exfalso; eapply H; eassumption.
  - revert E. destruct v; cbn; try congruence.
    destruct l as [|[] [|[] [|? ?]]]; congruence.
Qed.

Lemma size_from_value_spec v s : size_from_value v = Ok s <-> denotes_size v s.
Proof.
  split.
  - destruct v; cbn; try discriminate.
    + destruct l as [|[] [|[] [|? ?]]]; try discriminate. intros H; inversion H; constructor.
    + intros H; inversion H; constructor.
  - intros H; inversion H; reflexivity.
Qed.

Lemma size_from_value_err v : (forall c, ~ denotes_size v c) -> size_from_value v = Err ETypeError.
Proof.
  intros H. destruct (size_from_value v) eqn:E.
  - apply size_from_value_spec in E. exfalso; eapply H; eassumption.
  - revert E. destruct v; cbn; try congruence.
    destruct l as [|[] [|[] [|? ?]]]; congruence.
Qed.

(** What moving/resizing to a corner and a size gives *)
Lemma box_at c w h :
  box_new [PCoord c; PCoord (Coord (cx c + w - 1) (cy c + h - 1))]
  = box_validate (cx c) (cy c) (cx c + w - 1) (cy c + h - 1).
Proof. reflexivity. Qed.

Lemma box_move_to_eq b v c :
  denotes_coord v c ->
  box_move_to b v = box_validate (cx c) (cy c)
                      (cx c + box_width b - 1) (cy c + box_height b - 1).
Proof.
  intros H. unfold box_move_to.
  assert (E : match v with PNone => None | _ => Some v end = Some v) by (inversion H; reflexivity).
  rewrite E. unfold box_transform.
  rewrite (proj2 (coord_from_value_spec v c) H). cbn [rbind box_size coord_add coord_sub sw sh cx cy].
  reflexivity.
Qed.

Lemma box_resize_eq b v s :
  denotes_size v s ->
  box_resize b v = box_validate (cx (bmin b)) (cy (bmin b))
                     (cx (bmin b) + sw s - 1) (cy (bmin b) + sh s - 1).
Proof.
  intros H. unfold box_resize.
  assert (E : match v with PNone => None | _ => Some v end = Some v) by (inversion H; reflexivity).
  rewrite E. unfold box_transform. cbn [rbind].
  rewrite (proj2 (size_from_value_spec v s) H). reflexivity.
Qed.

Lemma box_move_to_ok b v c :
  valid b -> denotes_coord v c -> 1 <= cx c -> 1 <= cy c ->
  exists b', box_move_to b v = Ok b' /\ bmin b' = c /\
             box_width b' = box_width b /\ box_height b' = box_height b /\ valid b'.
Proof.
  intros V H Hx Hy. rewrite (box_move_to_eq b v c H).
  assert (1 <= box_width b /\ 1 <= box_height b) by (revert V; geo).
  rewrite box_validate_ok by lia. eexists; split; [reflexivity|].
  cbn. split; [apply coord_eta|]. unfold box_width, box_height, valid in *. cbn. lia.
Qed.

Lemma box_move_to_value_error b v c :
  valid b -> denotes_coord v c -> ~ (1 <= cx c /\ 1 <= cy c) -> box_move_to b v = Err EValueError.
Proof.
  intros V H Hn. rewrite (box_move_to_eq b v c H). apply box_validate_err. lia.
Qed.

Lemma box_move_to_type_error b v :
  v <> PNone -> (forall c, ~ denotes_coord v c) -> box_move_to b v = Err ETypeError.
Proof.
  intros Hn H. unfold box_move_to.
  assert (E : match v with PNone => None | _ => Some v end = Some v) by (destruct v; congruence).
  rewrite E. unfold box_transform. rewrite (coord_from_value_err v H). reflexivity.
Qed.

Lemma box_resize_ok b v s :
  valid b -> denotes_size v s -> 1 <= sw s -> 1 <= sh s ->
  exists b', box_resize b v = Ok b' /\ bmin b' = bmin b /\
             box_width b' = sw s /\ box_height b' = sh s /\ valid b'.
Proof.
  intros V H Hx Hy. rewrite (box_resize_eq b v s H). unfold valid in V.
  rewrite box_validate_ok by lia. eexists; split; [reflexivity|].
  cbn. split; [apply coord_eta|]. unfold box_width, box_height, valid in *. cbn. lia.
Qed.

Lemma box_resize_value_error b v s :
  valid b -> denotes_size v s -> ~ (1 <= sw s /\ 1 <= sh s) -> box_resize b v = Err EValueError.
Proof.
  intros V H Hn. rewrite (box_resize_eq b v s H). apply box_validate_err. lia.
Qed.

Lemma box_resize_type_error b v :
  v <> PNone -> (forall s, ~ denotes_size v s) -> box_resize b v = Err ETypeError.
Proof.
  intros Hn H. unfold box_resize.
  assert (E : match v with PNone => None | _ => Some v end = Some v) by (destruct v; congruence).
  rewrite E. unfold box_transform. cbn [rbind]. rewrite (size_from_value_err v H). reflexivity.
Qed.

Lemma box_move_back b v b' :
  valid b -> v <> PNone -> box_move_to b v = Ok b' -> box_move_to b' (PCoord (bmin b)) = Ok b.
Proof.
  intros V Hn H.
  destruct (coord_from_value v) as [c|] eqn:E.
  - apply coord_from_value_spec in E. rewrite (box_move_to_eq b v c E) in H.
    apply box_validate_inv in H as [-> V'].
    rewrite (box_move_to_eq _ _ (bmin b)) by constructor.
    unfold box_width, box_height. cbn [bmin bmax cx cy].
    unfold valid in V. rewrite box_validate_ok by lia. f_equal. apply box_ext; cbn; lia.
  - rewrite box_move_to_type_error in H; [discriminate | exact Hn |].
    intros c Hc. apply coord_from_value_spec in Hc. congruence.
Qed.

(** ** Order *)

Lemma box_lt_row_major a b : box_lt a b = true <-> row_major a b.
Proof.
  geo_unfold.
  destruct a as [[x1 y1] [x2 y2]], b as [[x1' y1'] [x2' y2']]; cbn [cx cy bmin bmax].
  destruct (Z.eqb_spec y1 y1'); [|lia].
  destruct (Z.eqb_spec x1 x1'); [|lia].
  destruct (Z.eqb_spec y2 y2'); lia.
Qed.

Lemma row_major_irrefl a : ~ row_major a a.
Proof. unfold row_major. lia. Qed.

Lemma row_major_trans a b c : row_major a b -> row_major b c -> row_major a c.
Proof. unfold row_major. lia. Qed.

Lemma row_major_total a b : row_major a b \/ a = b \/ row_major b a.
Proof.
  unfold row_major.
  destruct (Z.lt_trichotomy (cy (bmin a)) (cy (bmin b))) as [?|[?|?]]; [lia| |lia].
  destruct (Z.lt_trichotomy (cx (bmin a)) (cx (bmin b))) as [?|[?|?]]; [lia| |lia].
  destruct (Z.lt_trichotomy (cy (bmax a)) (cy (bmax b))) as [?|[?|?]]; [lia| |lia].
  destruct (Z.lt_trichotomy (cx (bmax a)) (cx (bmax b))) as [?|[?|?]]; [lia| |lia].
  right; left. apply box_ext; assumption.
Qed.

Lemma box_eqb_eq a b : box_eqb a b = true <-> a = b.
Proof.
  unfold box_eqb, box_tuple, tuple_cmp.
  destruct (Z.compare_spec (cx (bmin a)) (cx (bmin b))); [|split; [discriminate|intros ->; lia]..].
  destruct (Z.compare_spec (cy (bmin a)) (cy (bmin b))); [|split; [discriminate|intros ->; lia]..].
  destruct (Z.compare_spec (cx (bmax a)) (cx (bmax b))); [|split; [discriminate|intros ->; lia]..].
  destruct (Z.compare_spec (cy (bmax a)) (cy (bmax b))); [|split; [discriminate|intros ->; lia]..].
  split; [intros _|reflexivity]. apply box_ext; assumption.
Qed.
