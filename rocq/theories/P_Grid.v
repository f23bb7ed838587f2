(** * Proofs about grids *)
From Verif Require Import Base M_Geometry M_Xml M_Cell M_Grid.
From Verif Require Import S_Geometry S_Cell S_Grid P_Geometry P_Cell.

(** ** Lists *)

Lemma SSorted_app {A} (R : A -> A -> Prop) l m :
  StronglySorted R (l ++ m) <->
  StronglySorted R l /\ StronglySorted R m /\ (forall a b, In a l -> In b m -> R a b).
Proof.
  induction l as [|x l IH]; cbn.
  - split; [intros H; repeat split; auto; [constructor | intros ? ? []] | tauto].
  - split.
    + intros H. inversion H as [|? ? Hs Hf]; subst. apply IH in Hs as (H1 & H2 & H3).
      rewrite Forall_app in Hf. destruct Hf as [Hf1 Hf2]. repeat split; auto.
      * constructor; auto.
      * intros a b [<-|Ha] Hb; [rewrite Forall_forall in Hf2; auto | auto].
    + intros (H1 & H2 & H3). inversion H1; subst. constructor.
      * apply IH. auto.
      * rewrite Forall_app. split; [assumption|]. apply Forall_forall. intros b Hb. apply H3; auto.
Qed.

Lemma FOP_app {A} (R : A -> A -> Prop) l m :
  ForallOrdPairs R (l ++ m) <->
  ForallOrdPairs R l /\ ForallOrdPairs R m /\ (forall a b, In a l -> In b m -> R a b).
Proof.
  induction l as [|x l IH]; cbn.
  - split; [intros H; repeat split; auto; [constructor | intros ? ? []] | tauto].
  - split.
    + intros H. inversion H as [|? ? Hf Hs]; subst. apply IH in Hs as (H1 & H2 & H3).
      rewrite Forall_app in Hf. destruct Hf as [Hf1 Hf2]. repeat split; auto.
      * constructor; auto.
      * intros a b [<-|Ha] Hb; [rewrite Forall_forall in Hf2; auto | auto].
    + intros (H1 & H2 & H3). inversion H1; subst. constructor.
      * rewrite Forall_app. split; [assumption|]. apply Forall_forall. intros b Hb. apply H3; auto.
      * apply IH. auto.
Qed.

Lemma FOP_perm {A} (R : A -> A -> Prop) l m :
  (forall a b, R a b -> R b a) -> Permutation l m -> ForallOrdPairs R l -> ForallOrdPairs R m.
Proof.
  intros Hs HP. induction HP; intros H.
  - assumption.
  - inversion H; subst. constructor; [eapply Permutation_Forall; eassumption | auto].
  - inversion H as [|? ? Hf Ht]; subst. inversion Ht as [|? ? Hf' Ht']; subst.
    inversion Hf; subst. constructor; [constructor; auto | constructor; auto].
  - auto.
Qed.

Lemma SSorted_unique {A} (R : A -> A -> Prop) l m :
  (forall a, ~ R a a) -> (forall a b c, R a b -> R b c -> R a c) ->
  StronglySorted R l -> StronglySorted R m -> (forall a, In a l <-> In a m) -> l = m.
Proof.
  intros Hirr Htr. revert m. induction l as [|x l IH]; intros m Hl Hm Hi.
  - destruct m as [|y m]; [reflexivity|]. exfalso. apply (proj2 (Hi y)); left; reflexivity.
  - destruct m as [|y m]; [exfalso; apply (proj1 (Hi x)); left; reflexivity|].
    inversion Hl as [|? ? Sl Fl]; inversion Hm as [|? ? Sm Fm]; subst.
    rewrite Forall_forall in Fl, Fm.
    assert (x = y).
    { destruct (proj1 (Hi x) (or_introl eq_refl)) as [->|Hx]; [reflexivity|].
      destruct (proj2 (Hi y) (or_introl eq_refl)) as [->|Hy]; [reflexivity|].
      exfalso. apply (Hirr x). eapply Htr; [apply Fl, Hy | apply Fm, Hx]. }
    subst y. f_equal. apply IH; auto. intros a. split; intros Ha.
    + destruct (proj1 (Hi a) (or_intror Ha)) as [->|?]; [|assumption].
      exfalso; apply (Hirr a); auto.
    + destruct (proj2 (Hi a) (or_intror Ha)) as [->|?]; [|assumption].
      exfalso; apply (Hirr a); auto.
Qed.

Lemma SSorted_impl {A} (R S : A -> A -> Prop) l :
  (forall a b, R a b -> S a b) -> StronglySorted R l -> StronglySorted S l.
Proof.
  intros H HS. induction HS; constructor; auto. eapply Forall_impl; [|eassumption]. auto.
Qed.

Lemma insert_at_perm {A} (l : list A) n a : Permutation (insert_at l n a) (a :: l).
Proof.
  unfold insert_at. rewrite <- Permutation_middle. rewrite firstn_skipn. reflexivity.
Qed.

Lemma insert_at_In {A} (l : list A) n a x : In x (insert_at l n a) <-> x = a \/ In x l.
Proof.
  split; intros H.
  - apply (Permutation_in _ (insert_at_perm l n a)) in H. destruct H; auto.
  - apply (Permutation_in _ (Permutation_sym (insert_at_perm l n a))). destruct H; cbn; auto.
Qed.

(** ** Order of cells *)

Lemma before_irrefl a : ~ before a a.
Proof. unfold before. lia. Qed.
Lemma before_trans a b c : before a b -> before b c -> before a c.
Proof. unfold before. lia. Qed.

Lemma in_order_NoDup g : in_order g -> NoDup g.
Proof.
  induction 1 as [|a l Hs IH Hf]; constructor; auto.
  intros Hi. rewrite Forall_forall in Hf. apply (before_irrefl a). auto.
Qed.

Lemma in_order_unique g h : in_order g -> in_order h -> (forall c, In c g <-> In c h) -> g = h.
Proof. intros. eapply SSorted_unique; eauto using before_irrefl, before_trans. Qed.

Lemma in_order_unique_perm g h : in_order g -> in_order h -> Permutation g h -> g = h.
Proof.
  intros H1 H2 HP. apply in_order_unique; auto. intros c; split; apply Permutation_in;
    [exact HP | apply Permutation_sym, HP].
Qed.

(** ** clash *)

Lemma intersect_clash a b : box_intersect a b = true <-> clash a b.
Proof. apply box_intersect_spec. Qed.

Lemma intersect_no_clash a b : box_intersect a b = false <-> ~ clash a b.
Proof. rewrite <- intersect_clash. destruct (box_intersect a b); split; congruence. Qed.

Lemma clash_sym a b : clash a b -> clash b a.
Proof. unfold clash. tauto. Qed.

Lemma clash_dec a b : clash a b \/ ~ clash a b.
Proof. rewrite <- intersect_clash. destruct (box_intersect a b); [left; reflexivity | right; congruence]. Qed.

Lemma clash_overlap a b : valid a -> valid b -> clash a b -> overlap a b.
Proof. intros Va Vb H. apply box_intersect_sound; auto. apply intersect_clash, H. Qed.

Lemma subarea_clash a b : valid a -> subarea a b -> clash a b.
Proof. intros V H. left. apply H, valid_min_max, V. Qed.

Lemma same_min_clash a b : valid a -> bmin a = bmin b -> clash a b.
Proof. intros V H. right; right; left. rewrite <- H. apply valid_min_max, V. Qed.

Lemma existsb_clash g b :
  existsb (fun c => box_intersect (c_box c) b) g = true <-> exists c, In c g /\ clash (c_box c) b.
Proof.
  rewrite existsb_exists. split; intros (c & H1 & H2); exists c; split; auto; apply intersect_clash; auto.
Qed.

(** ** Invariant *)

Definition grid_inv (g : grid) : Prop := all_valid g /\ in_order g /\ no_clash g.

Lemma grid_inv_nil : grid_inv [].
Proof. repeat split; constructor. Qed.

(** ** bisect *)

Lemma bisect_loop_total fuel a x lo hi :
  (hi - lo <= fuel)%nat -> (hi <= List.length a)%nat -> (lo <= hi)%nat ->
  exists i, bisect_loop fuel a x lo hi = Ok i /\ (lo <= i <= hi)%nat.
Proof.
  revert lo hi. induction fuel as [|fuel IH]; intros lo hi Hf Hh Hl; cbn [bisect_loop].
  - replace (Nat.ltb lo hi) with false by (symmetry; apply Nat.ltb_ge; lia). exists lo; split; [reflexivity|lia].
  - destruct (Nat.ltb_spec lo hi) as [Hlt|Hge]; [|exists lo; split; [reflexivity|lia]].
    set (mid := Nat.div (lo + hi) 2).
    assert (Hm : (lo <= mid < hi)%nat).
    { pose proof (Nat.div_mod (lo + hi) 2 ltac:(lia)). pose proof (Nat.mod_upper_bound (lo + hi) 2 ltac:(lia)).
      fold mid in H. lia. }
    destruct (nth_error a mid) as [b|] eqn:Eb.
    2:{ apply nth_error_None in Eb. lia. }
    destruct (box_lt b x).
    + destruct (IH (S mid) hi) as (i & Ei & Hi); [lia..|]. exists i; split; [exact Ei|lia].
    + destruct (IH lo mid) as (i & Ei & Hi); [lia..|]. exists i; split; [exact Ei|lia].
Qed.

Lemma bisect_loop_place fuel a x lo hi i :
  (forall j k b c, (j <= k)%nat -> nth_error a j = Some b -> nth_error a k = Some c ->
                   box_lt c x = true -> box_lt b x = true) ->
  (forall j b, (j < lo)%nat -> nth_error a j = Some b -> box_lt b x = true) ->
  (forall j b, (hi <= j)%nat -> nth_error a j = Some b -> box_lt b x = false) ->
  bisect_loop fuel a x lo hi = Ok i -> (lo <= hi)%nat ->
  (forall j b, (j < i)%nat -> nth_error a j = Some b -> box_lt b x = true) /\
  (forall j b, (i <= j)%nat -> nth_error a j = Some b -> box_lt b x = false).
Proof.
  intros Hmono. revert lo hi. induction fuel as [|fuel IH]; intros lo hi H1 H2 H Hl; cbn [bisect_loop] in H.
  - destruct (Nat.ltb_spec lo hi) as [Hlt|Hge]; [discriminate|]. inversion H; subst.
    assert (i = hi) by lia. subst. split; assumption.
  - destruct (Nat.ltb_spec lo hi) as [Hlt|Hge].
    2:{ inversion H; subst. assert (i = hi) by lia. subst. split; assumption. }
    set (mid := Nat.div (lo + hi) 2) in *.
    assert (Hm : (lo <= mid < hi)%nat).
    { pose proof (Nat.div_mod (lo + hi) 2 ltac:(lia)) as D.
      pose proof (Nat.mod_upper_bound (lo + hi) 2 ltac:(lia)).
      fold mid in D. lia. }
    destruct (nth_error a mid) as [b|] eqn:Eb; [|discriminate].
    destruct (box_lt b x) eqn:El.
    + eapply IH; [| |exact H|lia].
      * intros j c Hj Hc. eapply (Hmono j mid); [lia|exact Hc|exact Eb|exact El].
      * exact H2.
    + eapply IH; [| |exact H|lia].
      * exact H1.
      * intros j c Hj Hc. destruct (box_lt c x) eqn:Ec; [|reflexivity].
        rewrite <- El. symmetry. eapply (Hmono mid j); [lia|exact Eb|exact Hc|exact Ec].
Qed.

Lemma bisect_left_total a x : exists i, bisect_left a x = Ok i /\ (i <= List.length a)%nat.
Proof.
  unfold bisect_left. destruct (bisect_loop_total (List.length a) a x 0 (List.length a)) as (i & E & H);
    [lia..|]. exists i; split; [exact E|lia].
Qed.

Lemma nth_error_firstn_In {A} (l : list A) n a :
  In a (firstn n l) -> exists j, (j < n)%nat /\ nth_error l j = Some a.
Proof.
  revert n. induction l as [|x l IH]; intros [|n]; cbn; try tauto.
  intros [->|H].
  - exists 0%nat. split; [lia|reflexivity].
  - destruct (IH n H) as (j & Hj & E). exists (S j). split; [lia|exact E].
Qed.

Lemma nth_error_skipn_In {A} (l : list A) n a :
  In a (skipn n l) -> exists j, (n <= j)%nat /\ nth_error l j = Some a.
Proof.
  revert n. induction l as [|x l IH]; intros [|n]; cbn; try tauto.
  - intros H. apply (In_nth_error (x :: l) a) in H as [j Hj]. exists j. split; [lia|exact Hj].
  - intros H. destruct (IH n H) as (j & Hj & E). exists (S j). split; [lia|exact E].
Qed.

Lemma SSorted_nth {A} (R : A -> A -> Prop) l i j a b :
  StronglySorted R l -> (i < j)%nat -> nth_error l i = Some a -> nth_error l j = Some b -> R a b.
Proof.
  intros H. revert i j. induction H as [|x l Hs IH Hf]; intros i j Hij Ha Hb.
  - destruct i; discriminate.
  - destruct j as [|j]; [lia|]. destruct i as [|i]; cbn in Ha, Hb.
    + inversion Ha; subst. rewrite Forall_forall in Hf. apply Hf. eapply nth_error_In; exact Hb.
    + eapply IH; [|exact Ha|exact Hb]. lia.
Qed.

(** Comparing with a one-coordinate box at another top-left corner *)
Lemma box_lt_unit b m :
  bmin b <> m -> box_lt b (MkBox m m) = true <->
  cy (bmin b) < cy m \/ (cy (bmin b) = cy m /\ cx (bmin b) < cx m).
Proof.
  intros Hn. rewrite box_lt_row_major. unfold row_major. cbn.
  assert (cx (bmin b) <> cx m \/ cy (bmin b) <> cy m).
  { destruct (Z.eq_dec (cx (bmin b)) (cx m)); [|auto]. destruct (Z.eq_dec (cy (bmin b)) (cy m)); [|auto].
    exfalso. apply Hn. apply coord_ext; assumption. }
  lia.
Qed.

(** ** Insertion at the sorted place *)

Lemma grid_insert_sorted_total c g :
  valid (c_box c) ->
  exists i, grid_insert_sorted c g = (insert_at g i c, Ok tt) /\
            bisect_left (map c_box g) (MkBox (c_min c) (c_min c)) = Ok i.
Proof.
  intros V. unfold grid_insert_sorted, sbind, sget, slift, sput. unfold box_new.
  rewrite box_validate_ok by (unfold valid in V; lia). rewrite coord_eta.
  destruct (bisect_left_total (map c_box g) (MkBox (bmin (c_box c)) (bmin (c_box c)))) as (i & E & _).
  exists i. rewrite E. split; [reflexivity | exact E].
Qed.

Lemma grid_insert_sorted_inv c g :
  grid_inv g -> valid (c_box c) -> (forall d, In d g -> ~ clash (c_box d) (c_box c)) ->
  exists g', grid_insert_sorted c g = (g', Ok tt) /\ grid_inv g' /\ Permutation g' (c :: g).
Proof.
  intros (HV & HS & HC) V Hn.
  destruct (grid_insert_sorted_total c g V) as (i & E & Hi).
  exists (insert_at g i c). split; [exact E|]. split; [|apply insert_at_perm].
  assert (Hmin : forall d, In d g -> bmin (c_box d) <> bmin (c_box c)).
  { intros d Hd He. apply (Hn d Hd). apply same_min_clash; [|exact He].
    unfold all_valid in HV. rewrite Forall_forall in HV. apply HV, Hd. }
  assert (Hplace : (forall d, In d (firstn i g) -> before d c) /\ (forall d, In d (skipn i g) -> before c d)).
  { unfold bisect_left in Hi. eapply bisect_loop_place in Hi.
    - destruct Hi as [H1 H2]. split; intros d Hd.
      + apply nth_error_firstn_In in Hd as (j & Hj & Ej).
        specialize (H1 j (c_box d) Hj). rewrite nth_error_map, Ej in H1. specialize (H1 eq_refl).
        apply box_lt_unit in H1; [exact H1|]. apply Hmin. eapply nth_error_In; exact Ej.
      + apply nth_error_skipn_In in Hd as (j & Hj & Ej).
        specialize (H2 j (c_box d) Hj). rewrite nth_error_map, Ej in H2. specialize (H2 eq_refl).
        assert (Hne : bmin (c_box d) <> c_min c) by (apply Hmin; eapply nth_error_In; exact Ej).
        assert (H3 : ~ (cy (bmin (c_box d)) < cy (c_min c) \/
                        (cy (bmin (c_box d)) = cy (c_min c) /\ cx (bmin (c_box d)) < cx (c_min c)))).
        { rewrite <- box_lt_unit by exact Hne. congruence. }
        unfold before. fold (c_min c). unfold c_min in *.
        assert (cx (bmin (c_box d)) <> cx (bmin (c_box c)) \/ cy (bmin (c_box d)) <> cy (bmin (c_box c))).
        { destruct (Z.eq_dec (cx (bmin (c_box d))) (cx (bmin (c_box c)))); [|auto].
          destruct (Z.eq_dec (cy (bmin (c_box d))) (cy (bmin (c_box c)))); [|auto].
          exfalso. apply Hne. apply coord_ext; assumption. }
        lia.
    - intros j k b b' Hjk Hb Hb' Hlt.
      rewrite nth_error_map in Hb, Hb'.
      destruct (nth_error g j) as [d|] eqn:Ed; [|discriminate].
      destruct (nth_error g k) as [d'|] eqn:Ed'; [|discriminate].
      cbn in Hb, Hb'. inversion Hb; inversion Hb'; subst.
      destruct (Nat.eq_dec j k) as [->|Hne]; [congruence|].
      assert (before d d') by (eapply (SSorted_nth before g j k); eauto; lia).
      apply box_lt_unit; [apply Hmin; eapply nth_error_In; exact Ed|].
      apply box_lt_unit in Hlt; [|apply Hmin; eapply nth_error_In; exact Ed'].
      unfold before, c_min in *. lia.
    - intros j b Hj. lia.
    - intros j b Hj Hb. exfalso. assert (j < List.length (map c_box g))%nat.
      { apply nth_error_Some. congruence. } lia.
    - lia. }
  destruct Hplace as [Hp1 Hp2].
  pose proof (firstn_skipn i g) as Hg.
  split; [|split].
  - unfold all_valid. eapply Permutation_Forall; [apply Permutation_sym, insert_at_perm|].
    constructor; assumption.
  - unfold in_order, insert_at. rewrite <- Hg in HS. unfold in_order in HS.
    apply SSorted_app in HS as (S1 & S2 & S3). apply SSorted_app. split; [exact S1|]. split.
    + constructor; [exact S2|]. apply Forall_forall. exact Hp2.
    + intros a b Ha [<-|Hb]; auto.
  - unfold no_clash. eapply FOP_perm; [|apply Permutation_sym, insert_at_perm|].
    + intros a b H H'. apply H, clash_sym, H'.
    + constructor; [|exact HC]. apply Forall_forall. intros d Hd H. apply (Hn d Hd), clash_sym, H.
Qed.

(** ** Insertion of a cell *)

Definition moved (c : cell) (co : coord) : cell :=
  MkCell (c_content c) (c_styles c) (c_nature c)
    (MkBox co (Coord (cx co + box_width (c_box c) - 1) (cy co + box_height (c_box c) - 1))).

Lemma cell_move_to_cases c co :
  (1 <= cx co /\ 1 <= cy co /\ 1 <= box_width (c_box c) /\ 1 <= box_height (c_box c) /\
   cell_move_to c (PCoord co) = Ok (moved c co)) \/
  (~ (1 <= cx co /\ 1 <= cy co /\ 1 <= box_width (c_box c) /\ 1 <= box_height (c_box c)) /\
   cell_move_to c (PCoord co) = Err EValueError).
Proof.
  rewrite cell_move_to_eq. rewrite (box_move_to_eq _ _ co) by constructor.
  destruct (Z_le_gt_dec 1 (cx co)); [|right; split; [lia|rewrite box_validate_err by lia; reflexivity]].
  destruct (Z_le_gt_dec 1 (cy co)); [|right; split; [lia|rewrite box_validate_err by lia; reflexivity]].
  destruct (Z_le_gt_dec 1 (box_width (c_box c))); [|right; split; [lia|rewrite box_validate_err by lia; reflexivity]].
  destruct (Z_le_gt_dec 1 (box_height (c_box c))); [|right; split; [lia|rewrite box_validate_err by lia; reflexivity]].
  left. repeat split; auto. rewrite box_validate_ok by lia. cbn [rbind]. rewrite coord_eta. reflexivity.
Qed.

Lemma moved_valid c co :
  1 <= cx co -> 1 <= cy co -> 1 <= box_width (c_box c) -> 1 <= box_height (c_box c) ->
  valid (c_box (moved c co)).
Proof. unfold moved, valid. cbn. lia. Qed.

Lemma moved_self c : moved c (c_min c) = c.
Proof.
  destruct c as [ct st na [[x1 y1] [x2 y2]]]. unfold moved, c_min, box_width, box_height. cbn.
  f_equal. apply box_ext; cbn; lia.
Qed.

(** All the outcomes of [grid[v] = new], for any list of cells. *)
Lemma grid_setitem_cases v new g :
  (coord_from_value v = Err ETypeError /\ grid_setitem v new g = (g, Err ETypeError)) \/
  (exists co, denotes_coord v co /\
     ((~ (1 <= cx co /\ 1 <= cy co /\ 1 <= box_width (c_box new) /\ 1 <= box_height (c_box new)) /\
       grid_setitem v new g = (g, Err EValueError)) \/
      (valid (c_box (moved new co)) /\
       ((exists d, In d g /\ clash (c_box d) (c_box (moved new co))) /\
        grid_setitem v new g = (g, Err EKeyError) \/
        (forall d, In d g -> ~ clash (c_box d) (c_box (moved new co))) /\
        grid_setitem v new g = grid_insert_sorted (moved new co) g)))).
Proof.
  unfold grid_setitem, sbind, slift, sget, sraise.
  destruct (coord_from_value v) as [co|e] eqn:Ev.
  - right. exists co. split; [apply coord_from_value_spec, Ev|].
    destruct (cell_move_to_cases new co) as [(H1 & H2 & H3 & H4 & E)|(Hn & E)]; rewrite E.
    + right. split; [apply moved_valid; assumption|].
      destruct (existsb (fun c => box_intersect (c_box c) (c_box (moved new co))) g) eqn:Ex.
      * left. split; [apply existsb_clash, Ex | reflexivity].
      * right. split; [|reflexivity]. intros d Hd Hc.
        assert (existsb (fun c => box_intersect (c_box c) (c_box (moved new co))) g = true)
          by (apply existsb_clash; eauto). congruence.
    + left. split; [exact Hn | reflexivity].
  - left. assert (e = ETypeError).
    { destruct v; cbn in Ev; try congruence. destruct l as [|[] [|[] [|? ?]]]; congruence. }
    subst. split; reflexivity.
Qed.

Lemma grid_setitem_inv v new g : grid_inv g -> grid_inv (fst (grid_setitem v new g)).
Proof.
  intros HI. destruct (grid_setitem_cases v new g) as [[_ ->]|(co & _ & [[_ ->]|(V & [[_ ->]|[Hn ->]])])];
    try exact HI.
  destruct (grid_insert_sorted_inv (moved new co) g HI V Hn) as (g' & -> & HI' & _). exact HI'.
Qed.

(** ** Deletion *)

Lemma remove_first_covering_spec g c :
  match remove_first_covering g c with
  | Some g' => exists d l m, g = l ++ d :: m /\ g' = l ++ m /\ covers (c_box d) c /\
                             grid_getitem_c g c = Ok d /\ (forall e, In e l -> ~ covers (c_box e) c)
  | None => (forall d, In d g -> ~ covers (c_box d) c) /\ grid_getitem_c g c = Err EKeyError
  end.
Proof.
  induction g as [|d g IH]; cbn [remove_first_covering grid_getitem_c].
  - split; [intros d []|reflexivity].
  - destruct (box_has (c_box d) c) eqn:E.
    + exists d, [], g. apply box_has_covers in E.
      do 2 (split; [reflexivity|]). split; [exact E|]. split; [reflexivity|intros e []].
    + apply box_has_not in E. destruct (remove_first_covering g c) as [g'|].
      * destruct IH as (d' & l & m & -> & -> & Hc & Hg & Hl). exists d', (d :: l), m.
        do 2 (split; [reflexivity|]). split; [exact Hc|]. split; [exact Hg|].
        intros e [<-|He]; auto.
      * destruct IH as [H1 H2]. split; [|exact H2]. intros e [<-|He]; auto.
Qed.

Lemma grid_inv_remove l d m : grid_inv (l ++ d :: m) -> grid_inv (l ++ m).
Proof.
  intros (HV & HS & HC). split; [|split].
  - unfold all_valid in *. rewrite Forall_app in *. destruct HV as [H1 H2]. inversion H2; auto.
  - unfold in_order in *. apply SSorted_app in HS as (S1 & S2 & S3). inversion S2; subst.
    apply SSorted_app. repeat split; auto. intros a b Ha Hb. apply S3; cbn; auto.
  - unfold no_clash in *. apply FOP_app in HC as (S1 & S2 & S3). inversion S2; subst.
    apply FOP_app. repeat split; auto. intros a b Ha Hb. apply S3; cbn; auto.
Qed.

Lemma grid_delitem_cases v g :
  (coord_from_value v = Err ETypeError /\ grid_delitem v g = (g, Err ETypeError)) \/
  (exists co, denotes_coord v co /\
     (((forall d, In d g -> ~ covers (c_box d) co) /\ grid_getitem g v = Err EKeyError /\
       grid_delitem v g = (g, Err EKeyError)) \/
      (exists d l m, g = l ++ d :: m /\ covers (c_box d) co /\ grid_getitem g v = Ok d /\
                     (forall e, In e l -> ~ covers (c_box e) co) /\
                     grid_delitem v g = (l ++ m, Ok tt)))).
Proof.
  unfold grid_delitem, grid_getitem, sbind, slift, sget, sraise, sput.
  destruct (coord_from_value v) as [co|e] eqn:Ev.
  - right. exists co. split; [apply coord_from_value_spec, Ev|].
    pose proof (remove_first_covering_spec g co) as H.
    destruct (remove_first_covering g co) as [g'|].
    + right. destruct H as (d & l & m & -> & -> & Hc & Hg & Hl). exists d, l, m. cbn [rbind]. auto 6.
    + left. destruct H as [H1 H2]. cbn [rbind]. auto.
  - left. assert (e = ETypeError).
    { destruct v; cbn in Ev; try congruence. destruct l as [|[] [|[] [|? ?]]]; congruence. }
    subst. split; reflexivity.
Qed.

Lemma grid_delitem_inv v g : grid_inv g -> grid_inv (fst (grid_delitem v g)).
Proof.
  intros HI.
  destruct (grid_delitem_cases v g) as [[_ ->]|(co & _ & [(_ & _ & ->)|(d & l & m & -> & _ & _ & _ & ->)])];
    try exact HI.
  cbn. eapply grid_inv_remove; exact HI.
Qed.

(** ** Lookup *)

Lemma grid_getitem_c_cases g c :
  (exists d, grid_getitem_c g c = Ok d /\ In d g /\ covers (c_box d) c) \/
  (grid_getitem_c g c = Err EKeyError /\ forall d, In d g -> ~ covers (c_box d) c).
Proof.
  induction g as [|d g IH]; cbn.
  - right. split; [reflexivity|intros d []].
  - destruct (box_has (c_box d) c) eqn:E.
    + left. exists d. apply box_has_covers in E. auto.
    + apply box_has_not in E. destruct IH as [(e & He & Hi & Hc)|(He & Hn)].
      * left. exists e. auto.
      * right. split; [exact He|]. intros e [<-|H]; auto.
Qed.

Lemma grid_contains_c_spec g c : grid_contains_c g c = true <-> exists d, In d g /\ covers (c_box d) c.
Proof.
  unfold grid_contains_c. rewrite existsb_exists. split; intros (d & H1 & H2); exists d; split; auto;
    apply box_has_covers; auto.
Qed.

(** In a grid without clash, a coordinate which is a corner of a cell belongs to this cell only. *)
Lemma no_clash_In g a b :
  no_clash g -> In a g -> In b g -> clash (c_box a) (c_box b) -> valid (c_box a) -> a = b.
Proof.
  intros HC Ha Hb Hcl V. destruct (ForallOrdPairs_In HC a b Ha Hb) as [H|[H|H]].
  - exact H.
  - contradiction.
  - exfalso. apply H, clash_sym, Hcl.
Qed.

Lemma grid_getitem_corner g d :
  grid_inv g -> In d g ->
  grid_getitem_c g (c_min d) = Ok d /\ grid_getitem_c g (c_max d) = Ok d.
Proof.
  intros (HV & HS & HC) Hd. unfold all_valid in HV. rewrite Forall_forall in HV.
  pose proof (valid_min_max _ (HV d Hd)) as [V1 V2]. split.
  - destruct (grid_getitem_c_cases g (c_min d)) as [(e & -> & He & Hc)|(_ & Hn)].
    + f_equal. symmetry. eapply no_clash_In; eauto. left. exact Hc.
    + exfalso. apply (Hn d Hd). exact V1.
  - destruct (grid_getitem_c_cases g (c_max d)) as [(e & -> & He & Hc)|(_ & Hn)].
    + f_equal. symmetry. eapply no_clash_In; eauto. right; left. exact Hc.
    + exfalso. apply (Hn d Hd). exact V2.
Qed.

(** ** Merge *)

Definition insideb (area : box) (c : cell) : bool := box_has_box area (c_box c).

Lemma merge_split_spec area cells :
  match merge_split area cells with
  | Ok (merged, unchanged) =>
      merged = filter (insideb area) cells /\
      unchanged = filter (fun c => negb (insideb area c)) cells /\
      (forall c, In c unchanged -> box_intersect (c_box c) area = false)
  | Err e => e = EValueError /\
             exists c, In c cells /\ insideb area c = false /\ box_intersect (c_box c) area = true
  end.
Proof.
  induction cells as [|c cells IH]; cbn [merge_split filter].
  - repeat split; auto. intros c [].
  - fold (insideb area c). destruct (insideb area c) eqn:Ei; cbn [negb].
    + destruct (merge_split area cells) as [[m u]|e]; cbn [rbind fst snd].
      * destruct IH as (-> & -> & H). repeat split; auto.
      * destruct IH as (-> & d & Hd & H). split; [reflexivity|]. exists d. cbn; auto.
    + destruct (box_intersect (c_box c) area) eqn:Ec.
      * split; [reflexivity|]. exists c. cbn; auto.
      * destruct (merge_split area cells) as [[m u]|e]; cbn [rbind fst snd].
        -- destruct IH as (-> & -> & H). repeat split; auto. intros d [<-|Hd]; auto.
        -- destruct IH as (-> & d & Hd & H). split; [reflexivity|]. exists d. cbn; auto.
Qed.

Lemma merge_cells_box app c cells r :
  merge_cells app c cells = Ok r -> c_box r = c_box c /\ c_nature r = c_nature c.
Proof.
  revert c. induction cells as [|d cells IH]; intros c; cbn.
  - intros H; inversion H; auto.
  - destruct (merge_content app (c_content c) (c_content d)) as [ct|]; cbn [rbind]; [|discriminate].
    intros H. apply IH in H. exact H.
Qed.

Lemma cell_transform_to_area c area :
  valid area ->
  cell_transform c (Some (PCoord (bmin area))) (Some (PSize (box_size area)))
  = Ok (MkCell (c_content c) (c_styles c) (c_nature c) area).
Proof.
  intros V. rewrite cell_transform_eq. unfold box_transform.
  cbn [coord_from_value size_from_value rbind coord_add coord_sub].
  unfold box_new. cbn [cx cy sw sh box_size]. unfold box_width, box_height.
  rewrite box_validate_ok by (unfold valid in V; lia). cbn [rbind].
  do 2 f_equal. apply box_ext; cbn; lia.
Qed.

Definition area_of (a b : coord) : box := MkBox a b.

(** All the outcomes of merge, for any list of cells. *)
Lemma grid_merge_cases v1 v2 app g :
  (exists e, grid_merge v1 v2 app g = (g, Err e) /\
     ((e = ETypeError /\ (coord_from_value v1 = Err ETypeError \/ coord_from_value v2 = Err ETypeError)) \/
      (exists a b, denotes_coord v1 a /\ denotes_coord v2 b /\
         ((e = EValueError /\
           (~ valid (MkBox a b) \/
            (exists c, In c g /\ insideb (MkBox a b) c = false /\ clash (c_box c) (MkBox a b)) \/
            (forall c, In c g -> insideb (MkBox a b) c = false))) \/
          (valid (MkBox a b) /\
           (forall c, In c g -> insideb (MkBox a b) c = true \/ ~ clash (c_box c) (MkBox a b)) /\
           exists f l, filter (insideb (MkBox a b)) g = f :: l /\
             merge_cells (chosen app) (MkCell (c_content f) (c_styles f) (c_nature f) (MkBox a b)) l = Err e))))) \/
  (exists a b f l r, denotes_coord v1 a /\ denotes_coord v2 b /\ valid (MkBox a b) /\
     (forall c, In c g -> insideb (MkBox a b) c = true \/ ~ clash (c_box c) (MkBox a b)) /\
     filter (insideb (MkBox a b)) g = f :: l /\
     merge_cells (chosen app) (MkCell (c_content f) (c_styles f) (c_nature f) (MkBox a b)) l = Ok r /\
     c_box r = MkBox a b /\ c_nature r = c_nature f /\
     let u := filter (fun c => negb (insideb (MkBox a b) c)) g in
     grid_merge v1 v2 app g = (fst (grid_insert_sorted r u), Ok r)).
Proof.
  assert (CE : forall v e, coord_from_value v = Err e -> e = ETypeError).
  { intros v e Ev. destruct v; cbn in Ev; try congruence. destruct l as [|[] [|[] [|? ?]]]; congruence. }
  unfold grid_merge, sbind, slift, sget, sraise, sput, sret.
  destruct (coord_from_value v1) as [a|e] eqn:E1.
  2:{ left. exists e. rewrite (CE _ _ E1). split; [reflexivity|]. left; auto. }
  destruct (coord_from_value v2) as [b|e] eqn:E2.
  2:{ left. exists e. rewrite (CE _ _ E2). split; [reflexivity|]. left; auto. }
  apply coord_from_value_spec in E1. apply coord_from_value_spec in E2.
  unfold box_new.
  destruct (box_validate (cx a) (cy a) (cx b) (cy b)) as [area|e] eqn:Ea.
  2:{ left. exists e. split; [reflexivity|]. right. exists a, b. repeat split; auto. left.
      unfold box_validate in Ea.
      destruct ((0 <? cx a) && (cx a <=? cx b) && ((0 <? cy a) && (cy a <=? cy b))) eqn:Ec; inversion Ea.
      split; [reflexivity|]. left. unfold valid; cbn. lia. }
  apply box_validate_inv in Ea as [-> Va]. rewrite !coord_eta in *.
  set (area := MkBox a b) in *.
  pose proof (merge_split_spec area g) as Hs.
  destruct (merge_split area g) as [[m u]|e].
  2:{ left. destruct Hs as (-> & c & Hc & Hi & Hx). exists EValueError. split; [reflexivity|].
      right. exists a, b. repeat split; auto. left. split; [reflexivity|]. right; left. exists c.
      repeat split; auto. apply intersect_clash, Hx. }
  destruct Hs as (Hm & Hu & Hx). cbn [fst snd].
  assert (Hin : forall c, In c g -> insideb area c = true \/ ~ clash (c_box c) area).
  { intros c Hc. destruct (insideb area c) eqn:Ei; [left; reflexivity|]. right.
    apply intersect_no_clash, Hx. rewrite Hu. apply filter_In. rewrite Ei. auto. }
  destruct m as [|f l].
  { left. exists EValueError. split; [reflexivity|]. right. exists a, b. repeat split; auto. left.
    split; [reflexivity|]. right; right. intros c Hc. destruct (insideb area c) eqn:Ei; [|exact Ei].
    exfalso. assert (In c []) by (rewrite Hm; apply filter_In; auto). contradiction. }
  rewrite cell_transform_to_area by exact Va. fold (chosen app).
  destruct (merge_cells (chosen app) (MkCell (c_content f) (c_styles f) (c_nature f) area) l) as [r|e] eqn:Er.
  - right. exists a, b, f, l, r.
    destruct (merge_cells_box _ _ _ _ Er) as [Hb Hna]. cbn in Hb, Hna.
    repeat (split; [solve [auto]|]). cbn zeta. fold area. rewrite <- Hu.
    destruct (grid_insert_sorted_total r u) as (i & -> & _); [rewrite Hb; exact Va|]. reflexivity.
  - left. exists e. split; [reflexivity|]. right. exists a, b. repeat split; auto.
    right. split; [exact Va|]. split; [exact Hin|]. exists f, l. auto.
Qed.

Lemma filter_SSorted {A} (R : A -> A -> Prop) f l : StronglySorted R l -> StronglySorted R (filter f l).
Proof.
  induction 1 as [|a l Hs IH Hf]; cbn; [constructor|].
  destruct (f a); [|exact IH]. constructor; [exact IH|].
  rewrite Forall_forall in *. intros x Hx. apply filter_In in Hx as [Hx _]. auto.
Qed.

Lemma filter_FOP {A} (R : A -> A -> Prop) f l : ForallOrdPairs R l -> ForallOrdPairs R (filter f l).
Proof.
  induction 1 as [|a l Hf Hs IH]; cbn; [constructor|].
  destruct (f a); [|exact IH]. constructor; [|exact IH].
  rewrite Forall_forall in *. intros x Hx. apply filter_In in Hx as [Hx _]. auto.
Qed.

Lemma grid_inv_filter f g : grid_inv g -> grid_inv (filter f g).
Proof.
  intros (HV & HS & HC). split; [|split].
  - unfold all_valid in *. rewrite Forall_forall in *. intros x Hx. apply filter_In in Hx as [Hx _]. auto.
  - apply filter_SSorted, HS.
  - apply filter_FOP, HC.
Qed.

Lemma grid_merge_unchanged_no_clash g area :
  (forall c, In c g -> insideb area c = true \/ ~ clash (c_box c) area) ->
  forall d, In d (filter (fun c => negb (insideb area c)) g) -> ~ clash (c_box d) area.
Proof.
  intros H d Hd. apply filter_In in Hd as [Hd Hi]. destruct (H d Hd) as [E|E]; [|exact E].
  rewrite E in Hi. discriminate.
Qed.

Lemma grid_merge_inv v1 v2 app g : grid_inv g -> grid_inv (fst (grid_merge v1 v2 app g)).
Proof.
  intros HI. destruct (grid_merge_cases v1 v2 app g)
    as [(e & -> & _)|(a & b & f & l & r & H1 & H2 & V & Hin & Hf & Hm & Hb & Hna & E)]; [exact HI|].
  cbn zeta in E. rewrite E. cbn [fst].
  destruct (grid_insert_sorted_inv r (filter (fun c => negb (insideb (MkBox a b) c)) g)) as (g' & -> & HI' & _).
  - apply grid_inv_filter, HI.
  - rewrite Hb. exact V.
  - intros d Hd. rewrite Hb. eapply grid_merge_unchanged_no_clash; eassumption.
  - exact HI'.
Qed.

(** ** Expansion *)

Lemma grid_expand_cases v w h app g :
  (exists e, grid_getitem g v = Err e /\ grid_expand v w h app g = (g, Err e)) \/
  (exists c, grid_getitem g v = Ok c /\
     grid_expand v w h app g =
     grid_merge (PCoord (c_min c)) (PCoord (Coord (cx (c_max c) + w) (cy (c_max c) + h))) app g).
Proof.
  unfold grid_expand, sbind, slift, sget.
  destruct (grid_getitem g v) as [c|e].
  - right. exists c. split; reflexivity.
  - left. exists e. split; reflexivity.
Qed.

Lemma grid_expand_inv v w h app g : grid_inv g -> grid_inv (fst (grid_expand v w h app g)).
Proof.
  intros HI. destruct (grid_expand_cases v w h app g) as [(e & _ & ->)|(c & _ & ->)]; [exact HI|].
  apply grid_merge_inv, HI.
Qed.

(** ** Mapping methods *)

Lemma grid_pop_state v g : fst (grid_pop v g) = fst (grid_delitem v g).
Proof.
  unfold grid_pop, sbind, slift, sget.
  destruct (grid_delitem_cases v g)
    as [[Hv E]|(co & Hv & [(_ & Hg & E)|(d & l & m & Hg' & _ & Hg & _ & E)])]; rewrite E.
  - unfold grid_getitem. rewrite Hv. reflexivity.
  - rewrite Hg. reflexivity.
  - rewrite Hg. reflexivity.
Qed.

Lemma grid_pop_inv v g : grid_inv g -> grid_inv (fst (grid_pop v g)).
Proof. rewrite grid_pop_state. apply grid_delitem_inv. Qed.

Lemma grid_setdefault_state v c g :
  fst (grid_setdefault v c g) = g \/ fst (grid_setdefault v c g) = fst (grid_setitem v c g).
Proof.
  unfold grid_setdefault. destruct (grid_getitem g v) as [d|e]; [left; reflexivity|].
  destruct e; try (left; reflexivity). right. unfold sbind.
  destruct (grid_setitem v c g) as [g' [x|e]]; reflexivity.
Qed.

Lemma grid_setdefault_inv v c g : grid_inv g -> grid_inv (fst (grid_setdefault v c g)).
Proof.
  intros H. destruct (grid_setdefault_state v c g) as [->| ->]; [exact H|]. apply grid_setitem_inv, H.
Qed.

Lemma grid_popitem_eq g :
  grid_popitem g = (g, Err (match g with [] => EKeyError | _ => ETypeError end)).
Proof. destruct g; reflexivity. Qed.

Lemma grid_clear_eq g :
  grid_clear g = (g, match g with [] => Ok tt | _ => Err ETypeError end).
Proof. unfold grid_clear. cbn [grid_clear_loop]. rewrite grid_popitem_eq. destruct g; reflexivity. Qed.

Lemma siter_inv {S A} (f : A -> SM S unit) (P : S -> Prop) l s :
  (forall a s, P s -> P (fst (f a s))) -> P s -> P (fst (siter f l s)).
Proof.
  intros Hf. revert s. induction l as [|a l IH]; intros s Hs; cbn; [exact Hs|].
  unfold sbind. specialize (Hf a s Hs). destruct (f a s) as [s' [x|e]]; cbn in *; auto.
Qed.

Lemma grid_update_grid_eq other g :
  grid_update_grid other g = (g, match other with [] => Ok tt | _ => Err ETypeError end).
Proof. destruct other; reflexivity. Qed.

Lemma unit_of_state {S A} (m : SM S A) s : fst (unit_of m s) = fst (m s).
Proof. unfold unit_of, sbind. destruct (m s) as [s' [a|e]]; reflexivity. Qed.

Lemma gstep_inv o g : grid_inv g -> grid_inv (fst (gstep o g)).
Proof.
  intros HI. destruct o; cbn [gstep]; rewrite ?unit_of_state.
  - apply grid_setitem_inv, HI.
  - apply grid_delitem_inv, HI.
  - apply grid_merge_inv, HI.
  - apply grid_expand_inv, HI.
  - apply grid_pop_inv, HI.
  - apply grid_setdefault_inv, HI.
  - rewrite grid_popitem_eq. exact HI.
  - rewrite grid_clear_eq. exact HI.
  - unfold grid_update. apply siter_inv; [|exact HI]. intros a s. apply grid_setitem_inv.
  - rewrite grid_update_grid_eq. exact HI.
Qed.

Lemma grid_new_inv cells g : grid_new cells = Ok g -> grid_inv g.
Proof.
  unfold grid_new. intros H.
  pose proof (siter_inv (fun c => grid_setitem (PCoord (c_min c)) c) grid_inv cells []
                (fun a s => grid_setitem_inv _ _ _) grid_inv_nil) as HI.
  destruct (siter (fun c => grid_setitem (PCoord (c_min c)) c) cells []) as [g' [x|e]]; inversion H; subst. exact HI.
Qed.

Lemma reachable_inv g : reachable g -> grid_inv g.
Proof.
  induction 1 as [cells g H|g o H IH]; [eapply grid_new_inv; exact H | apply gstep_inv, IH].
Qed.

Lemma grun_reachable g h : reachable g -> reachable (grun g h).
Proof.
  unfold grun. revert g. induction h as [|o h IH]; intros g Hg; cbn; [exact Hg|].
  apply IH. constructor. exact Hg.
Qed.

(** ** Overlap *)

Definition antidiagonal (a b : box) : Prop :=
  ((cx (bmin a) < cx (bmin b) /\ cy (bmin b) < cy (bmin a)) \/
   (cx (bmin b) < cx (bmin a) /\ cy (bmin a) < cy (bmin b))) /\
  ((cx (bmax a) < cx (bmax b) /\ cy (bmax b) < cy (bmax a)) \/
   (cx (bmax b) < cx (bmax a) /\ cy (bmax a) < cy (bmax b))).

Lemma inv_overlap_antidiagonal g l a m b n :
  grid_inv g -> g = l ++ a :: m ++ b :: n -> overlap (c_box a) (c_box b) ->
  antidiagonal (c_box a) (c_box b).
Proof.
  intros (HV & HS & HC) -> Ho. unfold antidiagonal. apply box_intersect_missed; auto.
  - unfold all_valid in HV. rewrite Forall_forall in HV. apply HV. apply in_elt.
  - unfold all_valid in HV. rewrite Forall_forall in HV. apply HV.
    rewrite in_app_iff. right. right. apply in_elt.
  - apply intersect_no_clash. unfold no_clash in HC. apply FOP_app in HC as (_ & HC & _).
    inversion HC as [|? ? Hf _]; subst. rewrite Forall_forall in Hf. apply Hf. apply in_elt.
Qed.

Lemma FOP_split {A} (R : A -> A -> Prop) g :
  (forall l a m b n, g = l ++ a :: m ++ b :: n -> R a b) -> ForallOrdPairs R g.
Proof.
  induction g as [|x g IH]; intros H; constructor.
  - apply Forall_forall. intros y Hy. apply in_split in Hy as (m & n & ->).
    apply (H [] x m y n). reflexivity.
  - apply IH. intros l a m b n ->. apply (H (x :: l) a m b n). reflexivity.
Qed.

Lemma inv_no_overlap g :
  grid_inv g ->
  (forall a b, In a g -> In b g -> overlap (c_box a) (c_box b) -> ~ antidiagonal (c_box a) (c_box b)) ->
  no_overlap g.
Proof.
  intros HI H. apply FOP_split. intros l a m b n Hg Ho.
  pose proof (inv_overlap_antidiagonal g l a m b n HI Hg Ho) as Ha. revert Ha. apply H; auto.
  - rewrite Hg. apply in_elt.
  - rewrite Hg. rewrite in_app_iff. right. right. apply in_elt.
Qed.

Lemma overlap_rows_not_antidiagonal a b :
  cy (bmin a) = cy (bmax a) -> cy (bmin b) = cy (bmax b) -> overlap a b -> ~ antidiagonal a b.
Proof. intros H1 H2 [c [[? ?] [? ?]]]. unfold antidiagonal. lia. Qed.

Lemma overlap_cols_not_antidiagonal a b :
  cx (bmin a) = cx (bmax a) -> cx (bmin b) = cx (bmax b) -> overlap a b -> ~ antidiagonal a b.
Proof. intros H1 H2 [c [[? ?] [? ?]]]. unfold antidiagonal. lia. Qed.

Lemma overlap_unit_not_antidiagonal a b : bmin a = bmax a -> overlap a b -> ~ antidiagonal a b.
Proof.
  intros H1 [c [[? ?] [? ?]]]. rewrite <- H1 in *. unfold antidiagonal. rewrite <- H1. lia.
Qed.

(** ** Order-independence of the constructor *)

Lemma all_valid_move c g :
  valid (c_box c) ->
  grid_setitem (PCoord (c_min c)) c g =
  if existsb (fun d => box_intersect (c_box d) (c_box c)) g then (g, Err EKeyError)
  else grid_insert_sorted c g.
Proof.
  intros V. unfold grid_setitem, sbind, slift, sget, sraise. cbn [coord_from_value].
  destruct (cell_move_to_cases c (c_min c)) as [(_ & _ & _ & _ & E)|(Hn & _)].
  - rewrite E, moved_self. destruct (existsb _ g); reflexivity.
  - exfalso. apply Hn. unfold valid, c_min, box_width, box_height in *. lia.
Qed.

Lemma siter_set_ok cells g :
  all_valid cells -> grid_inv g -> no_clash (g ++ cells) ->
  exists g', siter (fun c => grid_setitem (PCoord (c_min c)) c) cells g = (g', Ok tt) /\
             grid_inv g' /\ Permutation g' (g ++ cells).
Proof.
  revert g. induction cells as [|c cells IH]; intros g HV HI HC.
  - exists g. rewrite app_nil_r. repeat split; try apply HI. reflexivity.
  - inversion HV; subst. cbn [siter]. unfold sbind.
    rewrite all_valid_move by assumption.
    assert (Hn : forall d, In d g -> ~ clash (c_box d) (c_box c)).
    { intros d Hd. unfold no_clash in HC. apply FOP_app in HC as (_ & _ & HC). apply HC; cbn; auto. }
    replace (existsb (fun d => box_intersect (c_box d) (c_box c)) g) with false.
    2:{ symmetry. destruct (existsb _ g) eqn:E; [|reflexivity].
        apply existsb_clash in E as (d & Hd & Hc). exfalso. eapply Hn; eassumption. }
    destruct (grid_insert_sorted_inv c g HI) as (g1 & -> & HI1 & HP1); [assumption..|].
    destruct (IH g1) as (g' & E' & HI' & HP'); [assumption..| |].
    + unfold no_clash. eapply FOP_perm; [intros ? ? H H'; apply H, clash_sym, H'| |exact HC].
      rewrite HP1. cbn. symmetry. apply Permutation_middle.
    + exists g'. split; [exact E'|]. split; [exact HI'|].
      rewrite HP', HP1. cbn. apply Permutation_middle.
Qed.

Lemma siter_set_err cells g :
  all_valid cells -> grid_inv g -> ~ no_clash (g ++ cells) ->
  exists g', siter (fun c => grid_setitem (PCoord (c_min c)) c) cells g = (g', Err EKeyError).
Proof.
  revert g. induction cells as [|c cells IH]; intros g HV HI HC.
  - exfalso. apply HC. rewrite app_nil_r. apply HI.
  - inversion HV; subst. cbn [siter]. unfold sbind.
    rewrite all_valid_move by assumption.
    destruct (existsb (fun d => box_intersect (c_box d) (c_box c)) g) eqn:E; [eauto|].
    assert (Hn : forall d, In d g -> ~ clash (c_box d) (c_box c)).
    { intros d Hd Hc. assert (existsb (fun d => box_intersect (c_box d) (c_box c)) g = true)
        by (apply existsb_clash; eauto). congruence. }
    destruct (grid_insert_sorted_inv c g HI) as (g1 & -> & HI1 & HP1); [assumption..|].
    apply IH; auto. intros HC'. apply HC. unfold no_clash.
    eapply FOP_perm; [intros ? ? H H'; apply H, clash_sym, H'| |exact HC'].
    rewrite HP1. cbn. apply Permutation_middle.
Qed.

Lemma no_clash_dec g : no_clash g \/ ~ no_clash g.
Proof.
  induction g as [|c g [IH|IH]].
  - left; constructor.
  - assert (D : Forall (fun d => ~ clash (c_box c) (c_box d)) g \/
                ~ Forall (fun d => ~ clash (c_box c) (c_box d)) g).
    { clear IH. induction g as [|d g [IH|IH]].
      - left; constructor.
      - destruct (clash_dec (c_box c) (c_box d)).
        + right. intros H'. inversion H'; subst. auto.
        + left. constructor; assumption.
      - right. intros H'. inversion H'; subst. auto. }
    destruct D as [D|D]; [left; constructor; assumption | right].
    intros H. inversion H; subst. contradiction.
  - right. intros H. inversion H; subst. contradiction.
Qed.

Lemma grid_new_spec cells :
  all_valid cells ->
  (no_clash cells /\ exists g, grid_new cells = Ok g /\ in_order g /\ Permutation g cells) \/
  (~ no_clash cells /\ grid_new cells = Err EKeyError).
Proof.
  intros HV. unfold grid_new. destruct (no_clash_dec cells) as [HC|HC].
  - left. split; [exact HC|].
    destruct (siter_set_ok cells [] HV grid_inv_nil HC) as (g & -> & HI & HP).
    exists g. split; [reflexivity|]. split; [apply HI | exact HP].
  - right. split; [exact HC|].
    destruct (siter_set_err cells [] HV grid_inv_nil HC) as (g & ->). reflexivity.
Qed.

Lemma grid_new_perm cells cells' :
  all_valid cells -> Permutation cells cells' -> grid_new cells = grid_new cells'.
Proof.
  intros HV HP.
  assert (HV' : all_valid cells') by (eapply Permutation_Forall; eassumption).
  assert (Hsym : forall a b : cell, ~ clash (c_box a) (c_box b) -> ~ clash (c_box b) (c_box a))
    by (intros ? ? H H'; apply H, clash_sym, H').
  destruct (grid_new_spec cells HV) as [(HC & g & -> & HO & HP1)|(HC & ->)];
    destruct (grid_new_spec cells' HV') as [(HC' & g' & -> & HO' & HP2)|(HC' & ->)].
  - f_equal. apply in_order_unique_perm; auto. rewrite HP1, HP2. exact HP.
  - exfalso. apply HC'. eapply FOP_perm; eauto.
  - exfalso. apply HC. eapply FOP_perm; [exact Hsym|apply Permutation_sym, HP|exact HC'].
  - reflexivity.
Qed.

Lemma grid_new_self g : grid_inv g -> grid_new g = Ok g.
Proof.
  intros (HV & HO & HC). destruct (grid_new_spec g HV) as [(_ & g' & -> & HO' & HP)|(HC' & _)].
  - f_equal. apply in_order_unique_perm; auto.
  - contradiction.
Qed.

(** ** Bounding box *)

Lemma bounding_box_spec g :
  all_valid g ->
  (g = [] /\ grid_bounding_box g = Ok None) \/
  (g <> [] /\ exists bb, grid_bounding_box g = Ok (Some bb) /\ valid bb /\
     forall v, valid v -> (subarea bb v <-> forall c, In c g -> subarea (c_box c) v)).
Proof.
  intros HV. unfold grid_bounding_box. destruct g as [|c g]; [left; auto|]. right.
  split; [discriminate|]. cbn [map].
  destruct (box_union_eq (c_box c) (map c_box g)) as (u & E & V & H).
  { unfold all_valid in HV. change (Forall valid (map c_box (c :: g))). rewrite Forall_map. exact HV. }
  exists u. rewrite E. split; [reflexivity|]. split; [exact V|].
  intros v Vv. rewrite (H v Vv). change (c_box c :: map c_box g) with (map c_box (c :: g)).
  rewrite Forall_map, Forall_forall. reflexivity.
Qed.

(** ** merge: content, styles *)

Lemma filter_selects {A} (P : A -> Prop) f (l : list A) :
  (forall a, In a l -> (f a = true <-> P a)) -> selects P l (filter f l).
Proof.
  induction l as [|a l IH]; intros H; cbn; [constructor|].
  pose proof (H a (or_introl eq_refl)) as Ha.
  assert (IH' : selects P l (filter f l)) by (apply IH; intros; apply H; cbn; auto).
  destruct (f a).
  - apply sel_in; [apply Ha; reflexivity | exact IH'].
  - apply sel_out; [intros Hp; apply Ha in Hp; discriminate | exact IH'].
Qed.

Lemma selects_fun {A} (P : A -> Prop) l m m' : selects P l m -> selects P l m' -> m = m'.
Proof.
  intros H. revert m'. induction H; intros m' H'; inversion H'; subst; try contradiction; auto.
  f_equal; auto.
Qed.

Lemma selects_In {A} (P : A -> Prop) l m a : selects P l m -> (In a m <-> In a l /\ P a).
Proof.
  induction 1; cbn; [tauto|..].
  - rewrite IHselects. split; [intros [<-|[? ?]]; auto | intros [[<-|?] ?]; auto].
  - rewrite IHselects. split; [intros [? ?]; auto | intros [[<-|?] ?]; [contradiction|auto]].
Qed.

Lemma dget_dset_same {V} (d : dict V) k v : dget (dset d k v) k = Some v.
Proof.
  induction d as [|[k' v'] d IH]; cbn; [rewrite String.eqb_refl; reflexivity|].
  destruct (String.eqb k k') eqn:E; cbn; rewrite E; auto.
Qed.

Lemma dget_dset_other {V} (d : dict V) k k' v : k <> k' -> dget (dset d k v) k' = dget d k'.
Proof.
  intros Hn. induction d as [|[k1 v1] d IH]; cbn.
  - destruct (String.eqb_spec k' k); [congruence|reflexivity].
  - destruct (String.eqb_spec k k1) as [->|Hk]; cbn.
    + destruct (String.eqb_spec k' k1); [congruence|reflexivity].
    + destruct (String.eqb k' k1); [reflexivity|exact IH].
Qed.

Definition or_opt {A} (a b : option A) : option A := match a with Some _ => a | None => b end.

Lemma dget_dupdate {V} (d e : dict V) k :
  dict_ok e -> dget (dupdate d e) k = or_opt (dget e k) (dget d k).
Proof.
  unfold dupdate, dict_ok. revert d. induction e as [|[k1 v1] e IH]; intros d Hn; cbn; [reflexivity|].
  inversion Hn; subst. rewrite IH by assumption.
  destruct (String.eqb_spec k k1) as [->|Hk].
  - replace (dget e k1) with (@None V).
    + cbn. apply dget_dset_same.
    + symmetry. clear - H1. induction e as [|[k2 v2] e IH]; cbn in *; [reflexivity|].
      destruct (String.eqb_spec k1 k2); [subst; tauto|]. apply IH. tauto.
  - destruct (dget e k); [reflexivity|]. cbn. apply dget_dset_other. congruence.
Qed.

Fixpoint last_some {A} (l : list (option A)) (d : option A) : option A :=
  match l with [] => d | a :: l' => last_some l' (or_opt a d) end.

Lemma merge_cells_styles app c cells r k :
  Forall (fun d => dict_ok (c_styles d)) cells ->
  merge_cells app c cells = Ok r ->
  dget (c_styles r) k = last_some (map (fun d => dget (c_styles d) k) cells) (dget (c_styles c) k).
Proof.
  intros HF. revert c. induction HF as [|d cells Hd HF IH]; intros c; cbn.
  - intros H; inversion H; reflexivity.
  - destruct (merge_content app (c_content c) (c_content d)) as [ct|]; cbn [rbind]; [|discriminate].
    intros H. apply IH in H. rewrite H. cbn [c_styles]. rewrite dget_dupdate by exact Hd. reflexivity.
Qed.

Lemma last_some_app {A} (l m : list (option A)) d : last_some (l ++ m) d = last_some m (last_some l d).
Proof. revert d. induction l as [|a l IH]; intros d; cbn; [reflexivity|apply IH]. Qed.

Lemma last_wins_last_some k ds : last_wins k ds (last_some (map (fun d => dget d k) ds) None).
Proof.
  induction ds as [|d ds IH] using rev_ind; cbn; [constructor|].
  rewrite map_app, last_some_app. cbn. destruct (dget d k) as [v|] eqn:E; cbn.
  - apply lw_here, E.
  - apply lw_before; [exact E | exact IH].
Qed.

Definition is_none (c : content) : bool := match c with CNone => true | _ => false end.

Lemma is_none_spec c : negb (is_none c) = true <-> c <> CNone.
Proof. destruct c; cbn; split; congruence. Qed.

Lemma content_add_never_none : never_none content_add.
Proof. intros a b c. destruct a, b; cbn; intros H; inversion H; discriminate. Qed.

Lemma merge_cells_content app c cells r :
  never_none app -> merge_cells app c cells = Ok r ->
  merged_content app (c_content c :: map c_content cells) (c_content r).
Proof.
  intros Hn. revert c. induction cells as [|d cells IH]; intros c; cbn [merge_cells map].
  - intros H; inversion H; subst. destruct (is_none (c_content r)) eqn:E.
    + destruct (c_content r) eqn:Er; try discriminate. apply mc_none.
      apply sel_out; [congruence | constructor].
    + eapply mc_some; [|constructor]. apply sel_in; [|constructor].
      apply is_none_spec. rewrite E. reflexivity.
  - destruct (merge_content app (c_content c) (c_content d)) as [ct|] eqn:Ec; cbn [rbind]; [|discriminate].
    intros H. apply IH in H. cbn [c_content] in H.
    destruct (is_none (c_content c)) eqn:E1.
    { assert (c_content c = CNone) as E1' by (destruct (c_content c); discriminate || reflexivity).
      rewrite E1' in *. cbn in Ec. inversion Ec; subst ct.
      inversion H as [l Hs|l a l' r' Hs Hc]; subst.
      - apply mc_none. apply sel_out; [congruence|exact Hs].
      - eapply mc_some; [apply sel_out; [congruence|exact Hs]|exact Hc]. }
    assert (N1 : c_content c <> CNone) by (apply is_none_spec; rewrite E1; reflexivity).
    destruct (is_none (c_content d)) eqn:E2.
    { assert (c_content d = CNone) as E2' by (destruct (c_content d); discriminate || reflexivity).
      rewrite E2' in *.
      assert (ct = c_content c) by (destruct (c_content c); cbn in Ec; congruence). subst ct.
      inversion H as [l Hs|l a l' r' Hs Hc]; subst.
      - inversion Hs; subst; [contradiction].
      - inversion Hs; subst; [|contradiction].
        eapply mc_some; [apply sel_in; [assumption|apply sel_out; [congruence|eassumption]]|exact Hc]. }
    assert (N2 : c_content d <> CNone) by (apply is_none_spec; rewrite E2; reflexivity).
    assert (Ea : app (c_content c) (c_content d) = Ok ct).
    { destruct (c_content c); try congruence; destruct (c_content d); try congruence; exact Ec. }
    pose proof (Hn _ _ _ Ea) as N3.
    inversion H as [l Hs|l a l' r' Hs Hc]; subst.
    + inversion Hs; subst; [contradiction].
    + inversion Hs; subst; [|contradiction].
      eapply mc_some; [apply sel_in; [assumption|apply sel_in; [assumption|eassumption]]|].
      eapply comb_more; eassumption.
Qed.

Definition mergeable_text (c : content) : Prop := forall z, c <> CNum z.

Lemma merge_cells_text c cells r :
  merge_cells content_add c cells = Ok r ->
  mergeable_text (c_content c) -> Forall (fun d => mergeable_text (c_content d)) cells ->
  get_content_text (c_content r) =
  str_concat (map cell_str (c :: cells)).
Proof.
  intros H Hc HF. revert c H Hc. induction HF as [|d cells Hd HF IH]; intros c H Hc; cbn [merge_cells] in H.
  - inversion H; subst. cbn [map]. rewrite str_concat_cons, str_concat_nil, append_nil_r. reflexivity.
  - destruct (merge_content content_add (c_content c) (c_content d)) as [ct|] eqn:Ec; cbn [rbind] in H; [|discriminate].
    assert (Ht : get_content_text ct = String.append (cell_str c) (cell_str d) /\ mergeable_text ct).
    { unfold cell_str, mergeable_text in *. destruct (c_content c) eqn:E1.
      - cbn in Ec. inversion Ec; subst. split; [reflexivity|exact Hd].
      - destruct (c_content d) eqn:E2; cbn [merge_content content_add] in Ec; try discriminate Ec.
        + inversion Ec; subst. split; [cbn [get_content_text]; rewrite append_nil_r; reflexivity | exact Hc].
        + inversion Ec; subst. split; [reflexivity | discriminate].
      - exfalso; eapply Hc; reflexivity.
      - destruct (c_content d) eqn:E2; cbn [merge_content content_add] in Ec; try discriminate Ec.
        + inversion Ec; subst. split; [cbn [get_content_text]; rewrite append_nil_r; reflexivity | exact Hc].
        + inversion Ec; subst. split; [apply content_text_list_app | discriminate].
      - destruct (c_content d) eqn:E2; cbn [merge_content content_add] in Ec; try discriminate Ec.
        inversion Ec; subst. split; [cbn [get_content_text]; rewrite append_nil_r; reflexivity | exact Hc].
      - destruct (c_content d) eqn:E2; cbn [merge_content content_add] in Ec; try discriminate Ec.
        inversion Ec; subst. split; [cbn [get_content_text]; rewrite append_nil_r; reflexivity | exact Hc]. }
    destruct Ht as [Ht Hm]. apply IH in H; [|exact Hm]. rewrite H.
    cbn [map]. rewrite !str_concat_cons. unfold cell_str at 1. cbn [c_content].
    rewrite Ht, append_assoc. reflexivity.
Qed.

(** ** iter_rows *)

Lemma group_by_y_concat g : List.concat (group_by_y g) = g.
Proof.
  induction g as [|c g IH]; cbn; [reflexivity|].
  destruct (group_by_y g) as [|[|d grp] groups] eqn:E; cbn in *.
  - rewrite <- IH. reflexivity.
  - rewrite <- IH. reflexivity.
  - destruct (cy (c_min c) =? cy (c_min d)); cbn; rewrite <- IH; reflexivity.
Qed.

Lemma group_by_y_nonempty g : Forall (fun grp => grp <> []) (group_by_y g).
Proof.
  induction g as [|c g IH]; cbn; [constructor|].
  destruct (group_by_y g) as [|[|d grp] groups] eqn:E.
  - repeat constructor; discriminate.
  - inversion IH; subst. congruence.
  - inversion IH; subst. destruct (cy (c_min c) =? cy (c_min d)); repeat constructor; auto; discriminate.
Qed.

Definition same_row (grp : list cell) : Prop :=
  exists y, Forall (fun c => cy (c_min c) = y) grp.

Lemma group_by_y_same_row g : Forall same_row (group_by_y g).
Proof.
  induction g as [|c g IH]; cbn; [constructor|].
  assert (H1 : same_row [c]) by (exists (cy (c_min c)); repeat constructor).
  destruct (group_by_y g) as [|[|d grp] groups] eqn:E.
  - constructor; [exact H1|constructor].
  - constructor; assumption.
  - inversion IH as [|? ? Hd Hg]; subst. destruct (Z.eqb_spec (cy (c_min c)) (cy (c_min d))).
    + constructor; [|assumption]. destruct Hd as [y Hy]. exists y. constructor; [|exact Hy].
      inversion Hy; subst. assumption.
    + constructor; assumption.
Qed.

(** row number of a group (0 for an empty group, which does not occur) *)
Definition group_row (grp : list cell) : Z := match grp with c :: _ => cy (c_min c) | [] => 0 end.

Lemma group_by_y_head c g : exists grp groups, group_by_y (c :: g) = (c :: grp) :: groups.
Proof.
  cbn. destruct (group_by_y g) as [|[|d grp] groups]; [eauto|eauto|].
  destruct (cy (c_min c) =? cy (c_min d)); eauto.
Qed.

Lemma group_by_y_increasing g :
  StronglySorted (fun a b => cy (c_min a) <= cy (c_min b)) g ->
  StronglySorted (fun a b => group_row a < group_row b) (group_by_y g).
Proof.
  induction 1 as [|c g Hs IH Hf]; [constructor|].
  cbn. pose proof (group_by_y_nonempty g) as Hne. pose proof (group_by_y_concat g) as Hc.
  destruct (group_by_y g) as [|[|d grp] groups] eqn:E.
  - repeat constructor.
  - inversion Hne; congruence.
  - inversion IH as [|? ? IH1 IH2]; subst.
    assert (Hle : cy (c_min c) <= cy (c_min d)).
    { rewrite Forall_forall in Hf. apply Hf. cbn. auto. }
    destruct (Z.eqb_spec (cy (c_min c)) (cy (c_min d))) as [Heq|Hn].
    + constructor; [assumption|]. eapply Forall_impl; [|exact IH2]. cbn. intros; lia.
    + constructor; [constructor; assumption|]. constructor; [cbn; lia|].
      eapply Forall_impl; [|exact IH2]. cbn. intros; lia.
Qed.
