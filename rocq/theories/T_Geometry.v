(** * Theorems about coordinates, sizes, boxes, cells (C01-C12) *)
From Verif Require Import Base M_Alphabet M_Geometry M_Xml M_Cell.
From Verif Require Import S_Alphabet S_Geometry S_Cell P_Geometry P_Alphabet P_Cell.

(** ** C01 arithmetic *)

Theorem C01_coord_add_is_translation : forall c v c',
    coord_add c v = Ok c' <-> exists dx dy, offset v dx dy /\ c' = Coord (cx c + dx) (cy c + dy).
Proof. exact coord_add_spec. Qed.

Theorem C01_coord_sub_is_translation : forall c v c',
    coord_sub c v = Ok c' <-> exists dx dy, offset v dx dy /\ c' = Coord (cx c - dx) (cy c - dy).
Proof. exact coord_sub_spec. Qed.

Theorem C01_coord_sub_undoes_add : forall c v c', coord_add c v = Ok c' <-> coord_sub c' v = Ok c.
Proof. exact coord_add_sub. Qed.

Theorem C01_coord_add_sizes : forall c s t c1,
    coord_add c (PSize s) = Ok c1 ->
    exists u, size_add s (PSize t) = Ok u /\ coord_add c1 (PSize t) = coord_add c (PSize u).
Proof. exact coord_add_add. Qed.

Theorem C01_coord_other_operand : forall c v,
    (forall l, v <> PTuple l) -> (forall dx dy, ~ offset v dx dy) ->
    coord_add c v = Err ETypeError /\ coord_sub c v = Err ETypeError.
Proof. intros c v H1 H2. split; [apply coord_add_type_error | apply coord_sub_type_error]; assumption. Qed.

Theorem C01_size_add_spec : forall s v s',
    size_add s v = Ok s' <-> exists dx dy, offset v dx dy /\ s' = Size (sw s + dx) (sh s + dy).
Proof. exact size_add_spec. Qed.

Theorem C01_size_sub_spec : forall s v s',
    size_sub s v = Ok s' <-> exists dx dy, offset v dx dy /\ s' = Size (sw s - dx) (sh s - dy).
Proof. exact size_sub_spec. Qed.

Theorem C01_size_other_operand : forall s v,
    (forall l, v <> PTuple l) -> (forall dx dy, ~ offset v dx dy) ->
    size_add s v = Err ETypeError /\ size_sub s v = Err ETypeError.
Proof. exact size_add_type_error. Qed.

Theorem C01_size_mul_spec : forall s v,
    (forall k, v = PInt k -> size_mul s v = Ok (Size (sw s * k) (sh s * k))) /\
    ((forall k, v <> PInt k) -> size_mul s v = Err ETypeError).
Proof.
  intros s v. rewrite size_mul_spec. split.
  - intros k ->; reflexivity.
  - intros H; destruct v; try reflexivity. exfalso; eapply H; reflexivity.
Qed.

Theorem C01_size_neg_spec : forall s,
    size_neg s = Size (- sw s) (- sh s) /\ size_neg (size_neg s) = s /\ size_pos s = s /\
    size_mul s (PInt (-1)) = Ok (size_neg s).
Proof.
  intros [w h]. unfold size_neg, size_pos. cbn. repeat split; f_equal; try f_equal; lia.
Qed.

(** A short tuple is not a documented operand: it raises IndexError, not TypeError. *)
Theorem C01_short_tuple_refuted : exists c v,
    (forall dx dy, ~ offset v dx dy) /\ coord_add c v = Err EIndexError.
Proof.
  exists (Coord 1 1), (PTuple [PInt 1]). split; [|reflexivity]. intros dx dy H. inversion H.
Qed.

Example C01_ex_tuple : coord_add (Coord 5 3) (PTuple [PInt 2; PBool true]) = Ok (Coord 7 4).
Proof. reflexivity. Qed.
Example C01_ex_other : coord_add (Coord 5 3) (PCoord (Coord 1 1)) = Err ETypeError.
Proof. reflexivity. Qed.

(** ** C02 box constructor *)

Theorem C02_box_forms : forall args x1 y1 x2 y2,
    box_form args x1 y1 x2 y2 ->
    (1 <= x1 <= x2 /\ 1 <= y1 <= y2 -> box_new args = Ok (MkBox (Coord x1 y1) (Coord x2 y2))) /\
    (~ (1 <= x1 <= x2 /\ 1 <= y1 <= y2) -> box_new args = Err EValueError).
Proof. exact box_new_form_ok. Qed.

Theorem C02_box_copy : forall b, box_new [PBox b] = Ok b.
Proof. reflexivity. Qed.

Theorem C02_box_other_forms : forall args,
    (forall x1 y1 x2 y2, ~ box_form args x1 y1 x2 y2) -> (forall b, args <> [PBox b]) ->
    box_new args = Err ETypeError.
Proof. exact box_new_type_error. Qed.

Theorem C02_box_always_valid : forall args b,
    box_new args = Ok b -> (forall b', args = [PBox b'] -> valid b') -> valid b.
Proof. exact box_new_valid. Qed.

Theorem C02_box_size_describes : forall b, valid b ->
    1 <= box_width b /\ 1 <= box_height b /\
    box_size b = Size (box_width b) (box_height b) /\
    box_new [PCoord (bmin b); PSize (box_size b)] = Ok b.
Proof.
  intros b V. assert (W : 1 <= box_width b /\ 1 <= box_height b) by (revert V; geo).
  split; [apply W|]. split; [apply W|]. split; [reflexivity|].
  destruct b as [[x1 y1] [x2 y2]].
  unfold box_size. cbn [bmin].
  rewrite (box_new_form _ _ _ _ _ (bf_coord_size x1 y1 _ _)).
  unfold valid, box_width, box_height in *; cbn in *.
  rewrite box_validate_ok by lia. do 2 f_equal; f_equal; lia.
Qed.

(** Every operation on boxes which gives a box gives a valid one. *)
Theorem C02_derived_boxes_valid : forall b,
    (forall c s b', box_transform b c s = Ok b' -> valid b') /\
    (forall bs b', box_union b bs = Ok b' -> valid b') /\
    (forall bs b', box_intersection b bs = Ok b' -> valid b').
Proof.
  intros b. split; [|split].
  - intros c s b'. apply box_transform_valid.
  - intros bs b' H. unfold box_union in H.
    destruct (box_new _) as [u|] eqn:E; cbn [rbind] in H; [|discriminate].
    destruct (forallb _ _); [|discriminate]. inversion H; subst.
    eapply box_new_valid; [exact E|]. intros b2 E2; discriminate E2.
  - intros bs b' H. eapply box_new_valid; [exact H|]. intros b2 E2; discriminate E2.
Qed.

Example C02_ex : box_new [PCoord (Coord 5 6); PSize (Size 3 2)] = Ok (MkBox (Coord 5 6) (Coord 7 7)).
Proof. reflexivity. Qed.
Example C02_ex_invalid : box_new [PInt 3; PInt 1; PInt 2; PInt 1] = Err EValueError.
Proof. reflexivity. Qed.
Example C02_ex_other : box_new [PInt 3; PInt 1; PInt 2] = Err ETypeError.
Proof. reflexivity. Qed.

(** ** C03 membership *)

Theorem C03_coord_membership : forall b v c,
    denotes_coord v c ->
    exists r, box_contains b v = Ok r /\ (r = true <-> covers b c).
Proof.
  intros b v c H. exists (box_has b c). split; [|apply box_has_covers].
  apply (box_contains_spec b v); exact H.
Qed.

Theorem C03_box_membership : forall b b2, valid b2 ->
    exists r, box_contains b (PBox b2) = Ok r /\ (r = true <-> forall c, covers b2 c -> covers b c).
Proof.
  intros b b2 V. exists (box_has_box b b2). split; [reflexivity|]. apply box_has_box_subarea; exact V.
Qed.

Theorem C03_other_membership : forall b v,
    (forall c, ~ denotes_coord v c) -> (forall b2, v <> PBox b2) ->
    box_contains b v = Err ETypeError.
Proof. intros b v. apply (box_contains_spec b v). Qed.

Theorem C03_number_of_coords : forall b, valid b ->
    (exists l, lists_area l b) /\
    forall l, lists_area l b -> Z.of_nat (List.length l) = box_width b * box_height b.
Proof.
  intros b V. split.
  - exists (area_coords b). split; [apply NoDup_area_coords | apply area_coords_in].
  - intros l. apply lists_area_length; exact V.
Qed.

Example C03_ex : let b := MkBox (Coord 2 2) (Coord 4 3) in
  valid b /\ box_contains b (PTuple [PInt 4; PInt 2]) = Ok true /\
  box_contains b (PTuple [PInt 5; PInt 2]) = Ok false /\ box_width b * box_height b = 6.
Proof. cbn. unfold valid; cbn. repeat split; lia. Qed.

(** ** C04 union *)

Theorem C04_union_least : forall b bs, Forall valid (b :: bs) ->
    exists u, box_union b bs = Ok u /\ valid u /\
              Forall (fun a => subarea a u) (b :: bs) /\
              (forall v, valid v -> Forall (fun a => subarea a v) (b :: bs) -> subarea u v).
Proof.
  intros b bs H. destruct (box_union_eq b bs H) as (u & E & V & Hu). exists u.
  split; [exact E|]. split; [exact V|]. split.
  - apply Hu; [exact V | apply subarea_refl].
  - intros v Vv. apply Hu; exact Vv.
Qed.

Theorem C04_union_depends_on_set : forall b bs b' bs',
    Forall valid (b :: bs) -> (forall a, In a (b :: bs) <-> In a (b' :: bs')) ->
    box_union b bs = box_union b' bs'.
Proof. exact box_union_same_set. Qed.

Example C04_ex :
  box_union (MkBox (Coord 1 2) (Coord 2 2)) [MkBox (Coord 4 1) (Coord 4 1)]
  = Ok (MkBox (Coord 1 1) (Coord 4 2)).
Proof. reflexivity. Qed.

(** ** C05 intersection *)

Theorem C05_intersection_exact : forall b bs, Forall valid (b :: bs) ->
    (forall i, box_intersection b bs = Ok i ->
               valid i /\ forall c, covers i c <-> Forall (fun a => covers a c) (b :: bs)) /\
    (forall e, box_intersection b bs = Err e ->
               e = EValueError /\ ~ exists c, Forall (fun a => covers a c) (b :: bs)).
Proof. exact box_intersection_eq. Qed.

Example C05_ex_common :
  box_intersection (MkBox (Coord 1 2) (Coord 2 3)) [MkBox (Coord 2 1) (Coord 3 2)]
  = Ok (MkBox (Coord 2 2) (Coord 2 2)).
Proof. reflexivity. Qed.
Example C05_ex_empty :
  box_intersection (MkBox (Coord 1 1) (Coord 1 1)) [MkBox (Coord 2 1) (Coord 3 2)] = Err EValueError.
Proof. reflexivity. Qed.

(** ** C06 intersect *)

(** Full statement: [forall a b, valid a -> valid b -> (box_intersect a b = true <-> overlap a b)];
    it is false (next theorem): two crossing or diagonally shifted boxes are reported disjoint. *)
Theorem C06_intersect_misses_overlap_refuted : exists a b,
    valid a /\ valid b /\ overlap a b /\ box_intersect a b = false /\ box_isdisjoint a b = true.
Proof.
  exists (MkBox (Coord 1 2) (Coord 2 3)), (MkBox (Coord 2 1) (Coord 3 2)).
  unfold valid, overlap; cbn. repeat split; try lia.
  exists (Coord 2 2). unfold covers; cbn. lia.
Qed.

(** What holds: a reported intersection is real; symmetry; negation; the overlaps which are missed
    are exactly the pairs whose top-left corners AND bottom-right corners are both in
    anti-diagonal position. *)
Theorem C06_intersect_partial : forall a b, valid a -> valid b ->
    (box_intersect a b = true -> overlap a b) /\
    box_intersect a b = box_intersect b a /\
    box_isdisjoint a b = negb (box_intersect a b) /\
    (overlap a b ->
     (box_intersect a b = false <->
      ((cx (bmin a) < cx (bmin b) /\ cy (bmin b) < cy (bmin a)) \/
       (cx (bmin b) < cx (bmin a) /\ cy (bmin a) < cy (bmin b))) /\
      ((cx (bmax a) < cx (bmax b) /\ cy (bmax b) < cy (bmax a)) \/
       (cx (bmax b) < cx (bmax a) /\ cy (bmax a) < cy (bmax b))))).
Proof.
  intros a b Va Vb. split; [apply box_intersect_sound; assumption|].
  split; [apply box_intersect_sym|]. split; [reflexivity|]. apply box_intersect_missed; assumption.
Qed.

(** In particular it is exact when the first box is a single coordinate or both boxes start on the
    same row or on the same column. *)
Theorem C06_intersect_exact_for_single : forall a b, valid a -> valid b ->
    (bmin a = bmax a \/ cy (bmin a) = cy (bmin b) \/ cx (bmin a) = cx (bmin b)) ->
    (box_intersect a b = true <-> overlap a b).
Proof.
  intros a b Va Vb H. split; [apply box_intersect_sound; assumption|].
  intros Ho. destruct H as [H|[H|H]].
  - apply box_intersect_complete_unit; assumption.
  - apply box_intersect_complete_same_rows; assumption.
  - apply box_intersect_complete_same_cols; assumption.
Qed.

(** ** C07 move and resize *)

Theorem C07_move_to : forall b v c, valid b -> denotes_coord v c ->
    (1 <= cx c /\ 1 <= cy c ->
     exists b', box_move_to b v = Ok b' /\ bmin b' = c /\
                box_width b' = box_width b /\ box_height b' = box_height b /\ valid b') /\
    (~ (1 <= cx c /\ 1 <= cy c) -> box_move_to b v = Err EValueError).
Proof.
  intros b v c V H. split.
  - intros [? ?]. apply box_move_to_ok; assumption.
  - apply box_move_to_value_error; assumption.
Qed.

Theorem C07_resize : forall b v s, valid b -> denotes_size v s ->
    (1 <= sw s /\ 1 <= sh s ->
     exists b', box_resize b v = Ok b' /\ bmin b' = bmin b /\
                box_width b' = sw s /\ box_height b' = sh s /\ valid b') /\
    (~ (1 <= sw s /\ 1 <= sh s) -> box_resize b v = Err EValueError).
Proof.
  intros b v c V H. split.
  - intros [? ?]. apply box_resize_ok; assumption.
  - apply box_resize_value_error; assumption.
Qed.

Theorem C07_type_errors : forall b v, v <> PNone ->
    ((forall c, ~ denotes_coord v c) -> box_move_to b v = Err ETypeError) /\
    ((forall s, ~ denotes_size v s) -> box_resize b v = Err ETypeError).
Proof.
  intros b v H. split; [apply box_move_to_type_error | apply box_resize_type_error]; exact H.
Qed.

Theorem C07_move_back : forall b v b',
    valid b -> v <> PNone -> box_move_to b v = Ok b' -> box_move_to b' (PCoord (bmin b)) = Ok b.
Proof. exact box_move_back. Qed.

Theorem C07_cell_like_box : forall c v,
    (forall b, box_move_to (c_box c) v = Ok b ->
               cell_move_to c v = Ok (MkCell (c_content c) (c_styles c) (c_nature c) b)) /\
    (forall e, box_move_to (c_box c) v = Err e -> cell_move_to c v = Err e) /\
    (forall b, box_resize (c_box c) v = Ok b ->
               cell_resize c v = Ok (MkCell (c_content c) (c_styles c) (c_nature c) b)) /\
    (forall e, box_resize (c_box c) v = Err e -> cell_resize c v = Err e).
Proof.
  intros c v. rewrite cell_move_to_eq, cell_resize_eq.
  repeat split; intros ? H; rewrite H; reflexivity.
Qed.

Example C07_ex :
  box_move_to (MkBox (Coord 2 3) (Coord 4 3)) (PTuple [PInt 7; PInt 1])
  = Ok (MkBox (Coord 7 1) (Coord 9 1)) /\
  box_resize (MkBox (Coord 2 3) (Coord 4 3)) (PSize (Size 1 2)) = Ok (MkBox (Coord 2 3) (Coord 2 4)).
Proof. split; reflexivity. Qed.

(** ** C08 order of boxes *)

(** [<] is a strict total order, row-major. *)
Theorem C08_lt_total_order_partial : forall a b c,
    (box_lt a b = true <-> row_major a b) /\
    box_lt a a = false /\
    (box_lt a b = true -> box_lt b c = true -> box_lt a c = true) /\
    (box_lt a b = true \/ a = b \/ box_lt b a = true) /\
    (box_eqb a b = true <-> a = b).
Proof.
  intros a b c. rewrite !box_lt_row_major. split; [reflexivity|]. split; [|split; [|split]].
  - destruct (box_lt a a) eqn:E; [|reflexivity].
    apply box_lt_row_major, row_major_irrefl in E. contradiction.
  - apply row_major_trans.
  - apply row_major_total.
  - apply box_eqb_eq.
Qed.

(** The other operators come from [tuple] and order by columns: not consistent with [<]. *)
Theorem C08_operators_inconsistent_refuted : exists a b lt le gt ge,
    valid a /\ valid b /\
    op_lt box_ops = Some lt /\ op_le box_ops = Some le /\
    op_gt box_ops = Some gt /\ op_ge box_ops = Some ge /\
    lt a b = true /\ gt a b = true /\ le a b = false /\
    lt b a = false /\ gt b a = false /\ box_eqb b a = false.
Proof.
  exists (MkBox (Coord 2 1) (Coord 2 1)), (MkBox (Coord 1 2) (Coord 1 2)).
  do 4 eexists. repeat split; cbn; try reflexivity; lia.
Qed.

(** ** C09 order of cells *)

Theorem C09_cell_lt_is_box_order_partial : forall a b : cellref,
    (cell_lt a b = true <-> row_major (c_box (cr_cell a)) (c_box (cr_cell b))) /\
    (forall x, cell_lt_box a x = true <-> row_major (c_box (cr_cell a)) x) /\
    (cell_lt a b = true \/ c_box (cr_cell a) = c_box (cr_cell b) \/ cell_lt b a = true).
Proof.
  intros a b. unfold cell_lt, cell_lt_box. split; [apply box_lt_row_major|].
  split; [intros; apply box_lt_row_major|]. rewrite !box_lt_row_major. apply row_major_total.
Qed.

(** The derived operators: for cells with different boxes they follow the order. *)
Theorem C09_cell_ops_distinct_boxes : forall a b lt le gt ge,
    op_lt cell_ops = Some lt -> op_le cell_ops = Some le ->
    op_gt cell_ops = Some gt -> op_ge cell_ops = Some ge ->
    c_box (cr_cell a) <> c_box (cr_cell b) -> cr_id a <> cr_id b ->
    (lt a b = true <-> row_major (c_box (cr_cell a)) (c_box (cr_cell b))) /\
    (gt a b = true <-> row_major (c_box (cr_cell b)) (c_box (cr_cell a))) /\
    le a b = lt a b /\ ge a b = gt a b.
Proof.
  intros a b lt le gt ge H1 H2 H3 H4 Hb Hi.
  cbn in H1, H2, H3, H4. inversion H1; inversion H2; inversion H3; inversion H4; subst.
  assert (E : (cr_id a =? cr_id b) = false) by lia. rewrite E.
  rewrite orb_false_r, andb_true_r. split; [apply box_lt_row_major|]. split; [|split; reflexivity].
  unfold cell_lt. destruct (row_major_total (c_box (cr_cell a)) (c_box (cr_cell b))) as [H|[H|H]].
  - rewrite (proj2 (box_lt_row_major _ _) H). cbn. split; [discriminate|].
    intros H'. exfalso. apply (row_major_irrefl (c_box (cr_cell a))).
    eapply row_major_trans; eassumption.
  - contradiction.
  - split; [intros _; exact H|]. intros _.
    destruct (box_lt _ _) eqn:El; [|reflexivity]. exfalso.
    apply box_lt_row_major in El. apply (row_major_irrefl (c_box (cr_cell a))).
    eapply row_major_trans; eassumption.
Qed.

(** Two different cells with the same box are each greater than the other. *)
Theorem C09_equal_boxes_refuted : exists a b gt le,
    op_gt cell_ops = Some gt /\ op_le cell_ops = Some le /\
    gt a b = true /\ gt b a = true /\ le a b = false /\ le b a = false.
Proof.
  set (c := MkCell CNone [] None (MkBox (Coord 1 1) (Coord 1 1))).
  exists {| cr_id := 1; cr_cell := c |}, {| cr_id := 2; cr_cell := c |}.
  do 2 eexists. repeat split; reflexivity.
Qed.

Example C09_ex_hypotheses :
  let a := {| cr_id := 1; cr_cell := MkCell CNone [] None (MkBox (Coord 3 1) (Coord 3 1)) |} in
  let b := {| cr_id := 2; cr_cell := MkCell CNone [] None (MkBox (Coord 1 2) (Coord 1 2)) |} in
  c_box (cr_cell a) <> c_box (cr_cell b) /\ cr_id a <> cr_id b /\ cell_lt a b = true.
Proof. cbn. repeat split; discriminate. Qed.

(** ** C10 alphabetic numbering *)

Theorem C10_decode_encode : forall al v, al <> [] -> NoDup al -> 0 <= v ->
    exists w, int_to_alphabet v al = Ok w /\ alphabet_to_int w al = Ok v.
Proof. exact i2a_total. Qed.

Theorem C10_encode_decode : forall al w, al <> [] -> NoDup al -> word_over al w ->
    exists v, alphabet_to_int w al = Ok v /\ 0 <= v /\ int_to_alphabet v al = Ok w.
Proof. exact i2a_a2i. Qed.

Theorem C10_errors : forall al,
    (forall v, v < 0 -> int_to_alphabet v al = Err EValueError) /\
    (forall w, ~ word_over al w -> alphabet_to_int w al = Err EValueError).
Proof. intros al. split; [intros; apply i2a_negative; assumption | apply a2i_error]. Qed.

Theorem C10_increasing : forall al v1 v2 w1 w2, al <> [] -> NoDup al ->
    int_to_alphabet v1 al = Ok w1 -> int_to_alphabet v2 al = Ok w2 ->
    (v1 < v2 <-> shortlex al w1 w2).
Proof. exact i2a_order. Qed.

Example C10_ex : ascii_uppercase <> [] /\ NoDup ascii_uppercase /\
  int_to_alphabet 703 ascii_uppercase = Ok (list_ascii_of_string "AAA") /\
  alphabet_to_int (list_ascii_of_string "ZZ") ascii_uppercase = Ok 702.
Proof. split; [discriminate|]. split; [apply ascii_uppercase_nodup|]. split; vm_compute; reflexivity. Qed.

(** ** C11 notation *)

Theorem C11_coord_str_injective : forall c d s, 0 <= cx c -> 0 <= cx d ->
    coord_str c = Ok s -> coord_str d = Ok s -> c = d.
Proof. exact coord_str_inj. Qed.

Theorem C11_box_str_total : forall b, valid b -> exists s, box_str b = Ok s.
Proof. exact box_str_ok. Qed.

Theorem C11_box_str_injective : forall a b s, valid a -> valid b ->
    box_str a = Ok s -> box_str b = Ok s -> a = b.
Proof. exact box_str_inj. Qed.

Example C11_ex : box_str (MkBox (Coord 1 1) (Coord 28 3)) = Ok "A1:AB3"%string /\
  box_str (MkBox (Coord 2 3) (Coord 2 3)) = Ok "B3"%string.
Proof. split; reflexivity. Qed.

(** ** C12 text of a cell *)

Theorem C12_cell_text : forall c, cell_str c = str_concat (map leaf_text (leaves (c_content c))).
Proof. intros c. apply content_text_leaves. Qed.

Theorem C12_node_text : forall n, get_content_text (CNode n) = char_data (tokens n).
Proof. exact node_text_tokens. Qed.

Theorem C12_none_text : forall st na b, cell_str (MkCell CNone st na b) = EmptyString.
Proof. reflexivity. Qed.

Theorem C12_list_text : forall l m,
    get_content_text (CList (l ++ m)) =
    String.append (get_content_text (CList l)) (get_content_text (CList m)).
Proof. exact content_text_list_app. Qed.

Theorem C12_add_text : forall a b c, content_add a b = Ok c -> (forall z, a <> CNum z) ->
    get_content_text c = String.append (get_content_text a) (get_content_text b).
Proof. exact content_add_text. Qed.

Example C12_ex :
  cell_str (MkCell (CList [CText "a"; CNone;
                           CNode (XElem "p" [] (Some "b"%string) [XComment "zz" (Some "c"%string);
                                                         XElem "i" [] (Some "d"%string) [] (Some "e"%string)]
                                        (Some "f"%string)); CNum 12]) [] None
                   (MkBox (Coord 1 1) (Coord 1 1))) = "abcdef12"%string.
Proof. reflexivity. Qed.

Print Assumptions C01_coord_add_is_translation.
Print Assumptions C01_coord_sub_is_translation.
Print Assumptions C01_coord_sub_undoes_add.
Print Assumptions C01_coord_add_sizes.
Print Assumptions C01_coord_other_operand.
Print Assumptions C01_size_add_spec.
Print Assumptions C01_size_sub_spec.
Print Assumptions C01_size_other_operand.
Print Assumptions C01_size_mul_spec.
Print Assumptions C01_size_neg_spec.
Print Assumptions C01_short_tuple_refuted.
Print Assumptions C02_box_forms.
Print Assumptions C02_box_copy.
Print Assumptions C02_box_other_forms.
Print Assumptions C02_box_always_valid.
Print Assumptions C02_box_size_describes.
Print Assumptions C02_derived_boxes_valid.
Print Assumptions C03_coord_membership.
Print Assumptions C03_box_membership.
Print Assumptions C03_other_membership.
Print Assumptions C03_number_of_coords.
Print Assumptions C04_union_least.
Print Assumptions C04_union_depends_on_set.
Print Assumptions C05_intersection_exact.
Print Assumptions C06_intersect_misses_overlap_refuted.
Print Assumptions C06_intersect_partial.
Print Assumptions C06_intersect_exact_for_single.
Print Assumptions C07_move_to.
Print Assumptions C07_resize.
Print Assumptions C07_type_errors.
Print Assumptions C07_move_back.
Print Assumptions C07_cell_like_box.
Print Assumptions C08_lt_total_order_partial.
Print Assumptions C08_operators_inconsistent_refuted.
Print Assumptions C09_cell_lt_is_box_order_partial.
Print Assumptions C09_cell_ops_distinct_boxes.
Print Assumptions C09_equal_boxes_refuted.
Print Assumptions C10_decode_encode.
Print Assumptions C10_encode_decode.
Print Assumptions C10_errors.
Print Assumptions C10_increasing.
Print Assumptions C11_coord_str_injective.
Print Assumptions C11_box_str_total.
Print Assumptions C11_box_str_injective.
Print Assumptions C12_cell_text.
Print Assumptions C12_node_text.
Print Assumptions C12_none_text.
Print Assumptions C12_list_text.
Print Assumptions C12_add_text.
