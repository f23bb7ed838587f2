(** * Facts about the CALS builder *)
From Verif Require Import Base M_Geometry M_Xml M_Cell M_Grid M_Table M_Regex M_Str M_Units M_Builder M_Cals.
From Verif Require Import S_Geometry S_Grid S_Table S_Units S_Builder S_Cals.
From Verif Require Import P_Geometry P_Cell P_Grid P_GridFacts P_Table P_TableStep P_TableFacts P_TableMore P_Units P_Builder P_Str.

(** ** Borders *)

Lemma line_word_spec w : border_word w = true <-> line_word w.
Proof.
  unfold border_word, line_word. rewrite !andb_true_iff, !negb_true_iff.
  rewrite <- !not_true_iff_false, ends_with_spec, starts_with_spec, String.eqb_eq.
  firstorder.
Qed.
Lemma line_word_dec w : border_word w = false <-> ~ line_word w.
Proof. rewrite <- line_word_spec. destruct (border_word w); intuition congruence. Qed.

Lemma border_spec st style :
  match get_border_style st style with
  | Ok (Some w) => line_of st style w /\ forall w', line_of st style w' -> w' = w
  | Ok None => forall w, ~ line_of st style w
  | Err e => e = EAttributeError /\ ~ text_or_absent st style
  end.
Proof.
  unfold get_border_style, text_or_absent, line_of. destruct (dget st style) as [[s|[|]|a b|]|] eqn:E.
  - destruct s as [|c s].
    + intros w (s & a & b & [= <-] & H & _). congruence.
    + assert (HS : forall w, (exists a b, split_on " " (String c s) = a ++ w :: b /\ border_word w = true /\ forall x, In x b -> border_word x = false) <->
                 (exists s0 a b, Some (SStr (String c s)) = Some (SStr s0) /\ s0 <> ""%string /\ words s0 (a ++ w :: b) /\ line_word w /\ forall x, In x b -> ~ line_word x)).
      { intros w. split.
        - intros (a & b & Es & Hw & Hb). exists (String c s), a, b. split; [reflexivity|]. split; [discriminate|].
          rewrite <- Es. split; [apply split_on_words|]. split; [apply line_word_spec, Hw|].
          intros x Hx. apply line_word_dec, Hb, Hx.
        - intros (s0 & a & b & [= <-] & _ & Hw & Hl & Hb). apply words_split in Hw. exists a, b.
          split; [congruence|]. split; [apply line_word_spec, Hl|]. intros x Hx. apply line_word_dec, Hb, Hx. }
      rewrite fold_last. destruct (find border_word (rev (split_on " " (String c s)))) as [w|] eqn:Ef.
      * split; [apply HS, find_last, Ef|]. intros w' H. apply HS, find_last in H. congruence.
      * intros w H. apply HS, find_last in H. congruence.
  - auto.
  - intros w (s & a & b & [=] & _).
  - auto.
  - intros w (s & a & b & [=] & _).
  - intros w (s & a & b & [=] & _).
Qed.

Lemma has_border_spec st s :
  match has_border st (side_style s) with
  | Ok b => b = true <-> drawn st s
  | Err e => e = EAttributeError /\ ~ text_or_absent st (side_style s)
  end.
Proof.
  unfold has_border, drawn. pose proof (border_spec st (side_style s)) as H.
  destruct (get_border_style st (side_style s)) as [[w|]|e]; cbn [rbind]; [| |exact H].
  - destruct H as [H HU]. rewrite andb_true_iff, negb_true_iff. cbn [ostr]. split.
    + intros [H1 H2]. exists w. split; [exact H|]. split; [intros ->; discriminate|intros ->; discriminate].
    + intros (w' & Hw & N1 & N2). apply HU in Hw as ->. split; [destruct w; [congruence|reflexivity]|].
      apply String.eqb_neq. exact N1.
  - cbn. split; [discriminate|]. intros (w & Hw & _). destruct (H w Hw).
Qed.

Lemma frame_spec st :
  match get_frame_attr st with
  | Ok f => exists bt bb bl br, f = frame_name bt bb bl br /\
      (bt = true <-> drawn st TopSide) /\ (bb = true <-> drawn st BottomSide) /\
      (bl = true <-> drawn st LeftSide) /\ (br = true <-> drawn st RightSide)
  | Err e => e = EAttributeError /\ exists s, ~ text_or_absent st (side_style s)
  end.
Proof.
  unfold get_frame_attr.
  pose proof (has_border_spec st TopSide) as Ht. pose proof (has_border_spec st BottomSide) as Hb.
  pose proof (has_border_spec st LeftSide) as Hl. pose proof (has_border_spec st RightSide) as Hr.
  cbn [side_style] in *.
  destruct (has_border st "border-top") as [bt|]; cbn [rbind]; [|destruct Ht; split; [assumption|exists TopSide; assumption]].
  destruct (has_border st "border-right") as [br|]; cbn [rbind]; [|destruct Hr; split; [assumption|exists RightSide; assumption]].
  destruct (has_border st "border-bottom") as [bb|]; cbn [rbind]; [|destruct Hb; split; [assumption|exists BottomSide; assumption]].
  destruct (has_border st "border-left") as [bl|]; cbn [rbind]; [|destruct Hl; split; [assumption|exists LeftSide; assumption]].
  exists bt, bb, bl, br. auto.
Qed.

(** ** Attributes *)

Ltac bind_any H := match type of H with rbind ?m _ = _ => let E := fresh "E" in destruct m eqn:E; cbn [rbind] in H; [|discriminate H] end.

Tactic Notation "bind" hyp(H) "as" ident(a) ident(E) :=
  match type of H with rbind ?m _ = _ => destruct m as [a|] eqn:E; cbn [rbind] in H; [|discriminate H] end.

Definition shows_b (f : string) (s : side) : bool :=
  String.eqb f "all"%string ||
  match s with
  | TopSide => String.eqb f "top"%string || String.eqb f "topbot"%string
  | BottomSide => String.eqb f "bottom"%string || String.eqb f "topbot"%string
  | LeftSide | RightSide => String.eqb f "sides"%string
  end.
Lemma shows_b_spec f s : shows_b f s = true <-> frame_shows f s.
Proof. unfold shows_b, frame_shows. destruct s; rewrite !orb_true_iff, ?orb_true_iff, !String.eqb_eq; reflexivity. Qed.

Lemma rmap_Forall2 {A B} (f : A -> result B) l m : rmap f l = Ok m -> Forall2 (fun a b => f a = Ok b) l m.
Proof.
  revert m. induction l as [|a l IH]; intros m H; cbn [rmap] in H; [injection H as <-; constructor|].
  bind_any H. bind_any H. injection H as <-. constructor; auto.
Qed.
Lemma rmap_total {A B} (f : A -> result B) l : (forall a, In a l -> exists b, f a = Ok b) -> exists m, rmap f l = Ok m.
Proof.
  induction l as [|a l IH]; intros H; [exists []; reflexivity|]. cbn [rmap].
  destruct (H a (or_introl eq_refl)) as [b ->]. destruct IH as [m ->]; [intros; apply H; right; assumption|].
  exists (b :: m). reflexivity.
Qed.
Lemma Forall2_impl_l {A B} (P Q : A -> B -> Prop) l m : (forall a b, In a l -> P a b -> Q a b) -> Forall2 P l m -> Forall2 Q l m.
Proof. intros H F. induction F; constructor; [apply H; [left; reflexivity|assumption]|apply IHF; intros; apply H; [right|]; assumption]. Qed.

Definition as_text (v : option sval) : option string := match v with Some (SStr s) => Some s | _ => None end.

Lemma make_attrs_get a attrs k : make_attrs a = Ok attrs -> dget attrs k = as_text (dget a k).
Proof.
  revert attrs. induction a as [|[k' v] a IH]; intros attrs H; cbn [make_attrs] in H; [injection H as <-; reflexivity|].
  destruct v as [s| | |]; try discriminate. bind_any H. injection H as <-. cbn [dget].
  destruct (String.eqb k k'); [reflexivity|apply IH; reflexivity].
Qed.

Lemma dget_one {V} k (v : V) : dget [(k, v)] k = Some v.
Proof. cbn [dget]. rewrite String.eqb_refl. reflexivity. Qed.

Definition all_text (a : attrib) : Prop := forall k v, In (k, v) a -> exists s, v = SStr s.
Lemma make_attrs_total a : all_text a -> exists attrs, make_attrs a = Ok attrs.
Proof.
  induction a as [|[k v] a IH]; intros H; [exists []; reflexivity|]. destruct (H k v (or_introl eq_refl)) as [s ->].
  cbn [make_attrs]. destruct IH as [m ->]; [intros k' v' H'; apply (H k'); right; exact H'|]. exists ((k, s) :: m). reflexivity.
Qed.
Lemma all_text_nil : all_text [].
Proof. intros k v []. Qed.
Lemma all_text_dset a k s : all_text a -> all_text (dset a k (SStr s)).
Proof.
  intros H. induction a as [|[k' v'] a IH]; intros k0 v; cbn [dset].
  - intros [[= <- <-]|[]]. exists s. reflexivity.
  - destruct (String.eqb k k').
    + intros [[= <- <-]|Hi]; [exists s; reflexivity|]. apply (H k0). right. exact Hi.
    + intros [[= <- <-]|Hi]; [apply (H k'); left; reflexivity|]. apply (IH ltac:(intros k1 v1 H1; apply (H k1); right; exact H1) k0), Hi.
Qed.
Lemma all_text_copy st k n a : all_text a -> text_or_absent st k -> all_text (copy_style st k n a).
Proof.
  intros H Hs. unfold copy_style. unfold text_or_absent in Hs. destruct (dget st k) as [[s| | |]|]; try contradiction; [|exact H].
  apply all_text_dset, H.
Qed.

Section Attributes.
  Variable o : cals_opts.

  Lemma cals_neq a b : a <> b -> cals o a <> cals o b.
  Proof. intros H E. apply H. apply (qname_inj (co_ns o)). exact E. Qed.

  Lemma copy_style_get st k name n a : n <> name -> dget (copy_style st k (cals o name) a) (cals o n) = dget a (cals o n).
  Proof. intros H. unfold copy_style. destruct (dget st k); [|reflexivity]. apply dget_dset_other, cals_neq. congruence. Qed.
  Lemma dset_get name n v (a : attrib) : n <> name -> dget (dset a (cals o name) v) (cals o n) = dget a (cals o n).
  Proof. intros H. apply dget_dset_other, cals_neq. congruence. Qed.

  Lemma sep_attr_get st style name ts a a' n : sep_attr o st style name ts a = Ok a' -> n <> name ->
    dget a' (cals o n) = dget a (cals o n).
  Proof.
    unfold sep_attr. intros H Hn. bind_any H. injection H as <-. destruct a0 as [s|]; [|reflexivity].
    destruct (String.eqb s ts); [reflexivity|]. apply dset_get, Hn.
  Qed.
  Lemma width_attr_get st name a a' n : width_attr o st name a = Ok a' -> n <> name ->
    dget a' (cals o n) = dget a (cals o n).
  Proof.
    unfold width_attr. intros H Hn. destruct (dget st "width") as [[w| | |]|]; try discriminate; [|injection H as <-; reflexivity].
    bind_any H. bind_any H. injection H as <-. apply dset_get, Hn.
  Qed.
  Lemma nature_attr_get na name a n : n <> name -> dget (nature_attr o na name a) (cals o n) = dget a (cals o n).
  Proof. intros Hn. destruct na; [|reflexivity]. apply dset_get, Hn. Qed.

  Lemma style_map_get d v name a a' n : (s <-? style_lookup d v ;; Ok (dset a (cals o name) (SStr s))) = Ok a' -> n <> name ->
    dget a' (cals o n) = dget a (cals o n).
  Proof. intros H Hn. bind_any H. injection H as <-. apply dset_get, Hn. Qed.
End Attributes.

(** ** Entries, rows, sections *)

Lemma content_written tag attrs c e : append_cell_elements (XElem tag attrs None [] None) c = Ok e ->
  x_tag e = Some tag /\ x_attrs e = attrs /\ x_tail e = None /\ elem_pieces e = content_pieces c.
Proof.
  unfold append_cell_elements. pose proof (append_elements_spec c) as H.
  destruct (append_elements c (None, [])) as [[text ch]|x]; cbn [rbind]; [|discriminate].
  destruct H as [_ H]. intros [= <-]. cbn [fst snd x_tag x_attrs x_tail]. auto.
Qed.

Lemma build_cell_spec o bb colsep rowsep c e : build_cell o bb colsep rowsep c = Ok e -> describes_cell (co_ns o) c e.
Proof.
  unfold build_cell. destruct bb as [bb|]; [|discriminate]. intros H.
  match type of H with rbind ?m _ = _ => destruct m as [a1|] eqn:E1; cbn [rbind] in H; [|discriminate H] end.
  match type of H with rbind ?m _ = _ => destruct m as [a2|] eqn:E2; cbn [rbind] in H; [|discriminate H] end.
  match type of H with rbind ?m _ = _ => destruct m as [a3|] eqn:E3; cbn [rbind] in H; [|discriminate H] end.
  match type of H with rbind ?m _ = _ => destruct m as [a4|] eqn:E4; cbn [rbind] in H; [|discriminate H] end.
  match type of H with rbind ?m _ = _ => destruct m as [attrs|] eqn:E5; cbn [rbind] in H; [|discriminate H] end.
  assert (G : forall n, n <> "colsep"%string -> n <> "rowsep"%string -> n <> "valign"%string -> n <> "align"%string ->
             dget a4 (cals o n) = None).
  { intros n N1 N2 N3 N4.
    assert (G1 : dget a1 (cals o n) = None).
    { destruct (cx (c_max c) =? cx (bmax bb)); [injection E1 as <-; reflexivity|]. rewrite (sep_attr_get _ _ _ _ _ _ _ n E1 N1). reflexivity. }
    assert (G2 : dget a2 (cals o n) = None).
    { destruct (cy (c_max c) =? cy (bmax bb)); [injection E2 as <-; exact G1|]. rewrite (sep_attr_get _ _ _ _ _ _ _ n E2 N2). exact G1. }
    assert (G3 : dget a3 (cals o n) = None).
    { destruct (dget (c_styles c) "vertical-align"); [|injection E3 as <-; exact G2]. rewrite (style_map_get _ _ _ _ _ _ n E3 N3). exact G2. }
    destruct (dget (c_styles c) "align"); [|injection E4 as <-; exact G3]. rewrite (style_map_get _ _ _ _ _ _ n E4 N4). exact G3. }
  apply content_written in H as (Ht & Ha & Hl & Hp). unfold describes_cell, named.
  rewrite Ht, <- qname_expanded. split; [reflexivity|]. split; [exact Hl|]. split; [|exact Hp].
  unfold c_width, c_height, c_max, c_min, box_width, box_height in *.
  destruct (c_box c) as [[x1 y1] [x2 y2]]. cbn [bmin bmax cx cy] in *.
  match type of E5 with make_attrs ?a = _ =>
    assert (A : forall n, attribute (co_ns o) e n = as_text (dget a (cals o n))) by
      (intros n; unfold attribute, x_get; rewrite Ha, <- qname_expanded; apply (make_attrs_get _ _ _ E5)) end.
  rewrite !A. clear A. rewrite !copy_style_get by discriminate.
  destruct (Z.ltb_spec 1 (x2 - x1 + 1)); destruct (Z.ltb_spec 1 (y2 - y1 + 1));
    repeat first [rewrite dget_dset_same | rewrite dset_get by discriminate]; rewrite ?G by discriminate; cbn [as_text];
    (split; [intros; try lia; auto|]); (split; [intros; try lia; auto|]); (split; intros; try lia; auto).
  all: rewrite ?Z.add_simpl_r; reflexivity.
Qed.

Definition built (o : cals_opts) (bb : result (option box)) (colsep rowsep : string) (c : cell) (e : xnode) : Prop :=
  exists b, bb = Ok b /\ build_cell o b colsep rowsep c = Ok e.
Lemma built_describes o bb colsep rowsep c e : built o bb colsep rowsep c e -> describes_cell (co_ns o) c e.
Proof. intros (b & _ & H). eapply build_cell_spec, H. Qed.

Lemma build_row_spec o bb colsep rowsep v items : build_row o bb colsep rowsep v = Ok items ->
  row_with (built o bb colsep rowsep) (co_ns o) v items.
Proof.
  unfold build_row. intros H. bind H as a E1. bind H as a' E2. bind H as start E3. bind H as attrs E4.
  bind H as finish E5. bind H as entries E6. injection H as <-.
  assert (HE : Forall2 (built o bb colsep rowsep) (v_owned v) entries).
  { apply rmap_Forall2 in E6. eapply Forall2_impl_l; [|exact E6]. intros c e _ Hc. cbn in Hc. bind Hc as b Eb.
    exists b. split; [reflexivity|exact Hc]. }
  exists (XElem (cals o "row") attrs None entries None).
  split; [unfold named; rewrite <- qname_expanded; reflexivity|]. split; [reflexivity|]. split; [reflexivity|].
  split; [exact HE|].
  unfold dmem in *. destruct (dget (v_styles v) "x-ins") as [x|].
  - unfold revision_mark in *. bind E3 as p1 F1. bind F1 as q1 F2. injection F1 as <-. injection E3 as <-.
    bind E5 as p2 F3. bind F3 as q2 F4. injection F3 as <-. injection E5 as <-. eexists. eexists. reflexivity.
  - injection E3 as <-. injection E5 as <-. reflexivity.
Qed.

Lemma group_tag_spec n : group_tag n = section_of n.
Proof.
  destruct n as [s|]; [|reflexivity]. unfold group_tag, section_of, GROUP_TAGS. cbn [dget].
  destruct (String.eqb_spec s "header"); [reflexivity|].
  destruct (String.eqb_spec s "body") as [->|]; [reflexivity|].
  destruct (String.eqb_spec s "footer"); reflexivity.
Qed.

Lemma build_tbody_spec o bb colsep rowsep n rows e :
  build_tbody o bb colsep rowsep (group_tag n) rows = Ok e -> rows <> [] -> (forall v, In v rows -> v_nature v = n) ->
  section_with (built o bb colsep rowsep) (co_ns o) (n, rows) e.
Proof.
  unfold build_tbody. intros H HN HA. bind H as items E. injection H as <-. unfold section_with, named. cbn [fst snd].
  rewrite <- qname_expanded, group_tag_spec. split; [reflexivity|]. split; [reflexivity|]. split; [reflexivity|].
  split; [exact HN|]. split; [exact HA|]. exists items. split; [|reflexivity].
  apply rmap_Forall2 in E. eapply Forall2_impl_l; [|exact E]. intros v l _. apply build_row_spec.
Qed.

Lemma build_colspec_spec o colsep rowsep v e : build_colspec o colsep rowsep v = Ok e -> describes_column (co_ns o) (v_pos v) e.
Proof.
  unfold build_colspec. intros H. bind H as a1 E1.
  set (a2 := match dget (v_styles v) "align" with Some _ => _ | None => _ end) in H.
  bind H as a3 E3. bind H as a4 E4. bind H as attrs E5. injection H as <-.
  unfold describes_column, named, attribute, x_get. cbn [x_tag x_attrs x_children x_text x_tail].
  rewrite !(make_attrs_get _ _ _ E5). rewrite <- (qname_expanded _ "colspec"), <- (qname_expanded _ "colnum"), <- (qname_expanded _ "colname").
  change (qname (co_ns o)) with (cals o).
  assert (G : forall n, n <> "colwidth"%string -> n <> "align"%string -> n <> "colsep"%string -> n <> "rowsep"%string ->
    dget a4 (cals o n) = dget [(cals o "colnum", SStr (py_str_int (v_pos v))); (cals o "colname", SStr (String.append "c" (py_str_int (v_pos v))))] (cals o n)).
  { intros n N1 N2 N3 N4. rewrite (sep_attr_get _ _ _ _ _ _ _ n E4 N4), (sep_attr_get _ _ _ _ _ _ _ n E3 N3).
    rewrite <- (width_attr_get _ _ _ _ _ n E1 N1). subst a2. destruct (dget (v_styles v) "align") as [[s| | |]|]; try reflexivity.
    destruct (dget ALIGNS s); [|reflexivity]. apply dset_get, N2. }
  rewrite !G by discriminate. cbn [dget]. rewrite !String.eqb_refl.
  destruct (String.eqb_spec (cals o "colname") (cals o "colnum")) as [E|_]; [apply qname_inj in E; discriminate|].
  split; [reflexivity|]. split; [reflexivity|]. split; [reflexivity|]. auto.
Qed.

(** ** Grouping and sorting *)

Lemma nature_eqb_spec a b : nature_eqb a b = true <-> a = b.
Proof.
  destruct a, b; cbn; try (split; congruence). rewrite String.eqb_eq. split; congruence.
Qed.

Lemma group_concat rows : List.concat (map snd (group_by_nature rows)) = rows.
Proof.
  induction rows as [|r rows IH]; [reflexivity|]. cbn [group_by_nature].
  destruct (group_by_nature rows) as [|[n g] groups]; cbn in IH |- *; [subst; reflexivity|].
  destruct (nature_eqb (v_nature r) n); cbn; rewrite IH; reflexivity.
Qed.
Lemma group_same rows : forall g, In g (group_by_nature rows) -> snd g <> [] /\ forall v, In v (snd g) -> v_nature v = fst g.
Proof.
  induction rows as [|r rows IH]; intros g; [intros []|]. cbn [group_by_nature].
  destruct (group_by_nature rows) as [|[n l] groups].
  - intros [<-|[]]. cbn. split; [discriminate|]. intros v [<-|[]]. reflexivity.
  - destruct (nature_eqb (v_nature r) n) eqn:E.
    + intros [<-|Hg]; [|apply IH; right; exact Hg]. cbn. split; [discriminate|]. intros v [<-|Hv]; [apply nature_eqb_spec, E|].
      apply (IH (n, l)); [left; reflexivity|exact Hv].
    + intros [<-|Hg]; [|apply IH, Hg]. cbn. split; [discriminate|]. intros v [<-|[]]. reflexivity.
Qed.

Section Sort.
  Context {A : Type} (key : A -> Z).
  Lemma insert_by_perm a l : Permutation (insert_by key a l) (a :: l).
  Proof.
    induction l as [|b l IH]; cbn; [reflexivity|]. destruct (key a <=? key b); [reflexivity|].
    rewrite IH. apply perm_swap.
  Qed.
  Lemma sort_by_perm l : Permutation (sort_by key l) l.
  Proof. induction l as [|a l IH]; cbn; [reflexivity|]. rewrite insert_by_perm, IH. reflexivity. Qed.
  Lemma insert_by_sorted a l : StronglySorted (fun x y => key x <= key y) l -> StronglySorted (fun x y => key x <= key y) (insert_by key a l).
  Proof.
    induction l as [|b l IH]; intros H; cbn; [repeat constructor|]. inversion H as [|? ? Hl HF]; subst.
    destruct (Z.leb_spec (key a) (key b)).
    - constructor; [exact H|]. constructor; [assumption|]. eapply Forall_impl; [|exact HF]. cbn. intros; lia.
    - constructor; [apply IH, Hl|]. eapply Permutation_Forall; [symmetry; apply insert_by_perm|]. constructor; [lia|exact HF].
  Qed.
  Lemma sort_by_sorted l : StronglySorted (fun x y => key x <= key y) (sort_by key l).
  Proof. induction l as [|a l IH]; cbn; [constructor|]. apply insert_by_sorted, IH. Qed.
  (** Equal keys stay in order *)
  Lemma insert_by_stable a l k : StronglySorted (fun x y => key x <= key y) l ->
    filter (fun x => key x =? k) (insert_by key a l) = filter (fun x => key x =? k) (a :: l).
  Proof.
    induction l as [|b l IH]; intros H; [reflexivity|]. inversion H as [|? ? Hl HF]; subst. cbn [insert_by].
    destruct (Z.leb_spec (key a) (key b)); [reflexivity|]. cbn [filter] in IH |- *. rewrite IH by exact Hl.
    destruct (Z.eqb_spec (key b) k); destruct (Z.eqb_spec (key a) k); try reflexivity. lia.
  Qed.
  Lemma sort_by_stable l k : filter (fun x => key x =? k) (sort_by key l) = filter (fun x => key x =? k) l.
  Proof.
    induction l as [|a l IH]; [reflexivity|]. cbn [sort_by fold_right]. rewrite insert_by_stable by apply sort_by_sorted.
    cbn [filter]. unfold sort_by in IH. rewrite IH. reflexivity.
  Qed.
End Sort.

(** ** The place of a nature *)

Lemma index_from_spec l n i :
  match index_from i l n with
  | Some j => exists k, last_place l n k /\ j = i + Z.of_nat k
  | None => ~ In n l
  end.
Proof.
  revert i. induction l as [|m l IH]; intros i; cbn [index_from]; [intros []|]. specialize (IH (i + 1)).
  destruct (index_from (i + 1) l n) as [j|].
  - destruct IH as (k & [Hk Hm] & ->). exists (S k). split; [|lia]. split; [exact Hk|].
    intros [|j] Hj; [lia|]. apply le_n_S, Hm, Hj.
  - destruct (String.eqb_spec n m) as [->|N].
    + exists 0%nat. split; [|lia]. split; [reflexivity|]. intros [|j] Hj; [lia|]. cbn [nth_error] in Hj. apply nth_error_In in Hj. destruct (IH Hj).
    + intros [->|H]; [congruence|exact (IH H)].
Qed.
Lemma last_place_in l n k : last_place l n k -> In n l.
Proof. intros [H _]. eapply nth_error_In, H. Qed.
Lemma last_place_unique l n k k' : last_place l n k -> last_place l n k' -> k = k'.
Proof. intros [H1 H2] [H3 H4]. apply H2 in H3. apply H4 in H1. lia. Qed.

Lemma sorting_key_spec l n k : In "body"%string l -> (rank l n k <-> sorting_key l n = Z.of_nat k).
Proof.
  intros HB. unfold sorting_key. cbn [sorting_get].
  pose proof (index_from_spec l "body" 0) as Hb. destruct (index_from 0 l "body") as [jb|] eqn:Eb; [|destruct (Hb HB)].
  destruct Hb as (kb & Hkb & ->).
  destruct n as [s|]; cbn [rank sorting_get].
  - pose proof (index_from_spec l s 0) as Hs. destruct (index_from 0 l s) as [j|].
    + destruct Hs as (ks & Hks & ->). split.
      * intros [H|[N _]]; [rewrite (last_place_unique _ _ _ _ H Hks); lia|]. destruct N. eapply last_place_in, Hks.
      * intros E. left. replace k with ks by lia. exact Hks.
    + split.
      * intros [H|[_ H]]; [destruct Hs; eapply last_place_in, H|]. rewrite (last_place_unique _ _ _ _ H Hkb). lia.
      * intros E. right. split; [exact Hs|]. replace k with kb by lia. exact Hkb.
  - split; [intros H; rewrite (last_place_unique _ _ _ _ H Hkb); lia|]. intros E. replace k with kb by lia. exact Hkb.
Qed.
Lemma sorting_key_rank l n : In "body"%string l -> exists k, rank l n k.
Proof.
  intros HB. assert (H : 0 <= sorting_key l n).
  { unfold sorting_key. cbn [sorting_get]. pose proof (index_from_spec l "body" 0) as Hb.
    destruct (index_from 0 l "body") as [jb|]; [|destruct (Hb HB)]. destruct Hb as (kb & _ & ->).
    destruct n as [s|]; cbn [sorting_get]; [|lia].
    pose proof (index_from_spec l s 0) as Hs. destruct (index_from 0 l s) as [j|]; [destruct Hs as (ks & _ & ->)|]; lia. }
  exists (Z.to_nat (sorting_key l n)). apply sorting_key_spec; [exact HB|]. lia.
Qed.

Lemma selects_filter {A} (P : A -> Prop) (p : A -> bool) l : (forall a, p a = true <-> P a) -> selects P l (filter p l).
Proof.
  intros H. induction l as [|a l IH]; cbn; [constructor|]. specialize (H a). destruct (p a); constructor; try exact IH; intuition congruence.
Qed.
Lemma selects_unique {A} (P : A -> Prop) l m m' : selects P l m -> selects P l m' -> m = m'.
Proof.
  intros H. revert m'. induction H; intros m' H'; inversion H'; subst; try contradiction; auto; f_equal; auto.
Qed.

Lemma filter_concat {A} (p : A -> bool) (ll : list (list A)) : filter p (List.concat ll) = List.concat (map (filter p) ll).
Proof. induction ll as [|l ll IH]; cbn; [reflexivity|]. rewrite filter_app, IH. reflexivity. Qed.

Lemma filter_uniform {A} (p : A -> bool) b l : (forall a, In a l -> p a = b) -> filter p l = if b then l else [].
Proof.
  intros H. induction l as [|a l IH]; cbn; [destruct b; reflexivity|]. rewrite (H a) by (left; reflexivity).
  rewrite IH by (intros; apply H; right; assumption). destruct b; reflexivity.
Qed.

Lemma arrangement sorting rows : In "body"%string sorting ->
  let sections := sort_by (fun g : nature * list view => sorting_key sorting (fst g)) (group_by_nature rows) in
  Permutation (List.concat (map snd sections)) rows /\
  sections_sorted sorting sections /\ stable sorting rows (List.concat (map snd sections)) /\
  forall s, In s sections -> snd s <> [] /\ forall v, In v (snd s) -> v_nature v = fst s.
Proof.
  intros HB sections.
  assert (HP : Permutation sections (group_by_nature rows)) by apply sort_by_perm.
  assert (HS : forall s, In s sections -> snd s <> [] /\ forall v, In v (snd s) -> v_nature v = fst s).
  { intros s Hs. apply group_same with (rows := rows). eapply Permutation_in; [exact HP|exact Hs]. }
  split; [|split; [|split; [|exact HS]]].
  - transitivity (List.concat (map snd (group_by_nature rows))); [|rewrite group_concat; reflexivity]. clear - HP. induction HP; cbn.
    + reflexivity.
    + apply Permutation_app_head. assumption.
    + rewrite !app_assoc. apply Permutation_app_tail, Permutation_app_comm.
    + etransitivity; eassumption.
  - assert (HSS := sort_by_sorted (fun g : nature * list view => sorting_key sorting (fst g)) (group_by_nature rows)).
    fold sections in HSS. unfold sections_sorted. clear - HSS HB. induction HSS as [|s l Hl IH HF]; constructor; [exact IH|].
    eapply Forall_impl; [|exact HF]. cbn. intros s' Hs' k k' Hk Hk'. apply sorting_key_spec in Hk, Hk'; try exact HB. lia.
  - intros k l Hl. set (p := fun v => sorting_key sorting (v_nature v) =? Z.of_nat k).
    assert (Hp : forall v, p v = true <-> rank sorting (v_nature v) k).
    { intros v. unfold p. rewrite Z.eqb_eq. symmetry. apply sorting_key_spec, HB. }
    rewrite (selects_unique _ _ _ _ Hl (selects_filter _ p rows Hp)).
    replace (filter p rows) with (filter p (List.concat (map snd sections))); [apply selects_filter, Hp|].
    assert (HF : forall gs, (forall s, In s gs -> snd s <> [] /\ forall v, In v (snd s) -> v_nature v = fst s) ->
      filter p (List.concat (map snd gs)) =
      List.concat (map snd (filter (fun g : nature * list view => sorting_key sorting (fst g) =? Z.of_nat k) gs))).
    { intros gs Hgs. induction gs as [|g gs IH]; [reflexivity|]. cbn [map List.concat filter]. rewrite filter_app.
      rewrite IH by (intros; apply Hgs; right; assumption).
      rewrite (filter_uniform p (sorting_key sorting (fst g) =? Z.of_nat k)).
      - destruct (sorting_key sorting (fst g) =? Z.of_nat k); reflexivity.
      - intros v Hv. unfold p. rewrite (proj2 (Hgs g (or_introl eq_refl)) v Hv). reflexivity. }
    transitivity (filter p (List.concat (map snd (group_by_nature rows)))); [|rewrite group_concat; reflexivity]. rewrite !HF; [|apply group_same|exact HS].
    unfold sections. rewrite sort_by_stable. reflexivity.
Qed.

(** ** The whole tree *)

Lemma table_views_spec ax t vs : treachable t -> table_views ax t = Ok vs ->
  pos_ok vs /\ forall i v, nth_error vs i = Some v -> reads ax (Z.of_nat i + 1) t v.
Proof.
  intros HR H. destruct (treachable_tinv t HR) as (og & HS & HM).
  destruct (views_get_st ax t _ og HS (proj1 (proj1 HM))) as (t1 & vs' & E & HS1 & E1 & R).
  unfold table_views in H. rewrite E in H. injection H as ->. split; [apply R|].
  intros i v Hi. unfold reads, view_get, sbind. rewrite E. unfold views_put, sbind, sget, sput, slift. cbn [snd].
  assert (Hlen : (i < List.length vs)%nat) by (apply nth_error_Some; congruence).
  rewrite fit_small by lia. destruct (py_nth_pos vs (Z.of_nat i + 1)) as (v' & -> & Hv); [lia|].
  replace (Z.to_nat (Z.of_nat i + 1 - 1)) with i in Hv by lia. congruence.
Qed.
Lemma table_views_total ax t : treachable t -> exists vs, table_views ax t = Ok vs.
Proof.
  intros HR. destruct (treachable_tinv t HR) as (og & HS & HM).
  destruct (views_get_st ax t _ og HS (proj1 (proj1 HM))) as (t1 & vs' & E & _). exists vs'. unfold table_views. rewrite E. reflexivity.
Qed.

Lemma Forall2_positions {A} (P : Z -> A -> Prop) vs l :
  pos_ok vs -> Forall2 (fun v e => P (v_pos v) e) vs l -> Forall2 P (zrange 1 (Z.of_nat (List.length vs) + 1)) l.
Proof.
  intros HP F.
  assert (E : zrange 1 (Z.of_nat (List.length vs) + 1) = map v_pos vs).
  { apply nth_error_ext. intros i. rewrite nth_error_zrange, nth_error_map.
    destruct (nth_error vs i) as [v|] eqn:Ei; cbn [option_map].
    - assert (i < List.length vs)%nat by (apply nth_error_Some; congruence).
      apply HP in Ei. rewrite Ei. destruct (Z.ltb_spec (Z.of_nat i) (Z.of_nat (List.length vs) + 1 - 1)); [f_equal; lia|lia].
    - apply nth_error_None in Ei. destruct (Z.ltb_spec (Z.of_nat i) (Z.of_nat (List.length vs) + 1 - 1)); [lia|reflexivity]. }
  rewrite E. clear - F. induction F; cbn; constructor; assumption.
Qed.

Definition sections_of (o : cals_opts) (rows : list view) : list (nature * list view) :=
  sort_by (fun g : nature * list view => sorting_key (co_sorting o) (fst g)) (group_by_nature rows).

Lemma build_tgroup_spec o colsep rowsep t tg : treachable t -> In "body"%string (co_sorting o) ->
  build_tgroup o colsep rowsep t = Ok tg ->
  exists cols rows specs bodies cs rs, table_views Cols t = Ok cols /\ table_views Rows t = Ok rows /\
    named (co_ns o) "tgroup" tg /\ attribute (co_ns o) tg "cols" = Some (py_str_int (Z.of_nat (List.length cols))) /\
    x_children tg = specs ++ bodies /\
    Forall2 (describes_column (co_ns o)) (zrange 1 (Z.of_nat (List.length cols) + 1)) specs /\
    Forall2 (section_with (built o (table_bounding_box t) cs rs) (co_ns o)) (sections_of o rows) bodies /\
    (if co_in_tgroup o
     then attribute (co_ns o) tg "colsep" = Some cs /\ attribute (co_ns o) tg "rowsep" = Some rs
     else cs = colsep /\ rs = rowsep /\ attribute (co_ns o) tg "colsep" = None /\ attribute (co_ns o) tg "rowsep" = None).
Proof.
  unfold build_tgroup. intros HR HB H. bind H as cols Ec. bind H as car Ea. destruct car as [[cs rs] a].
  bind H as attrs Em. bind H as specs Es. bind H as rows Er. bind H as bodies Eb. injection H as <-.
  exists cols, rows, specs, bodies, cs, rs. split; [reflexivity|]. split; [reflexivity|].
  split; [unfold named; rewrite <- qname_expanded; reflexivity|]. split; [|split; [reflexivity|split; [|split]]].
  - unfold attribute, x_get. cbn [x_attrs]. rewrite <- qname_expanded, (make_attrs_get _ _ _ Em).
    change (qname (co_ns o)) with (cals o).
    assert (G : dget a (cals o "cols") = Some (SStr (py_str_int (Z.of_nat (List.length cols))))).
    { destruct (co_in_tgroup o).
      - bind Ea as s1 F1. bind Ea as s2 F2. match type of Ea with Ok (_, _, ?x) = _ => replace a with x by congruence end.
        rewrite nature_attr_get by discriminate. rewrite !dset_get by discriminate. apply dget_one.
      - injection Ea as <- <- <-. apply dget_one. }
    rewrite G. reflexivity.
  - apply Forall2_positions; [apply (table_views_spec _ _ _ HR Ec)|]. apply rmap_Forall2 in Es.
    eapply Forall2_impl_l; [|exact Es]. intros v e _. apply build_colspec_spec.
  - apply rmap_Forall2 in Eb. eapply Forall2_impl_l; [|exact Eb]. intros [n grp] e Hi He. cbn [fst snd] in He.
    destruct (arrangement (co_sorting o) rows HB) as (_ & _ & _ & HS). destruct (HS _ Hi) as [HN HA].
    eapply build_tbody_spec; [exact He|exact HN|exact HA].
  - unfold attribute, x_get. cbn [x_attrs]. rewrite <- (qname_expanded _ "colsep"), <- (qname_expanded _ "rowsep").
    change (qname (co_ns o)) with (cals o). rewrite !(make_attrs_get _ _ _ Em). destruct (co_in_tgroup o).
    + bind Ea as s1 F1. bind Ea as s2 F2. match type of Ea with Ok (?y, ?z, ?x) = _ =>
        replace a with x by congruence; replace cs with y by congruence; replace rs with z by congruence end.
      rewrite !nature_attr_get by discriminate. rewrite dget_dset_same, dset_get, dget_dset_same by discriminate. auto.
    + injection Ea as -> -> <-. cbn [dget].
      destruct (String.eqb_spec (cals o "colsep") (cals o "cols")) as [E|_]; [apply qname_inj in E; discriminate|].
      destruct (String.eqb_spec (cals o "rowsep") (cals o "cols")) as [E|_]; [apply qname_inj in E; discriminate|]. auto.
Qed.

Lemma generate_built o t e : treachable t -> In "body"%string (co_sorting o) ->
  generate_table_tree o t = Ok e ->
  exists cols rows cs rs, table_views Cols t = Ok cols /\ table_views Rows t = Ok rows /\
    table_with (built o (table_bounding_box t) cs rs) (co_ns o) (Z.of_nat (List.length cols)) (sections_of o rows) e /\
    default_separators (co_in_tgroup o) (co_ns o) e cs rs.
Proof.
  unfold generate_table_tree. intros HR HB H. bind H as frame Ef. bind H as car Ea. destruct car as [[cs rs] a].
  bind H as a1 E1. bind H as a2 E2. bind H as attrs Em. bind H as tg Et. injection H as <-.
  destruct (build_tgroup_spec _ _ _ _ _ HR HB Et) as (cols & rows & specs & bodies & cs' & rs' & Ec & Er & Hn & Hc & Hch & H1 & H2 & HD).
  exists cols, rows, cs', rs'. split; [exact Ec|]. split; [exact Er|]. split.
  - split; [unfold named; rewrite <- qname_expanded; reflexivity|]. exists tg, specs, bodies. auto 10.
  - exists tg. split; [reflexivity|]. cbn zeta. destruct (co_in_tgroup o); [exact HD|]. destruct HD as (-> & -> & _).
    unfold attribute, x_get. cbn [x_attrs]. rewrite <- (qname_expanded _ "colsep"), <- (qname_expanded _ "rowsep").
    change (qname (co_ns o)) with (cals o). rewrite !(make_attrs_get _ _ _ Em).
    rewrite (width_attr_get _ _ _ _ _ "colsep" E2) by discriminate. rewrite (width_attr_get _ _ _ _ _ "rowsep" E2) by discriminate.
    rewrite !copy_style_get by discriminate.
    assert (G : forall n, n <> "orient"%string -> n <> "pgwide"%string ->
       dget (match dget (t_styles t) "x-sect-cols" with
             | Some v => dset a1 (cals o "pgwide") (SStr (match v with SStr "1" => "1" | _ => "0" end))
             | None => a1 end) (cals o n) = dget a (cals o n)).
    { intros n N1 N2. transitivity (dget a1 (cals o n)).
      - destruct (dget (t_styles t) "x-sect-cols"); [apply dset_get, N2|reflexivity].
      - destruct (dget (t_styles t) "x-sect-orient"); [apply (style_map_get _ _ _ _ _ _ n E1 N1)|congruence]. }
    rewrite !G by discriminate. bind Ea as s1 F1. bind Ea as s2 F2. match type of Ea with Ok (?y, ?z, ?x) = _ =>
      replace a with x by congruence; replace cs with y by congruence; replace rs with z by congruence end.
    rewrite !nature_attr_get by discriminate. rewrite dget_dset_same, dset_get, dget_dset_same by discriminate. auto.
Qed.

Lemma Forall2_weaken {A B} (P Q : A -> B -> Prop) l m : (forall a b, P a b -> Q a b) -> Forall2 P l m -> Forall2 Q l m.
Proof. intros H. induction 1; constructor; auto. Qed.
Lemma row_with_mono (D D' : cell -> xnode -> Prop) ns v items : (forall c e, D c e -> D' c e) -> row_with D ns v items -> row_with D' ns v items.
Proof. intros H (row & H1 & H2 & H3 & H4 & H5). exists row. repeat (split; [assumption|]). split; [eapply Forall2_weaken; eassumption|assumption]. Qed.
Lemma section_with_mono (D D' : cell -> xnode -> Prop) ns s e : (forall c e, D c e -> D' c e) -> section_with D ns s e -> section_with D' ns s e.
Proof.
  intros H (H1 & H2 & H3 & H4 & H5 & items & H6 & H7). repeat (split; [assumption|]). exists items. split; [|assumption].
  eapply Forall2_weaken; [|exact H6]. intros v l. apply row_with_mono, H.
Qed.
Lemma table_with_mono (D D' : cell -> xnode -> Prop) ns n ss e : (forall c e, D c e -> D' c e) -> table_with D ns n ss e -> table_with D' ns n ss e.
Proof.
  intros H (H1 & tg & specs & bodies & H2 & H3 & H4 & H5 & H6 & H7). split; [assumption|]. exists tg, specs, bodies.
  repeat (split; [assumption|]). eapply Forall2_weaken; [|exact H7]. intros s b. apply section_with_mono, H.
Qed.

Lemma generate_spec o t e : treachable t -> In "body"%string (co_sorting o) ->
  generate_table_tree o t = Ok e ->
  exists cols rows, table_views Cols t = Ok cols /\ table_views Rows t = Ok rows /\
    describes_table (co_ns o) (Z.of_nat (List.length cols)) (sections_of o rows) e.
Proof.
  intros HR HB H. destruct (generate_built o t e HR HB H) as (cols & rows & cs & rs & H1 & H2 & H3 & _).
  exists cols, rows. split; [exact H1|]. split; [exact H2|]. eapply table_with_mono; [|exact H3]. intros c x. apply built_describes.
Qed.

(** ** Success *)

Lemma sep_attr_total o st style name ts a : text_or_absent st style -> all_text a ->
  exists a', sep_attr o st style name ts a = Ok a' /\ all_text a'.
Proof.
  intros Hs Ha. unfold sep_attr, get_sep_attr. pose proof (border_spec st style) as H.
  destruct (get_border_style st style) as [w|x]; cbn [rbind]; [|destruct H; contradiction]. eexists. split; [reflexivity|].
  destruct w as [w|]; [|exact Ha]. destruct (String.eqb (if String.eqb w "none" then "0" else "1") ts); [exact Ha|apply all_text_dset, Ha].
Qed.
Lemma table_sep_total st style : text_or_absent st style -> exists s, table_sep st style = Ok s.
Proof.
  intros Hs. unfold table_sep, get_sep_attr. pose proof (border_spec st style) as H.
  destruct (get_border_style st style) as [w|x]; cbn [rbind]; [|destruct H; contradiction]. eexists. reflexivity.
Qed.
Lemma style_map_total d values st k name a o :
  (forall s, In s values -> exists v, dget d s = Some v) -> one_of st k values -> all_text a ->
  exists a', match dget st k with Some v => s <-? style_lookup d v ;; Ok (dset a (cals o name) (SStr s)) | None => Ok a end = Ok a' /\ all_text a'.
Proof.
  intros Hd Ho Ha. unfold one_of in Ho. destruct (dget st k) as [[s| | |]|]; try contradiction.
  - destruct (Hd s Ho) as [v Ev]. unfold style_lookup, lookup. rewrite Ev. cbn [rbind]. eexists. split; [reflexivity|]. apply all_text_dset, Ha.
  - eexists. split; [reflexivity|exact Ha].
Qed.
Lemma unit_names_known u : In u unit_names -> exists q, unit_length u = Ok q.
Proof. intros H. cbn in H. repeat destruct H as [<-|H]; try (eexists; vm_compute; reflexivity). destruct H. Qed.
Lemma width_attr_total o st name a : In (co_unit o) unit_names -> width_or_absent st -> all_text a ->
  exists a', width_attr o st name a = Ok a' /\ all_text a'.
Proof.
  intros HU Hw Ha. unfold width_attr, width_or_absent in *. destruct (dget st "width") as [[s| | |]|]; try contradiction; [|eauto].
  destruct Hw as (num & u & Hr). pose proof (parse_width_spec s "mm") as Hp.
  destruct (parse_width s "mm") as [[v unit]|x].
  - destruct Hp as (num' & u' & Hr' & _ & ->). cbn [rbind fst snd]. unfold convert_value.
    assert (Hu : In (unit_or u' "mm") unit_names).
    { unfold unit_or. destruct u' as [|c u']; [cbn; tauto|]. destruct Hr' as (pre & rest & _ & _ & _ & [Hl|[? _]]); [|discriminate]. exact (proj1 Hl). }
    destruct (unit_names_known _ Hu) as [q ->]. destruct (unit_names_known _ HU) as [q' ->]. cbn [rbind].
    eexists. split; [reflexivity|]. apply all_text_dset, Ha.
  - exfalso. destruct Hp as [_ Hp]. destruct Hr as (pre & rest & E & Hl & _). destruct (numeral_has_digit num (proj1 Hl)) as (c & Hc & Hd).
    apply (Hp c); [|exact Hd]. rewrite E. apply in_app_iff. right. apply in_app_iff. left. exact Hc.
Qed.

Lemma aligns_known s : In s aligns -> exists v, dget ALIGNS s = Some v.
Proof. intros H. cbn in H. repeat destruct H as [<-|H]; try (eexists; vm_compute; reflexivity). destruct H. Qed.
Lemma valigns_known s : In s valigns -> exists v, dget ROW_VALIGNS s = Some v.
Proof. intros H. cbn in H. repeat destruct H as [<-|H]; try (eexists; vm_compute; reflexivity). destruct H. Qed.
Lemma cell_valigns_known s : In s ("w-both"%string :: valigns) -> exists v, dget CELL_VALIGNS s = Some v.
Proof. intros H. cbn in H. repeat destruct H as [<-|H]; try (eexists; vm_compute; reflexivity). destruct H. Qed.
Lemma orients_known s : In s ["landscape"; "portrait"]%string -> exists v, dget ORIENTS s = Some v.
Proof. intros H. cbn in H. repeat destruct H as [<-|H]; try (eexists; vm_compute; reflexivity). destruct H. Qed.

(** [rewrite E] up to the names of types *)
Ltac rew E := match goal with |- exists e, rbind ?m _ = _ => match type of E with _ = ?r => replace m with r by (symmetry; exact E) end end; cbn [rbind].

Lemma build_cell_total o bb colsep rowsep c : cell_ready c -> exists e, build_cell o (Some bb) colsep rowsep c = Ok e.
Proof.
  intros (HW & H1 & H2 & H3 & H4 & H5 & H6). unfold build_cell.
  assert (X1 : exists a, (if cx (c_max c) =? cx (bmax bb) then Ok [] else sep_attr o (c_styles c) "border-right" "colsep" colsep []) = Ok a /\ all_text a).
  { destruct (cx (c_max c) =? cx (bmax bb)); [exists []; split; [reflexivity|apply all_text_nil]|]. apply sep_attr_total; [exact H1|apply all_text_nil]. }
  destruct X1 as (a1 & Ea1 & A1). rew Ea1.
  assert (X2 : exists a, (if cy (c_max c) =? cy (bmax bb) then Ok a1 else sep_attr o (c_styles c) "border-bottom" "rowsep" rowsep a1) = Ok a /\ all_text a).
  { destruct (cy (c_max c) =? cy (bmax bb)); [exists a1; auto|]. apply sep_attr_total; assumption. }
  destruct X2 as (a2 & Ea2 & A2). rew Ea2.
  destruct (style_map_total _ _ _ _ "valign" a2 o cell_valigns_known H4 A2) as (a3 & Ea3 & A3). rew Ea3.
  destruct (style_map_total _ _ _ _ "align" a3 o aligns_known H3 A3) as (a4 & Ea4 & A4). rew Ea4.
  match goal with |- exists e, rbind (make_attrs ?a) _ = _ => assert (A : all_text a) end.
  { apply all_text_copy; [|exact H6]. apply all_text_copy; [|exact H5].
    destruct (1 <? c_height c); [apply all_text_dset|]; (destruct (1 <? c_width c); [apply all_text_dset, all_text_dset|]; exact A4). }
  destruct (make_attrs_total _ A) as [attrs ->]. cbn [rbind].
  unfold append_cell_elements. pose proof (append_elements_spec (c_content c)) as H.
  destruct (append_elements (c_content c) (None, [])) as [tc|x]; [eexists; reflexivity|destruct H; contradiction].
Qed.

Lemma build_row_total o bb colsep rowsep v : row_ready v -> (forall c, In c (v_owned v) -> cell_ready c) ->
  (v_owned v <> [] -> exists b, bb = Ok (Some b)) ->
  exists items, build_row o bb colsep rowsep v = Ok items.
Proof.
  intros (H1 & H2 & H3 & H4 & H5) HC HB. unfold build_row.
  assert (X : exists a, match dget (v_styles v) "vertical-align" with Some v => s <-? style_lookup ROW_VALIGNS v ;; Ok [(cals o "valign", SStr s)] | None => Ok [] end = Ok a /\ all_text a).
  { exact (style_map_total _ _ _ _ "valign" [] o valigns_known H2 all_text_nil). }
  destruct X as (a1 & Ea1 & A1). rew Ea1.
  destruct (sep_attr_total o (v_styles v) "border-bottom" "rowsep" rowsep a1 H1 A1) as (a2 & Ea2 & A2). rew Ea2.
  set (r1 := match dget (v_styles v) "x-ins-id" with Some x => _ | None => _ end).
  assert (R1 : all_text r1).
  { assert (all_text [("type"%string, SStr "row:insertion")]) by (intros k x [[= <- <-]|[]]; eexists; reflexivity).
    subst r1. destruct (dget (v_styles v) "x-ins-id"); [apply all_text_dset|]; assumption. }
  assert (X : exists l, (if dmem (v_styles v) "x-ins" then pi <-? revision_mark "change-start" (copy_style (v_styles v) "x-ins-date" "date" (copy_style (v_styles v) "x-ins-author" "creator" r1)) ;; Ok [pi] else Ok []) = Ok l).
  { destruct (dmem (v_styles v) "x-ins"); [|eexists; reflexivity]. unfold revision_mark.
    match goal with |- context [make_attrs ?a] => assert (A : all_text a) by (apply all_text_copy; [apply all_text_copy|]; assumption) end.
    destruct (make_attrs_total _ A) as [m ->]. eexists. reflexivity. }
  destruct X as [l1 ->]. cbn [rbind].
  destruct (make_attrs_total _ (all_text_copy _ "rowstyle" (cals o "rowstyle") a2 A2 H3)) as [attrs ->]. cbn [rbind].
  assert (X : exists l, (if dmem (v_styles v) "x-ins" then pi <-? revision_mark "change-end" r1 ;; Ok [pi] else Ok []) = Ok l).
  { destruct (dmem (v_styles v) "x-ins"); [|eexists; reflexivity]. unfold revision_mark.
    destruct (make_attrs_total _ R1) as [m ->]. eexists. reflexivity. }
  destruct X as [l2 ->]. cbn [rbind].
  destruct (rmap_total (fun c => b <-? bb ;; build_cell o b colsep rowsep c) (v_owned v)) as [m ->].
  - intros c Hc. destruct HB as [b ->]; [intros E; rewrite E in Hc; destruct Hc|]. cbn [rbind]. apply build_cell_total, HC, Hc.
  - eexists. reflexivity.
Qed.

Lemma build_colspec_total o colsep rowsep v : In (co_unit o) unit_names -> col_ready v ->
  exists e, build_colspec o colsep rowsep v = Ok e.
Proof.
  intros HU (H1 & H2 & H3). unfold build_colspec.
  match goal with |- context [width_attr o _ _ ?a] => assert (A : all_text a) end.
  { intros k x [[= <- <-]|[[= <- <-]|[]]]; eexists; reflexivity. }
  destruct (width_attr_total o (v_styles v) "colwidth" _ HU H1 A) as (a1 & Ea1 & A1). rew Ea1.
  set (a2 := match dget (v_styles v) "align" with Some _ => _ | None => _ end).
  assert (A2 : all_text a2).
  { subst a2. destruct (dget (v_styles v) "align") as [[s| | |]|]; try exact A1. destruct (dget ALIGNS s); [apply all_text_dset|]; exact A1. }
  destruct (sep_attr_total o (v_styles v) "border-right" "colsep" colsep a2 H2 A2) as (a3 & Ea3 & A3). rew Ea3.
  destruct (sep_attr_total o (v_styles v) "border-bottom" "rowsep" rowsep a3 H3 A3) as (a4 & Ea4 & A4). rew Ea4.
  destruct (make_attrs_total _ A4) as [m ->]. eexists. reflexivity.
Qed.

Lemma generate_total o t : treachable t -> In (co_unit o) unit_names -> ready t -> exists e, generate_table_tree o t = Ok e.
Proof.
  intros HR HU ((S1 & S2 & S3 & S4 & S5 & S6) & HC & HRW & HCL). unfold generate_table_tree.
  pose proof (frame_spec (t_styles t)) as HF. destruct (get_frame_attr (t_styles t)) as [frame|x]; [|destruct HF as [_ [s Hs]]; destruct (Hs (S1 s))].
  cbn [rbind]. destruct (table_sep_total _ _ S2) as [cs Ecs]. destruct (table_sep_total _ _ S3) as [rs Ers].
  assert (A0 : all_text [(cals o "frame", SStr frame)]) by (intros k x [[= <- <-]|[]]; eexists; reflexivity).
  assert (NA : forall name a, all_text a -> all_text (nature_attr o (t_nature t) name a)).
  { intros name a Ha. unfold nature_attr. destruct (t_nature t); [apply all_text_dset|]; exact Ha. }
  assert (X : exists colsep rowsep a, (if co_in_tgroup o then Ok ("0"%string, "0"%string, [(cals o "frame", SStr frame)])
             else
               colsep <-? table_sep (t_styles t) "x-cell-border-right" ;;
               rowsep <-? table_sep (t_styles t) "x-cell-border-bottom" ;;
               Ok (colsep, rowsep, nature_attr o (t_nature t) "tabstyle" (dset (dset [(cals o "frame", SStr frame)] (cals o "colsep") (SStr colsep)) (cals o "rowsep") (SStr rowsep)))) = Ok (colsep, rowsep, a) /\ all_text a).
  { destruct (co_in_tgroup o); [eexists; eexists; eexists; split; [reflexivity|exact A0]|]. rewrite Ecs, Ers. cbn [rbind].
    eexists; eexists; eexists. split; [reflexivity|]. apply NA, all_text_dset, all_text_dset, A0. }
  destruct X as (colsep & rowsep & a & Ea & A). rew Ea.
  destruct (style_map_total _ _ _ _ "orient" a o orients_known S4 A) as (a1 & Ea1 & A1). rew Ea1.
  set (a2 := match dget (t_styles t) "x-sect-cols" with Some v => _ | None => _ end).
  assert (A2 : all_text a2) by (subst a2; destruct (dget (t_styles t) "x-sect-cols"); [apply all_text_dset|]; exact A1).
  destruct (width_attr_total o (t_styles t) "width" _ HU S6 (all_text_copy _ _ (cals o "bgcolor") _ A2 S5)) as (a3 & Ea3 & A3). rew Ea3.
  destruct (make_attrs_total _ A3) as [attrs ->]. cbn [rbind].
  assert (HT : exists tg, build_tgroup o colsep rowsep t = Ok tg); [|destruct HT as [tg ->]; eexists; reflexivity].
  unfold build_tgroup. destruct (table_views_total Cols t HR) as [cols Ec]. rewrite Ec. cbn [rbind].
  assert (C0 : all_text [(cals o "cols", SStr (py_str_int (Z.of_nat (List.length cols))))]) by (intros k x [[= <- <-]|[]]; eexists; reflexivity).
  assert (X : exists colsep' rowsep' b, (if co_in_tgroup o then
               colsep <-? table_sep (t_styles t) "x-cell-border-right" ;;
               rowsep <-? table_sep (t_styles t) "x-cell-border-bottom" ;;
               Ok (colsep, rowsep, nature_attr o (t_nature t) "tgroupstyle" (dset (dset [(cals o "cols", SStr (py_str_int (Z.of_nat (List.length cols))))] (cals o "colsep") (SStr colsep)) (cals o "rowsep") (SStr rowsep)))
             else Ok (colsep, rowsep, [(cals o "cols", SStr (py_str_int (Z.of_nat (List.length cols))))])) = Ok (colsep', rowsep', b) /\ all_text b).
  { destruct (co_in_tgroup o); [|eexists; eexists; eexists; split; [reflexivity|exact C0]]. rewrite Ecs, Ers. cbn [rbind].
    eexists; eexists; eexists. split; [reflexivity|]. apply NA, all_text_dset, all_text_dset, C0. }
  destruct X as (colsep' & rowsep' & b & Eb & B). rew Eb.
  destruct (make_attrs_total _ B) as [attrs' ->]. cbn [rbind].
  destruct (table_views_spec _ _ _ HR Ec) as [_ Hcols].
  destruct (rmap_total (build_colspec o colsep' rowsep') cols) as [specs ->].
  { intros v Hv. apply build_colspec_total; [exact HU|]. apply In_nth_error in Hv as [i Hi]. apply (HCL (Z.of_nat i + 1)); [lia|]. apply Hcols, Hi. }
  cbn [rbind]. destruct (table_views_total Rows t HR) as [rows Er]. rewrite Er. cbn [rbind].
  destruct (table_views_spec _ _ _ HR Er) as [_ Hrows].
  match goal with |- exists tg, rbind (rmap ?f ?l) _ = _ => destruct (rmap_total f l) as [bodies ->] end; [|eexists; reflexivity].
  intros [n grp] Hg. cbn [fst snd]. unfold build_tbody.
  assert (Hin : forall v, In v grp -> In v rows).
  { intros v Hv. rewrite <- (group_concat rows). apply in_concat. exists grp. split; [|exact Hv]. apply in_map_iff. exists (n, grp). split; [reflexivity|].
    eapply Permutation_in; [apply sort_by_perm|exact Hg]. }
  match goal with |- exists e, rbind (rmap ?f ?l) _ = _ => destruct (rmap_total f l) as [items ->] end; [|eexists; reflexivity].
  intros v Hv. apply Hin, In_nth_error in Hv as [i Hi]. pose proof (Hrows i v Hi) as Hrd.
  destruct (view_membership Rows (Z.of_nat i + 1) t v HR ltac:(lia) Hrd) as (_ & HO & _).
  apply build_row_total.
  - apply (HRW (Z.of_nat i + 1)); [lia|exact Hrd].
  - intros c Hc. apply HC, HO, Hc.
  - intros HN. destruct (v_owned v) as [|c l]; [congruence|]. assert (Hc : In c (table_iter t)) by (apply HO; left; reflexivity).
    destruct (treachable_tinv t HR) as (og & HS & HM). unfold table_bounding_box.
    destruct (bounding_box_spec (t_grid t) (proj1 (proj1 HM))) as [[E _]|(_ & bb & E & _)]; [|exists bb; exact E].
    unfold table_iter, grid_iter in Hc. rewrite E in Hc. destruct Hc.
Qed.

(** ** Entries *)

Lemma has_tag_named ns name e : named ns name e -> forall name', x_has_tag e (expanded ns name') = String.eqb name' name.
Proof.
  unfold named. intros H name'. destruct e as [tag attrs text ch tail| |]; try discriminate. injection H as ->. cbn [x_has_tag].
  destruct (String.eqb_spec name' name) as [->|N]; [apply String.eqb_refl|]. apply String.eqb_neq. rewrite <- !qname_expanded.
  intros E. apply N, (qname_inj ns), E.
Qed.

Lemma rows_entries (D : cell -> xnode -> Prop) ns rows items : (forall c e, D c e -> named ns "entry" e) -> Forall2 (row_with D ns) rows items ->
  Forall2 D (flat_map v_owned rows)
    (children_named (expanded ns "entry") (filter (fun e => x_has_tag e (expanded ns "row")) (List.concat items))).
Proof.
  intros HD F. unfold children_named. induction F as [|v it rows items Hv F IH]; [constructor|]. cbn [flat_map List.concat].
  rewrite filter_app, flat_map_app, filter_app. apply Forall2_app; [|exact IH]. clear IH F.
  destruct Hv as (row & Hn & _ & _ & HC & Hi).
  assert (E : filter (fun e => x_has_tag e (expanded ns "row")) it = [row]).
  { pose proof (has_tag_named ns "row" row Hn "row") as Ht. destruct (dget (v_styles v) "x-ins").
    - destruct Hi as (a & b & ->). cbn [filter]. rewrite Ht. reflexivity.
    - subst it. cbn [filter]. rewrite Ht. reflexivity. }
  rewrite E. cbn [flat_map]. rewrite app_nil_r. rewrite (filter_uniform _ true).
  - exact HC.
  - intros e He. clear - HC He HD. induction HC as [|c e' l m Hc _ IH]; [destruct He|]. destruct He as [<-|He]; [|apply IH, He].
    apply (has_tag_named ns "entry" e' (HD _ _ Hc)).
Qed.

Lemma table_entries (D : cell -> xnode -> Prop) ns n sections e : (forall c e, D c e -> named ns "entry" e) -> table_with D ns n sections e ->
  Forall2 D (flat_map v_owned (List.concat (map snd sections))) (entries ns e).
Proof.
  intros HD (Hn & tg & specs & bodies & Hc & Ht & _ & Hch & Hs & Hb). unfold entries.
  replace (children_named (expanded ns "tgroup") [e]) with [tg].
  2:{ unfold children_named. cbn [flat_map]. rewrite Hc. cbn [app filter]. rewrite (has_tag_named ns "tgroup" tg Ht). reflexivity. }
  cbn [flat_map]. rewrite app_nil_r, Hch.
  assert (E : flat_map x_children specs = []).
  { clear - Hs. induction Hs as [|i e l m H _ IH]; [reflexivity|]. cbn [flat_map]. destruct H as (_ & _ & _ & -> & _). exact IH. }
  unfold children_named at 2. rewrite flat_map_app, E. cbn [app]. clear - Hb HD.
  assert (X : exists items, Forall2 (row_with D ns) (List.concat (map snd sections)) items /\ flat_map x_children bodies = List.concat items).
  { induction Hb as [|s b sections bodies Hs _ IH]; [exists []; split; [constructor|reflexivity]|].
    destruct IH as (items & HF & HE). destruct Hs as (_ & _ & _ & _ & _ & items' & HF' & HE').
    exists (items' ++ items). cbn [map List.concat flat_map]. split; [apply Forall2_app; assumption|].
    rewrite HE', HE, concat_app. reflexivity. }
  destruct X as (items & HF & ->). apply rows_entries; [exact HD|exact HF].
Qed.

Lemma partition_by {A} (key : A -> Z) (g : list A) (ks : list Z) : NoDup ks -> (forall a, In a g -> In (key a) ks) ->
  Permutation (flat_map (fun k => filter (fun a => key a =? k) g) ks) g.
Proof.
  intros HN. induction g as [|a g IH]; intros H.
  - clear. induction ks as [|k ks IH]; cbn; [constructor|exact IH].
  - transitivity (a :: flat_map (fun k => filter (fun a => key a =? k) g) ks).
    2:{ constructor. apply IH. intros b Hb. apply H. right. exact Hb. }
    assert (Ha : In (key a) ks) by (apply H; left; reflexivity). clear IH H.
    induction ks as [|k ks IH]; [destruct Ha|]. inversion HN as [|? ? Nk HN']; subst. cbn [flat_map filter].
    destruct (Z.eqb_spec (key a) k) as [E|N].
    + cbn [app]. constructor. apply Permutation_app_head. subst k. clear - Nk.
      induction ks as [|k ks IH]; [constructor|]. cbn [flat_map filter]. cbn [In] in Nk.
      destruct (Z.eqb_spec (key a) k) as [<-|_]; [tauto|]. apply Permutation_app_head, IH. tauto.
    + destruct Ha as [E|Ha]; [lia|]. rewrite (IH HN' Ha). symmetry. apply Permutation_middle.
Qed.

Lemma owned_all t rows : treachable t -> views_exact Rows t -> table_views Rows t = Ok rows ->
  Permutation (flat_map v_owned rows) (table_iter t).
Proof.
  intros HR HX Er. destruct (table_views_spec _ _ _ HR Er) as [HP Hrd].
  transitivity (flat_map (fun p => filter (fun c => cy (c_min c) =? p) (table_iter t)) (map v_pos rows)).
  - clear Er. revert HP Hrd. assert (HH : forall v, In v rows -> (forall i v, nth_error rows i = Some v -> v_pos v = Z.of_nat i + 1) ->
       (forall i v, nth_error rows i = Some v -> reads Rows (Z.of_nat i + 1) t v) ->
       Permutation (v_owned v) (filter (fun c => cy (c_min c) =? v_pos v) (table_iter t))).
    { intros v Hv HP Hrd. apply In_nth_error in Hv as [i Hi]. rewrite (HP i v Hi).
      destruct (HX (Z.of_nat i + 1) v ltac:(lia) (Hrd i v Hi)) as [(l & Hl & HPm) _].
      rewrite HPm. erewrite (selects_unique _ _ l); [reflexivity|exact Hl|]. apply selects_filter.
      intros c. rewrite Z.eqb_eq. reflexivity. }
    intros HP Hrd. assert (HH' : forall v, In v rows -> Permutation (v_owned v) (filter (fun c => cy (c_min c) =? v_pos v) (table_iter t))) by (intros v Hv; apply HH; assumption).
    clear - HH'. induction rows as [|v rows IH]; [constructor|]. cbn [flat_map map]. apply Permutation_app; [apply HH'; left; reflexivity|].
    apply IH. intros u Hu. apply HH'. right. exact Hu.
  - apply partition_by.
    + assert (E : map v_pos rows = zrange 1 (Z.of_nat (List.length rows) + 1)); [|rewrite E; apply NoDup_zrange].
      clear - HP. apply nth_error_ext. intros i. rewrite nth_error_zrange, nth_error_map.
      destruct (nth_error rows i) as [v|] eqn:Ei; cbn [option_map].
      * assert (i < List.length rows)%nat by (apply nth_error_Some; congruence).
        apply HP in Ei. rewrite Ei. destruct (Z.ltb_spec (Z.of_nat i) (Z.of_nat (List.length rows) + 1 - 1)); [f_equal; lia|lia].
      * apply nth_error_None in Ei. destruct (Z.ltb_spec (Z.of_nat i) (Z.of_nat (List.length rows) + 1 - 1)); [lia|reflexivity].
    + intros c Hc. destruct (count_at_least Rows t HR) as (n & m & (vs & Evs & ->) & HL & Hle).
      assert (vs = rows) by (unfold table_views in Er; congruence). subst vs.
      destruct (treachable_tinv t HR) as (og & HS & HM). pose proof (proj1 (proj1 HM)) as HV.
      assert (Hy : 1 <= cy (c_min c) <= m).
      { destruct HL as [[E _]|(bb & E & ->)]; [unfold table_iter, grid_iter in Hc; rewrite E in Hc; destruct Hc|].
        destruct (bounding_box_least _ _ HV E) as (_ & Hin & _). pose proof (proj1 (Forall_forall _ _) HV c Hc) as Vc.
        unfold c_min. cbn beta in Vc. destruct (c_box c) as [[x1 y1] [x2 y2]] eqn:Eb.
        assert (Hs : subarea (c_box c) bb) by (apply Hin, Hc).
        assert (Hc2 : covers (c_box c) (Coord x2 y2)) by (rewrite Eb; unfold covers, valid in *; cbn in *; lia).
        apply Hs in Hc2. unfold covers, valid in *. cbn in *. lia. }
      assert (Hi : nth_error rows (Z.to_nat (cy (c_min c) - 1)) <> None) by (apply nth_error_Some; lia).
      destruct (nth_error rows (Z.to_nat (cy (c_min c) - 1))) as [v|] eqn:Ei; [|congruence].
      apply in_map_iff. exists v. split; [|eapply nth_error_In, Ei]. rewrite (HP _ _ Ei). lia.
Qed.

(** ** Separators *)

Lemma sep_attr_value o st style name ts a a' w : sep_attr o st style name ts a = Ok a' -> dget a (cals o name) = None ->
  line_of st style w -> effective (as_text (dget a' (cals o name))) ts = shown w.
Proof.
  unfold sep_attr, get_sep_attr. intros H Ha Hw. pose proof (border_spec st style) as HB.
  destruct (get_border_style st style) as [[w'|]|x]; cbn [rbind] in H; [| |discriminate].
  - destruct HB as [_ HU]. apply HU in Hw. subst w'. injection H as <-. unfold shown.
    destruct (String.eqb_spec (if String.eqb w "none" then "0" else "1") ts) as [E|_]; [rewrite Ha; cbn; symmetry; exact E|].
    rewrite dget_dset_same. reflexivity.
  - destruct (HB w Hw).
Qed.

Lemma build_cell_separated o bb colsep rowsep c e : build_cell o (Some bb) colsep rowsep c = Ok e ->
  separated (co_ns o) bb colsep rowsep c e.
Proof.
  unfold build_cell. intros H.
  match type of H with rbind ?m _ = _ => destruct m as [a1|] eqn:E1; cbn [rbind] in H; [|discriminate H] end.
  match type of H with rbind ?m _ = _ => destruct m as [a2|] eqn:E2; cbn [rbind] in H; [|discriminate H] end.
  match type of H with rbind ?m _ = _ => destruct m as [a3|] eqn:E3; cbn [rbind] in H; [|discriminate H] end.
  match type of H with rbind ?m _ = _ => destruct m as [a4|] eqn:E4; cbn [rbind] in H; [|discriminate H] end.
  match type of H with rbind ?m _ = _ => destruct m as [attrs|] eqn:E5; cbn [rbind] in H; [|discriminate H] end.
  assert (G : forall n, n <> "valign"%string -> n <> "align"%string -> dget a4 (cals o n) = dget a2 (cals o n)).
  { intros n N3 N4. transitivity (dget a3 (cals o n)).
    - destruct (dget (c_styles c) "align"); [|congruence]. apply (style_map_get _ _ _ _ _ _ n E4 N4).
    - destruct (dget (c_styles c) "vertical-align"); [|congruence]. apply (style_map_get _ _ _ _ _ _ n E3 N3). }
  apply content_written in H as (_ & Ha & _ & _). unfold separated, attribute, x_get. rewrite Ha.
  rewrite <- (qname_expanded _ "colsep"), <- (qname_expanded _ "rowsep"). change (qname (co_ns o)) with (cals o).
  rewrite !(make_attrs_get _ _ _ E5). rewrite !copy_style_get by discriminate.
  assert (GW : forall n, n <> "namest"%string -> n <> "nameend"%string -> n <> "morerows"%string ->
     forall b : attrib, dget (if 1 <? c_height c then dset (if 1 <? c_width c
       then dset (dset b (cals o "namest") (SStr (String.append "c" (py_str_int (cx (c_min c)))))) (cals o "nameend") (SStr (String.append "c" (py_str_int (cx (c_max c)))))
       else b) (cals o "morerows") (SStr (py_str_int (c_height c - 1))) else (if 1 <? c_width c
       then dset (dset b (cals o "namest") (SStr (String.append "c" (py_str_int (cx (c_min c)))))) (cals o "nameend") (SStr (String.append "c" (py_str_int (cx (c_max c)))))
       else b)) (cals o n) = dget b (cals o n)).
  { intros n N1 N2 N3 b. destruct (1 <? c_height c), (1 <? c_width c); repeat rewrite dset_get by assumption; reflexivity. }
  rewrite !GW by discriminate. rewrite !G by discriminate. fold (c_max c).
  assert (G1 : dget a1 (cals o "rowsep") = None).
  { destruct (cx (c_max c) =? cx (bmax bb)); [injection E1 as <-; reflexivity|]. rewrite (sep_attr_get _ _ _ _ _ _ _ "rowsep" E1) by discriminate. reflexivity. }
  assert (G2 : dget a2 (cals o "colsep") = dget a1 (cals o "colsep")).
  { destruct (cy (c_max c) =? cy (bmax bb)); [congruence|]. apply (sep_attr_get _ _ _ _ _ _ _ "colsep" E2). discriminate. }
  rewrite G2. split; [|split; [|split]].
  - intros N w Hw. destruct (Z.eqb_spec (cx (c_max c)) (cx (bmax bb))); [contradiction|].
    eapply sep_attr_value; [exact E1|reflexivity|exact Hw].
  - intros E. rewrite E, Z.eqb_refl in E1. injection E1 as <-. reflexivity.
  - intros N w Hw. destruct (Z.eqb_spec (cy (c_max c)) (cy (bmax bb))); [contradiction|].
    eapply sep_attr_value; [exact E2|exact G1|exact Hw].
  - intros E. rewrite E, Z.eqb_refl in E2. injection E2 as <-. rewrite G1. reflexivity.
Qed.

(** ** Other facts *)

Lemma sorting_mem l : forallb (fun n => str_mem n l) default_sorting = true <->
  forall n, In n ["header"; "footer"; "body"]%string -> In n l.
Proof.
  rewrite forallb_forall. unfold default_sorting, str_mem. split; intros H n Hn; specialize (H n Hn).
  - apply existsb_exists in H as (m & Hm & E). apply String.eqb_eq in E. subst. exact Hm.
  - apply existsb_exists. exists n. split; [exact H|apply String.eqb_refl].
Qed.
Lemma sorting_ok s l : cals_sorting s = Ok l -> forall n, In n ["header"; "footer"; "body"]%string -> In n l.
Proof.
  unfold cals_sorting. set (l' := match s with [] => default_sorting | _ => s end).
  destruct (forallb (fun n => str_mem n l') default_sorting) eqn:E; [|discriminate]. intros [= <-]. apply sorting_mem, E.
Qed.

Lemma owned_members t rows c : treachable t -> table_views Rows t = Ok rows ->
  (In c (flat_map v_owned rows) <-> In c (table_iter t)).
Proof.
  intros HR Er. destruct (table_views_spec _ _ _ HR Er) as [HP Hrd]. rewrite in_flat_map. split.
  - intros (v & Hv & Hc). apply In_nth_error in Hv as [i Hi].
    destruct (view_membership Rows (Z.of_nat i + 1) t v HR ltac:(lia) (Hrd i v Hi)) as (_ & HO & _). apply HO, Hc.
  - intros Hc. destruct (count_at_least Rows t HR) as (n & m & (vs & Evs & ->) & HL & Hle).
    assert (vs = rows) by (unfold table_views in Er; congruence). subst vs.
    destruct (treachable_tinv t HR) as (og & HS & HM). pose proof (proj1 (proj1 HM)) as HV.
    assert (Hy : 1 <= cy (c_min c) <= m).
    { destruct HL as [[E _]|(bb & E & ->)]; [unfold table_iter, grid_iter in Hc; rewrite E in Hc; destruct Hc|].
      destruct (bounding_box_least _ _ HV E) as (_ & Hin & _). pose proof (proj1 (Forall_forall _ _) HV c Hc) as Vc.
      unfold c_min. cbn beta in Vc. destruct (c_box c) as [[x1 y1] [x2 y2]] eqn:Eb.
      assert (Hs : subarea (c_box c) bb) by (apply Hin, Hc).
      assert (Hc2 : covers (c_box c) (Coord x2 y2)) by (rewrite Eb; unfold covers, valid in *; cbn in *; lia).
      apply Hs in Hc2. unfold covers, valid in *. cbn in *. lia. }
    assert (Hi : nth_error rows (Z.to_nat (cy (c_min c) - 1)) <> None) by (apply nth_error_Some; lia).
    destruct (nth_error rows (Z.to_nat (cy (c_min c) - 1))) as [v|] eqn:Ei; [|congruence].
    exists v. split; [eapply nth_error_In, Ei|]. pose proof (Hrd _ _ Ei) as Hv.
    destruct (view_membership Rows _ t v HR (ltac:(lia) : 1 <= Z.of_nat (Z.to_nat (cy (c_min c) - 1)) + 1) Hv) as (_ & HO & _).
    apply HO. split; [exact Hc|]. unfold starts_at. unfold c_min in *. lia.
Qed.

(** Natures in contiguous runs *)
Lemma group_NoDup rows :
  (forall a u b v c, rows = a ++ u :: b ++ v :: c -> v_nature u = v_nature v -> forall w, In w b -> v_nature w = v_nature u) ->
  NoDup (map fst (group_by_nature rows)).
Proof.
  induction rows as [|r rows IH]; intros HC; [constructor|].
  assert (HC' : forall a u b v c, rows = a ++ u :: b ++ v :: c -> v_nature u = v_nature v -> forall w, In w b -> v_nature w = v_nature u).
  { intros a u b v c E. apply (HC (r :: a) u b v c). rewrite E. reflexivity. }
  specialize (IH HC'). pose proof (group_concat rows) as HG. pose proof (group_same rows) as HS. cbn [group_by_nature].
  destruct (group_by_nature rows) as [|[n g] groups]; [repeat constructor; intros []|].
  destruct (nature_eqb (v_nature r) n) eqn:E; [exact IH|].
  cbn [map fst]. constructor; [|exact IH]. intros Hin.
  destruct (HS (n, g) (or_introl eq_refl)) as [Hg Hgn]. cbn [fst snd] in Hg, Hgn.
  destruct Hin as [Hn|Hin].
  - cbn in Hn. subst n. rewrite (proj2 (nature_eqb_spec _ _) eq_refl) in E. discriminate.
  - apply in_map_iff in Hin as ([n' g'] & En & Hg'). cbn in En. subst n'.
    destruct (HS _ (or_intror Hg')) as [Hne Hgn']. cbn [fst snd] in Hne, Hgn'.
    apply in_split in Hg' as (l1 & l2 & ->). destruct g as [|w g]; [congruence|]. destruct g' as [|v g']; [congruence|].
    rewrite map_cons, map_app in HG. cbn [map snd List.concat] in HG. rewrite concat_app in HG. cbn [List.concat] in HG.
    assert (Hw : v_nature w = v_nature r).
    { apply (HC [] r ((w :: g) ++ List.concat (map snd l1)) v (g' ++ List.concat (map snd l2))).
      - rewrite <- HG. cbn [app]. rewrite <- app_assoc. reflexivity.
      - symmetry. apply Hgn'. left. reflexivity.
      - left. reflexivity. }
    rewrite (Hgn w (or_introl eq_refl)) in Hw. rewrite (proj2 (nature_eqb_spec _ _) (eq_sym Hw)) in E. discriminate.
Qed.

Lemma reads_cases ax p t v vs : treachable t -> 1 <= p -> reads ax p t v -> table_views ax t = Ok vs ->
  In v vs \/ v_styles v = [].
Proof.
  intros HR Hp Hv E. unfold table_views in E. unfold reads, view_get, sbind in Hv.
  destruct (views_get ax t) as [t1 [vs'|x]]; [|discriminate]. cbn in E. injection E as ->.
  unfold views_put, sbind, sget, sput, slift in Hv. cbn [snd] in Hv.
  assert (HL : p <= Z.of_nat (List.length (fit_to_size p false vs))) by (rewrite fit_length_false; lia).
  destruct (py_nth_pos (fit_to_size p false vs) p ltac:(lia)) as (v' & E1 & E2). assert (v' = v) by congruence. subst v'.
  unfold fit_to_size in E2. apply nth_error_In, in_app_iff in E2 as [H|H]; [left; exact H|]. right.
  apply in_map_iff in H as (i & <- & _). reflexivity.
Qed.
