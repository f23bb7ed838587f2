(** * Facts about the Formex builder *)
From Verif Require Import Base M_Geometry M_Xml M_Cell M_Grid M_Table M_Regex M_Str M_Units M_Builder M_Cals M_Formex.
From Verif Require Import S_Geometry S_Grid S_Table S_Units S_Builder S_Cals S_CalsParser S_Formex.
From Verif Require Import P_Geometry P_Cell P_Grid P_GridFacts P_Table P_TableStep P_TableFacts P_TableMore P_Units P_Builder P_Str P_Cals P_CalsParser P_CalsLayout P_CalsEvents.
Open Scope string_scope.
Open Scope list_scope.
Open Scope Z_scope.

Section Keys.
  Variable co : cals_opts.
  (** the names of the CALS attributes are different from the Formex ones *)
  Definition plain_key (k : string) : Prop := forall s, k <> String "{" s.
  Lemma cals_plain n k : plain_key k -> n <> k -> cals co n <> k.
  Proof.
    intros Hp Hn. unfold cals, qname. destruct (co_ns co); [intros E; symmetry in E; exact (Hp _ E)|exact Hn].
  Qed.
  Lemma sep_attr_key st style name ts a a' k : sep_attr co st style name ts a = Ok a' -> cals co name <> k -> dget a' k = dget a k.
  Proof.
    unfold sep_attr. intros H Hn. bind_any H. injection H as <-. destruct a0 as [s|]; [|reflexivity].
    destruct (String.eqb s ts); [reflexivity|]. apply dget_dset_other. congruence.
  Qed.
  Lemma copy_style_key st s name a k : name <> k -> dget (copy_style st s name a) k = dget a k.
  Proof. intros H. unfold copy_style. destruct (dget st s); [|reflexivity]. apply dget_dset_other. congruence. Qed.
  Lemma style_map_key d v name a a' k : (s <-? style_lookup d v ;; Ok (dset a (cals co name) (SStr s))) = Ok a' -> cals co name <> k ->
    dget a' k = dget a k.
  Proof. intros H Hn. bind_any H. injection H as <-. apply dget_dset_other. congruence. Qed.
  Lemma opt_style_key d st sk name a a' k :
    match dget st sk with
    | Some v => s <-? style_lookup d v ;; Ok (dset a (cals co name) (SStr s))
    | None => Ok a
    end = Ok a' -> cals co name <> k -> dget a' k = dget a k.
  Proof. destruct (dget st sk); [apply style_map_key|intros [= <-] _; reflexivity]. Qed.
End Keys.

Lemma fmx_empty_spec c : fmx_empty c = true <-> shown_empty c.
Proof.
  unfold fmx_empty, shown_empty. rewrite orb_true_iff. split.
  - intros [H|H].
    + left. destruct (dget (c_styles c) "x-cell-empty") as [[s| | |]|]; try discriminate.
      apply String.eqb_eq in H. congruence.
    + right. destruct (c_content c) as [|s| | | |]; try discriminate; [left; reflexivity|]. destruct s; [right; reflexivity|discriminate].
  - intros [-> | [-> | ->]]; auto.
Qed.

Section Cells.
  Variable o : fmx_opts.
  Let co := fo_cals o.

  Definition fmx_name (k : string) : Prop := In k ["COL"; "COLSPAN"; "ROWSPAN"; "TYPE"].
  Lemma fmx_other k n : fmx_name k -> ~ fmx_name n -> cals co n <> k.
  Proof.
    intros Hk Hn. apply cals_plain; [|intros ->; contradiction].
    intros s ->. cbn in Hk. repeat (destruct Hk as [Hk|Hk]; [discriminate Hk|]). destruct Hk.
  Qed.
  Ltac other := first [apply fmx_other | apply not_eq_sym, fmx_other]; [assumption|cbn; intuition discriminate].

  Lemma cell_cals_key bb cs rs c a a' k : cell_cals_attrs o bb cs rs c a = Ok a' -> fmx_name k ->
    dget a' k = match (if String.eqb k "TYPE" then dget (c_styles c) "cellstyle" else None) with Some v => Some v | None => dget a k end.
  Proof.
    unfold cell_cals_attrs. intros H Hk. bind H as bb' E0. destruct bb' as [b|]; [|discriminate].
    bind H as a1 E1. bind H as a2 E2. bind H as a3 E3. bind H as a4 E4. injection H as <-.
    assert (G : dget a4 k = dget a k).
    { transitivity (dget a3 k); [eapply opt_style_key; [exact E4|other]|].
      transitivity (dget a2 k); [eapply opt_style_key; [exact E3|other]|].
      transitivity (dget a1 k).
      - destruct (cy (c_max c) =? cy (bmax b)); [congruence|]. eapply sep_attr_key; [exact E2|other].
      - destruct (cx (c_max c) =? cx (bmax b)); [congruence|]. eapply sep_attr_key; [exact E1|other]. }
    set (x := copy_style (c_styles c) "background-color" _ _).
    assert (X : dget x k = dget a k).
    { unfold x. rewrite copy_style_key by other. rewrite <- G.
      destruct (1 <? c_height c); [rewrite dget_dset_other by other|];
        (destruct (1 <? c_width c); [rewrite !dget_dset_other by other|]; reflexivity). }
    rewrite <- X. clearbody x. unfold copy_style.
    destruct (String.eqb_spec k "TYPE") as [->|N].
    - destruct (dget (c_styles c) "cellstyle"); [apply dget_dset_same|reflexivity].
    - destruct (dget (c_styles c) "cellstyle"); [apply dget_dset_other; congruence|reflexivity].
  Qed.

  Lemma nature_differs_spec a b : nature_differs a b =
    negb match a, b with
         | None, _ => true | Some "", _ => true
         | Some a, Some b => String.eqb a b
         | Some _, None => false
         end.
  Proof. destruct a as [[|x s]|]; cbn; [reflexivity| |reflexivity]. destruct b; reflexivity. Qed.

  Lemma cell_types_spec n t : lookup CELL_TYPES (ostr n) = Ok t -> nature_differs n None = true ->
    (n = Some "header" /\ t = "HEADER") \/ (n = Some "body" /\ t = "NORMAL") \/ (n = Some "footer" /\ t = "__GR.NOTES__").
  Proof.
    intros H Hd. destruct n as [s|]; [|discriminate]. cbn [ostr] in H. unfold lookup, CELL_TYPES in H. cbn [dget] in H.
    destruct (String.eqb_spec s "header") as [->|]; [left; split; congruence|].
    destruct (String.eqb_spec s "body") as [->|]; [right; left; split; congruence|].
    destruct (String.eqb_spec s "footer") as [->|]; [right; right; split; congruence|]. discriminate.
  Qed.

  Lemma build_fcell_spec bb cs rs row c e : build_fcell o bb cs rs row c = Ok e ->
    describes_fcell c e /\ cell_type (fo_use_cals o) (v_nature row) c (x_get e "TYPE").
  Proof.
    unfold build_fcell. intros H. bind H as a1 E1.
    set (a2 := if 1 <? c_width c then _ else a1) in H.
    set (a3 := if 1 <? c_height c then _ else a2) in H.
    bind H as a4 E4. bind H as attrs E5.
    assert (HA : x_tag e = Some "CELL" /\ x_attrs e = attrs /\ x_tail e = None /\
       (shown_empty c -> x_text e = None /\ x_children e = [XElem "IE" [] None [] None]) /\
       (~ shown_empty c -> elem_pieces e = content_pieces (c_content c))).
    { destruct (fmx_empty c) eqn:Ee.
      - injection H as <-. apply fmx_empty_spec in Ee. split; [reflexivity|]. split; [reflexivity|]. split; [reflexivity|].
        split; [intros _; split; reflexivity|contradiction].
      - assert (N : ~ shown_empty c) by (rewrite <- fmx_empty_spec; congruence).
        apply content_written in H as (Ht & Ha & Hl & Hp). split; [exact Ht|]. split; [exact Ha|]. split; [exact Hl|]. split; [contradiction|intros _; exact Hp]. }
    destruct HA as (Ht & Ha & Hl & HE & HN).
    assert (G : forall k, x_get e k = as_text (dget a4 k)) by (intros k; unfold x_get; rewrite Ha; apply (make_attrs_get _ _ _ E5)).
    assert (G4 : forall k, fmx_name k -> k <> "TYPE" -> dget a4 k = dget a3 k).
    { intros k Hk Nt. destruct (fo_use_cals o); [|congruence]. rewrite (cell_cals_key _ _ _ _ _ _ _ E4 Hk).
      destruct (String.eqb_spec k "TYPE"); [contradiction|reflexivity]. }
    assert (G1 : forall k, k <> "TYPE" -> dget a1 k = dget [("COL", SStr (py_str_int (cx (c_min c))))] k).
    { intros k Nt. destruct (nature_differs _ _); [|congruence]. bind E1 as t Et. injection E1 as <-. cbn [dget].
      destruct (String.eqb k "COL"); [reflexivity|]. destruct (String.eqb_spec k "TYPE"); [contradiction|reflexivity]. }
    split.
    - split; [exact Ht|]. split; [exact Hl|]. split; [|split; assumption].
      rewrite !G, !G4 by (discriminate || (cbn; tauto)). unfold a3, a2.
      unfold c_width, c_height, c_max, c_min, box_width, box_height in *.
      destruct (c_box c) as [[x1 y1] [x2 y2]]. cbn [bmin bmax cx cy] in *.
      destruct (Z.ltb_spec 1 (x2 - x1 + 1)); destruct (Z.ltb_spec 1 (y2 - y1 + 1));
        repeat first [rewrite dget_dset_same | rewrite dget_dset_other by discriminate]; rewrite ?G1 by discriminate; cbn [dget String.eqb Ascii.eqb Bool.eqb as_text];
        (split; [reflexivity|]); (split; [intros; try lia; reflexivity|]); (split; [intros; try lia; reflexivity|]); (split; intros; try lia; reflexivity).
    - rewrite G. unfold cell_type.
      assert (G3 : dget a3 "TYPE" = dget a1 "TYPE").
      { unfold a3, a2. destruct (1 <? c_height c); [rewrite dget_dset_other by discriminate|];
          (destruct (1 <? c_width c); [rewrite dget_dset_other by discriminate|]; reflexivity). }
      assert (GT : dget a4 "TYPE" = match (if fo_use_cals o then dget (c_styles c) "cellstyle" else None) with Some v => Some v | None => dget a1 "TYPE" end).
      { destruct (fo_use_cals o); [|congruence]. rewrite (cell_cals_key _ _ _ _ _ _ _ E4) by (cbn; tauto). cbn [String.eqb Ascii.eqb Bool.eqb]. rewrite G3. reflexivity. }
      rewrite GT. destruct (if fo_use_cals o then dget (c_styles c) "cellstyle" else None) as [v|] eqn:Ev.
      + assert (Hv : exists s, v = SStr s).
        { assert (Hi' : In ("TYPE", v) a4).
          { clear -GT. induction a4 as [|[k w] a IH]; [discriminate GT|]. cbn [dget] in GT.
            destruct (String.eqb_spec "TYPE" k) as [<-|]; [left; congruence|right; apply IH, GT]. }
          clear -E5 Hi'. revert attrs E5. induction a4 as [|[k w] a IH]; intros attrs E5; [destruct Hi'|].
          cbn [make_attrs] in E5. destruct w as [s| | |]; try discriminate. bind E5 as r Er.
          destruct Hi' as [Hi'|Hi']; [injection Hi' as _ <-; eauto|]. apply (IH Hi' _ eq_refl). }
        destruct Hv as [s ->]. exists s. split; reflexivity.
      + rewrite nature_differs_spec in E1. destruct (match c_nature c with None => true | Some _ => _ end) eqn:Em; cbn [negb] in E1.
        * injection E1 as <-. reflexivity.
        * bind E1 as t Et. injection E1 as <-. cbn [dget String.eqb Ascii.eqb Bool.eqb as_text].
          assert (Hd : nature_differs (c_nature c) None = true).
          { rewrite nature_differs_spec. destruct (c_nature c) as [[|x s]|]; try discriminate. reflexivity. }
          destruct (cell_types_spec _ _ Et Hd) as [[A B]|[[A B]|[A B]]]; subst t; auto.
  Qed.

  Definition fbuilt bb cs rs row (c : cell) (e : xnode) : Prop := build_fcell o bb cs rs row c = Ok e.

  Lemma row_type_spec n : as_text (dget (row_type_attr n []) "TYPE") = row_type n.
  Proof.
    destruct n as [s|]; [|reflexivity]. unfold row_type, row_type_attr.
    destruct (String.eqb s "header"); [reflexivity|]. destruct (String.eqb s "footer"); reflexivity.
  Qed.

  Lemma build_frow_spec bb cs rs v items : build_frow o bb cs rs v = Ok items -> describes_frow (fo_use_cals o) v items.
  Proof.
    unfold build_frow. intros H. bind H as a E1. bind H as start E3. bind H as attrs E4.
    bind H as finish E5. bind H as cells E6. injection H as <-.
    exists (XElem "ROW" attrs None cells None). split; [reflexivity|]. split; [reflexivity|]. split; [reflexivity|].
    split; [|split].
    - unfold x_get. cbn [x_attrs]. rewrite (make_attrs_get _ _ _ E4), <- row_type_spec. f_equal.
      destruct (fo_use_cals o); [|congruence]. unfold row_cals_attrs in E1.
      assert (Hk : fmx_name "TYPE") by (cbn; tauto).
      bind E1 as a1 F1. bind E1 as a2 F2. injection E1 as <-.
      rewrite !copy_style_key by other. rewrite (sep_attr_key _ _ _ _ _ _ _ _ F2) by other.
      eapply opt_style_key; [exact F1|other].
    - apply rmap_Forall2 in E6. eapply Forall2_impl_l; [|exact E6]. intros c e _ Hc. cbn in Hc |- *. eapply build_fcell_spec, Hc.
    - unfold dmem in *. destruct (dget (v_styles v) "x-ins") as [x|].
      + unfold revision_mark in *. bind E3 as p1 F1. bind F1 as q1 F2. injection F1 as <-. injection E3 as <-.
        bind E5 as p2 F3. bind F3 as q2 F4. injection F3 as <-. injection E5 as <-. eexists. eexists. reflexivity.
      + injection E3 as <-. injection E5 as <-. reflexivity.
  Qed.
End Cells.

(** ** Titles *)

Lemma nodes_of_spec l ns : nodes_of l = Ok ns -> l = map CNode ns.
Proof.
  revert ns. induction l as [|c l IH]; intros ns H; cbn in H; [injection H as <-; reflexivity|].
  destruct c; try discriminate. bind H as r Er. injection H as <-. cbn. f_equal. apply IH. reflexivity.
Qed.
Lemma paragraphs_spec l parts : title_paragraphs l = Ok parts ->
  exists p ps, parts = [XElem "TI" [] None [p] None; XElem "STI" [] None ps None] /\ l = map CNode (p :: ps).
Proof.
  destruct l as [|c l]; [discriminate|]. cbn [title_paragraphs]. intros H. bind H as n En. bind H as ns Es. injection H as <-.
  apply nodes_of_spec in Es. destruct c; cbn in En; try discriminate. injection En as <-. exists n0, ns. split; [reflexivity|].
  cbn. rewrite Es. reflexivity.
Qed.
Lemma map_CNode_inj l m : map CNode l = map CNode m -> l = m.
Proof. revert m. induction l as [|a l IH]; intros [|b m] H; try discriminate; [reflexivity|]. cbn in H. injection H as -> H. f_equal. auto. Qed.
Lemma build_title_cell_spec c parts : build_title_cell c = Ok parts -> title_cell c parts.
Proof.
  unfold build_title_cell, title_cell. destruct (fmx_empty c) eqn:E.
  - apply fmx_empty_spec in E. intros [= <-]. split; [|reflexivity]. destruct (c_content c); auto.
  - assert (N : ~ shown_empty c) by (rewrite <- fmx_empty_spec; congruence). intros H. split; [|contradiction].
    destruct (c_content c) as [|s| |l|n|]; try discriminate.
    + injection H as <-. right. reflexivity.
    + right. apply paragraphs_spec in H. exact H.
    + right. apply paragraphs_spec in H as (p & ps & -> & E'). exists p, ps. split; [reflexivity|]. apply map_CNode_inj, E'.
Qed.
Lemma build_title_spec v e : build_title v = Ok e -> describes_title v e.
Proof.
  unfold build_title. intros H. bind H as l El. injection H as <-. exists l. split; [reflexivity|].
  apply rmap_Forall2 in El. eapply Forall2_impl_l; [|exact El]. intros c p _. apply build_title_cell_spec.
Qed.

Lemma getitem_first g k c : grid_getitem_c g k = Ok c <->
  exists a b, g = a ++ c :: b /\ covers (c_box c) k /\ forall d, In d a -> ~ covers (c_box d) k.
Proof.
  induction g as [|d g IH]; cbn [grid_getitem_c].
  - split; [discriminate|]. intros (a & b & E & _). destruct a; discriminate.
  - destruct (box_has (c_box d) k) eqn:Eb.
    + apply box_has_covers in Eb. split.
      * intros [= <-]. exists [], g. split; [reflexivity|]. split; [exact Eb|]. intros x [].
      * intros (a & b & E & Hc & Ha). destruct a as [|x a]; cbn in E; [congruence|]. injection E as <- _.
        destruct (Ha d (or_introl eq_refl) Eb).
    + assert (N : ~ covers (c_box d) k) by (rewrite <- box_has_covers; congruence). rewrite IH. split.
      * intros (a & b & -> & Hc & Ha). exists (d :: a), b. split; [reflexivity|]. split; [exact Hc|]. intros x [<-|Hx]; auto.
      * intros (a & b & E & Hc & Ha). destruct a as [|x a]; cbn in E; injection E as <- E; [contradiction|].
        exists a, b. split; [exact E|]. split; [exact Hc|]. intros x Hx. apply Ha. right. exact Hx.
Qed.

Lemma is_centred_spec c : is_centred c = true <-> dget (c_styles c) "align" = Some (SStr "center").
Proof.
  unfold is_centred. destruct (dget (c_styles c) "align") as [[s| | |]|]; try (split; discriminate).
  rewrite String.eqb_eq. split; congruence.
Qed.

Lemma split_title_spec o t rows tr : treachable t -> split_title o t rows = Ok tr ->
  if fo_titles o
  then (has_title t /\ exists title first others, rows = first :: others /\ fst tr = [title] /\ snd tr = others /\ describes_title first title) \/
       (~ has_title t /\ fst tr = [] /\ snd tr = rows)
  else fst tr = [] /\ snd tr = rows.
Proof.
  intros HR. unfold split_title. destruct (fo_titles o); [|intros [= <-]; split; reflexivity].
  intros H. bind H as c Ec. bind H as bb Eb. destruct bb as [bb|]; [|discriminate].
  unfold table_getitem, grid_getitem in Ec. cbn [coord_from_value rbind] in Ec.
  assert (Ec' : grid_getitem_c (t_grid t) (Coord 1 1) = Ok c) by exact Ec. clear Ec. 
  destruct (treachable_tinv t HR) as (og & HS & HM).
  assert (HV : all_valid (t_grid t)) by apply HM.
  assert (HB : bounds (table_iter t) bb) by (apply (bounding_box_least _ _ HV Eb)).
  destruct ((c_width c =? box_width bb)%Z && is_centred c) eqn:Et.
  - apply andb_true_iff in Et as [Ew Ea]. apply Z.eqb_eq in Ew. apply is_centred_spec in Ea.
    destruct rows as [|r rows']; [discriminate|]. bind H as title Etl. injection H as <-. left. split.
    + apply getitem_first in Ec' as (a & b & Eg & Hc & Ha). exists c, a, b, bb.
      split; [exact Eg|]. split; [exact Hc|]. split; [exact Ha|]. split; [exact HB|]. split; [|exact Ea].
      unfold c_width, box_width in Ew. lia.
    + exists title, r, rows'. split; [reflexivity|]. split; [reflexivity|]. split; [reflexivity|]. apply build_title_spec, Etl.
  - injection H as <-. right. split; [|split; reflexivity]. intros (c' & a & b & bb' & Eg & Hc & Ha & HB' & Ew & Ea).
    assert (Ec2 : grid_getitem_c (t_grid t) (Coord 1 1) = Ok c') by (apply getitem_first; exists a, b; split; [exact Eg|split; assumption]).
    rewrite Ec' in Ec2. injection Ec2 as <-. assert (bb' = bb) as -> by (eapply bounds_fun; eassumption).
    apply is_centred_spec in Ea. rewrite Ea, andb_true_r in Et. apply Z.eqb_neq in Et. apply Et. unfold c_width, box_width. lia.
Qed.

(** ** The whole tree *)

Lemma build_corpus_spec o t l : treachable t -> build_corpus o t = Ok l ->
  exists cols rows tr corpus, table_views Rows t = Ok rows /\ split_title o t rows = Ok tr /\ l = fst tr ++ [corpus] /\
    table_views Cols t = Ok cols /\
    describes_corpus (fo_use_cals o) (co_ns (fo_cals o)) (Z.of_nat (List.length cols)) (snd tr) corpus.
Proof.
  intros HR. unfold build_corpus. intros H. bind H as rows Er. bind H as tr Et. bind H as cra Ea.
  destruct cra as [[cs rs] a]. bind H as attrs Em. bind H as specs Es. bind H as items Ei. injection H as <-.
  destruct (table_views_total Cols t HR) as [cols Ec].
  exists cols, rows, tr. eexists. split; [reflexivity|]. split; [exact Et|]. split; [reflexivity|]. split; [exact Ec|].
  split; [reflexivity|]. split; [reflexivity|]. split; [reflexivity|]. exists specs, items. split; [reflexivity|]. split.
  - destruct (fo_use_cals o); [|congruence]. rewrite Ec in Es. cbn [rbind] in Es.
    apply Forall2_positions; [apply (table_views_spec _ _ _ HR Ec)|]. apply rmap_Forall2 in Es.
    eapply Forall2_impl_l; [|exact Es]. intros v e _. apply build_colspec_spec.
  - apply rmap_Forall2 in Ei. eapply Forall2_impl_l; [|exact Ei]. intros v e _. apply build_frow_spec.
Qed.

Lemma page_size_key st a a' k : page_size st a = Ok a' -> k <> "PAGE.SIZE" -> dget a' k = dget a k.
Proof.
  unfold page_size. intros H Hk. destruct (dget st "x-sect-orient") as [orient|]; [|congruence].
  bind H as wh E. destruct wh as [w h]. injection H as <-.
  assert (G : forall x, dget (dset a "PAGE.SIZE" x) k = dget a k) by (intros x; apply dget_dset_other; congruence).
  destruct orient as [s| | |]; try reflexivity.
  destruct (String.eqb s "landscape"); [apply G|]. destruct (String.eqb s "portrait" && _); [apply G|reflexivity].
Qed.

Lemma generate_tbl_spec o n t e : treachable t -> generate_tbl o n t = Ok e ->
  exists cols rows, view_count Cols t cols /\ table_views Rows t = Ok rows /\ x_get e "NO.SEQ" = Some (format04 n) /\
    describes_tbl (fo_use_cals o) (fo_titles o) (co_ns (fo_cals o)) t cols rows e.
Proof.
  intros HR. unfold generate_tbl. intros H. bind H as cols Ec. bind H as a Ea. bind H as attrs Em. bind H as ch Eh. injection H as <-.
  destruct (build_corpus_spec _ _ _ HR Eh) as (cols' & rows & tr & corpus & Er & Et & -> & Ec' & HD).
  rewrite Ec in Ec'. injection Ec' as <-.
  exists (Z.of_nat (List.length cols)), rows. split; [exists cols; split; [exact Ec|reflexivity]|]. split; [exact Er|].
  assert (G : forall k, k <> "PAGE.SIZE" -> dget attrs k = as_text (dget [("NO.SEQ", SStr (format04 n)); ("COLS", SStr (py_str_int (Z.of_nat (List.length cols))))] k)).
  { intros k Hk. rewrite (make_attrs_get _ _ _ Em), (page_size_key _ _ _ k Ea Hk). reflexivity. }
  unfold x_get. cbn [x_attrs]. rewrite G by discriminate. split; [reflexivity|].
  split; [reflexivity|]. split; [reflexivity|]. split; [reflexivity|]. split; [unfold x_get; cbn [x_attrs]; rewrite G by discriminate; reflexivity|].
  exists corpus. cbn [x_children]. pose proof (split_title_spec _ _ _ _ HR Et) as HT. destruct (fo_titles o).
  - destruct HT as [(H1 & title & first & others & -> & E1 & E2 & H2)|(H1 & E1 & E2)]; rewrite E1 in *; rewrite E2 in HD.
    + left. split; [exact H1|]. exists title, first, others. auto.
    + right. auto.
  - destruct HT as (E1 & E2). rewrite E1 in *. rewrite E2 in HD. auto.
Qed.

(** ** The cells *)

Lemma colspec_not_row ns : expanded ns "colspec" <> "ROW".
Proof. destruct ns; discriminate. Qed.
Lemma specs_rows ns l specs : Forall2 (describes_column ns) l specs -> filter (fun e => x_has_tag e "ROW") specs = [].
Proof.
  intros F. induction F as [|i e l m (Hn & _) _ IH]; [reflexivity|]. cbn [filter]. rewrite IH.
  unfold named in Hn. destruct e as [tag at' tx ch tl| |]; try discriminate. injection Hn as ->. cbn [x_has_tag].
  destruct (String.eqb_spec "ROW" (expanded ns "colspec")) as [E|_]; [|reflexivity]. exfalso. apply (colspec_not_row ns). auto.
Qed.
Lemma tag_has e t : x_tag e = Some t -> x_has_tag e t = true.
Proof. destruct e; cbn; [|discriminate|discriminate]. intros [= ->]. apply String.eqb_refl. Qed.

Lemma frows_cells uc rows items : Forall2 (describes_frow uc) rows items ->
  Forall2 describes_fcell (flat_map v_owned rows)
    (children_named "CELL" (filter (fun e => x_has_tag e "ROW") (List.concat items))).
Proof.
  intros F. unfold children_named. induction F as [|v it rows items Hv F IH]; [constructor|]. cbn [flat_map List.concat].
  rewrite filter_app, flat_map_app, filter_app. apply Forall2_app; [|exact IH]. clear IH F.
  destruct Hv as (row & Hn & _ & _ & _ & HC & Hi).
  assert (E : filter (fun e => x_has_tag e "ROW") it = [row]).
  { pose proof (tag_has row "ROW" Hn) as Ht. destruct (dget (v_styles v) "x-ins").
    - destruct Hi as (a & b & ->). cbn [filter x_has_tag]. rewrite Ht. reflexivity.
    - subst it. cbn [filter]. rewrite Ht. reflexivity. }
  rewrite E. cbn [flat_map]. rewrite app_nil_r. clear E Hi Hn.
  induction HC as [|c e l m [Hc _] _ IH]; [constructor|]. cbn [filter]. rewrite (tag_has e "CELL" (proj1 Hc)). constructor; assumption.
Qed.
Lemma corpus_cells uc ns cols rows corpus : describes_corpus uc ns cols rows corpus ->
  Forall2 describes_fcell (flat_map v_owned rows) (children_named "CELL" (children_named "ROW" [corpus])).
Proof.
  intros (_ & _ & _ & specs & items & Ech & Hs & HF). unfold children_named at 2. cbn [flat_map]. rewrite app_nil_r, Ech, filter_app.
  replace (filter (fun e => x_has_tag e "ROW") specs) with (@nil xnode); [apply (frows_cells uc), HF|].
  destruct uc; [symmetry; apply (specs_rows _ _ _ Hs)|subst; reflexivity].
Qed.
Lemma tbl_cells_spec uc titles ns t cols rows e : describes_tbl uc titles ns t cols rows e ->
  exists rows', (rows' = rows \/ (titles = true /\ has_title t /\ exists r, rows = r :: rows')) /\
    Forall2 describes_fcell (flat_map v_owned rows') (tbl_cells e).
Proof.
  intros (_ & _ & _ & _ & corpus & H).
  assert (X : exists rows', (rows' = rows \/ (titles = true /\ has_title t /\ exists r, rows = r :: rows')) /\ describes_corpus uc ns cols rows' corpus /\
    (x_children e = [corpus] \/ exists title, x_children e = [title; corpus] /\ x_tag title = Some "TITLE")).
  { destruct titles.
    - destruct H as [(HT & title & first & others & -> & Ech & HD & HC)|(_ & Ech & HC)].
      + exists others. split; [right; eauto|]. split; [exact HC|]. right. exists title. split; [exact Ech|].
        destruct HD as (parts & -> & _). reflexivity.
      + exists rows. auto.
    - destruct H as [Ech HC]. exists rows. auto. }
  destruct X as (rows' & Hr & HC & Hch). exists rows'. split; [exact Hr|]. unfold tbl_cells.
  replace (children_named "CORPUS" [e]) with [corpus]; [apply (corpus_cells _ _ _ _ _ HC)|].
  pose proof (tag_has corpus "CORPUS" (proj1 HC)) as Ht. unfold children_named. cbn [flat_map]. rewrite app_nil_r.
  destruct Hch as [-> | (title & -> & Htt)]; cbn [filter]; rewrite Ht; [reflexivity|].
  destruct title; try discriminate. injection Htt as ->. reflexivity.
Qed.

(** ** Success *)

Ltac rewb E := match goal with |- context [rbind ?m _] => match type of E with _ = ?r => replace m with r by (symmetry; exact E) end end; cbn [rbind].

Lemma cell_cals_total o bb b colsep rowsep c a : cell_ready c -> bb = Ok (Some b) -> all_text a ->
  exists a', cell_cals_attrs o bb colsep rowsep c a = Ok a' /\ all_text a'.
Proof.
  intros (HW & H1 & H2 & H3 & H4 & H5 & H6) -> Ha. unfold cell_cals_attrs. cbn [rbind].
  assert (X1 : exists a', (if cx (c_max c) =? cx (bmax b) then Ok a else sep_attr (fo_cals o) (c_styles c) "border-right" "colsep" colsep a) = Ok a' /\ all_text a').
  { destruct (cx (c_max c) =? cx (bmax b)); [eauto|]. apply sep_attr_total; assumption. }
  destruct X1 as (a1 & Ea1 & A1). rewb Ea1.
  assert (X2 : exists a', (if cy (c_max c) =? cy (bmax b) then Ok a1 else sep_attr (fo_cals o) (c_styles c) "border-bottom" "rowsep" rowsep a1) = Ok a' /\ all_text a').
  { destruct (cy (c_max c) =? cy (bmax b)); [eauto|]. apply sep_attr_total; assumption. }
  destruct X2 as (a2 & Ea2 & A2). rewb Ea2.
  destruct (style_map_total _ _ _ _ "valign" a2 (fo_cals o) cell_valigns_known H4 A2) as (a3 & Ea3 & A3). rewb Ea3.
  destruct (style_map_total _ _ _ _ "align" a3 (fo_cals o) aligns_known H3 A3) as (a4 & Ea4 & A4). rewb Ea4.
  eexists. split; [reflexivity|]. apply all_text_copy; [|exact H6]. apply all_text_copy; [|exact H5].
  destruct (1 <? c_height c); [apply all_text_dset|]; (destruct (1 <? c_width c); [apply all_text_dset, all_text_dset|]; exact A4).
Qed.
Lemma build_fcell_total o bb b colsep rowsep row c : fcell_ready c -> (fo_use_cals o = true -> cell_ready c) -> bb = Ok (Some b) ->
  exists e, build_fcell o bb colsep rowsep row c = Ok e.
Proof.
  intros [HW HN] HC Hb. unfold build_fcell.
  set (a0 := [("COL", SStr (py_str_int (cx (c_min c))))]).
  assert (A0 : all_text a0) by (intros k x [[= <- <-]|[]]; eexists; reflexivity).
  assert (X : exists a, (if nature_differs (c_nature c) (v_nature row) then t <-? lookup CELL_TYPES (ostr (c_nature c)) ;; Ok (dset a0 "TYPE" (SStr t)) else Ok a0) = Ok a /\ all_text a).
  { destruct (nature_differs (c_nature c) (v_nature row)) eqn:E; [|eauto].
    destruct HN as [N|[N|[N|[N|N]]]]; rewrite N in *; try discriminate; eexists; (split; [reflexivity|]); apply all_text_dset, A0. }
  destruct X as (a1 & Ea1 & A1). rewb Ea1.
  set (a2 := if 1 <? c_width c then _ else _). assert (A2 : all_text a2) by (subst a2; destruct (1 <? c_width c); [apply all_text_dset|]; exact A1).
  set (a3 := if 1 <? c_height c then _ else _). assert (A3 : all_text a3) by (subst a3; destruct (1 <? c_height c); [apply all_text_dset|]; exact A2).
  assert (X : exists a, (if fo_use_cals o then cell_cals_attrs o bb colsep rowsep c a3 else Ok a3) = Ok a /\ all_text a).
  { destruct (fo_use_cals o); [|eauto]. eapply cell_cals_total; eauto. }
  destruct X as (a4 & Ea4 & A4). rewb Ea4.
  destruct (make_attrs_total _ A4) as [attrs ->]. cbn [rbind].
  destruct (fmx_empty c) eqn:Ee; [eexists; reflexivity|].
  destruct HW as [HW|HW]; [apply fmx_empty_spec in HW; congruence|].
  unfold append_cell_elements. pose proof (append_elements_spec (c_content c)) as H.
  destruct (append_elements (c_content c) (None, [])) as [tc|x]; [eexists; reflexivity|destruct H; contradiction].
Qed.
Lemma build_frow_total o bb colsep rowsep v :
  text_or_absent (v_styles v) "x-ins-author" -> text_or_absent (v_styles v) "x-ins-date" ->
  (fo_use_cals o = true -> row_ready v /\ text_or_absent (v_styles v) "background-color") ->
  (forall c, In c (v_owned v) -> fcell_ready c /\ (fo_use_cals o = true -> cell_ready c)) ->
  (v_owned v <> [] -> exists b, bb = Ok (Some b)) ->
  exists items, build_frow o bb colsep rowsep v = Ok items.
Proof.
  intros H4 H5 HRC HC HB. unfold build_frow.
  set (a0 := row_type_attr (v_nature v) []).
  assert (A0 : all_text a0).
  { subst a0. unfold row_type_attr. destruct (v_nature v) as [s|]; [|apply all_text_nil].
    destruct (String.eqb s "header"); [apply all_text_dset, all_text_nil|]. destruct (String.eqb s "footer"); [apply all_text_dset|]; apply all_text_nil. }
  assert (X : exists a, (if fo_use_cals o then row_cals_attrs o rowsep (v_styles v) a0 else Ok a0) = Ok a /\ all_text a).
  { destruct (fo_use_cals o); [|eauto]. destruct (HRC eq_refl) as [(H1 & H2 & H3 & _) Hbg]. unfold row_cals_attrs.
    destruct (style_map_total _ _ _ _ "valign" a0 (fo_cals o) valigns_known H2 A0) as (a1 & Ea1 & A1). rewb Ea1.
    destruct (sep_attr_total (fo_cals o) (v_styles v) "border-bottom" "rowsep" rowsep a1 H1 A1) as (a2 & Ea2 & A2). rewb Ea2.
    eexists. split; [reflexivity|]. apply all_text_copy; [|exact Hbg]. apply all_text_copy; [exact A2|exact H3]. }
  destruct X as (a1 & Ea1 & A1). rewb Ea1.
  set (r1 := match dget (v_styles v) "x-ins-id" with Some x => _ | None => _ end).
  assert (R1 : all_text r1).
  { assert (all_text [("type"%string, SStr "row:insertion")]) by (intros k x [[= <- <-]|[]]; eexists; reflexivity).
    subst r1. destruct (dget (v_styles v) "x-ins-id"); [apply all_text_dset|]; assumption. }
  assert (X : exists l, (if dmem (v_styles v) "x-ins" then pi <-? revision_mark "change-start" (copy_style (v_styles v) "x-ins-date" "date" (copy_style (v_styles v) "x-ins-author" "creator" r1)) ;; Ok [pi] else Ok []) = Ok l).
  { destruct (dmem (v_styles v) "x-ins"); [|eexists; reflexivity]. unfold revision_mark.
    match goal with |- context [make_attrs ?a] => assert (A : all_text a) by (apply all_text_copy; [apply all_text_copy|]; assumption) end.
    destruct (make_attrs_total _ A) as [m ->]. eexists. reflexivity. }
  destruct X as [l1 ->]. cbn [rbind]. destruct (make_attrs_total _ A1) as [attrs ->]. cbn [rbind].
  assert (X : exists l, (if dmem (v_styles v) "x-ins" then pi <-? revision_mark "change-end" r1 ;; Ok [pi] else Ok []) = Ok l).
  { destruct (dmem (v_styles v) "x-ins"); [|eexists; reflexivity]. unfold revision_mark.
    destruct (make_attrs_total _ R1) as [m ->]. eexists. reflexivity. }
  destruct X as [l2 ->]. cbn [rbind].
  destruct (rmap_total (build_fcell o bb colsep rowsep v) (v_owned v)) as [m ->]; [|eexists; reflexivity].
  intros c Hc. destruct HB as [b Hb]; [intros E; rewrite E in Hc; destruct Hc|].
  eapply build_fcell_total; [apply (HC c Hc)|apply (HC c Hc)|exact Hb].
Qed.
Lemma corpus_attrs_total o t : In (co_unit (fo_cals o)) unit_names -> (fo_use_cals o = true -> styles_ready (t_styles t)) ->
  exists colsep rowsep a, corpus_attrs o t = Ok (colsep, rowsep, a) /\ all_text a.
Proof.
  intros HU HS. unfold corpus_attrs. destruct (fo_use_cals o); [|do 3 eexists; split; [reflexivity|apply all_text_nil]].
  destruct (HS eq_refl) as (S1 & S2 & S3 & S4 & S5 & S6).
  pose proof (frame_spec (t_styles t)) as HF. destruct (get_frame_attr (t_styles t)) as [frame|x]; [|destruct HF as [_ [s Hs]]; destruct (Hs (S1 s))].
  cbn [rbind]. destruct (table_sep_total _ _ S2) as [cs Ecs]. destruct (table_sep_total _ _ S3) as [rs Ers]. rewrite Ecs, Ers. cbn [rbind].
  set (a0 := nature_attr _ _ _ _).
  assert (A0 : all_text a0).
  { subst a0. unfold nature_attr.
    assert (X : all_text [(cals (fo_cals o) "frame", SStr frame); (cals (fo_cals o) "colsep", SStr cs); (cals (fo_cals o) "rowsep", SStr rs)])
      by (intros k x [[= <- <-]|[[= <- <-]|[[= <- <-]|[]]]]; eexists; reflexivity).
    destruct (t_nature t); [apply all_text_dset|]; exact X. }
  destruct (style_map_total _ _ _ _ "orient" a0 (fo_cals o) orients_known S4 A0) as (a1 & Ea1 & A1). rewb Ea1.
  set (a2 := match dget (t_styles t) "x-sect-cols" with Some v => _ | None => _ end).
  assert (A2 : all_text a2) by (subst a2; destruct (dget (t_styles t) "x-sect-cols"); [apply all_text_dset|]; exact A1).
  destruct (width_attr_total (fo_cals o) (t_styles t) "width" _ HU S6 (all_text_copy _ _ (cals (fo_cals o) "bgcolor") _ A2 S5)) as (a3 & Ea3 & A3).
  rewb Ea3. do 3 eexists. split; [reflexivity|exact A3].
Qed.
Lemma page_size_total st a : size_ready st -> all_text a -> exists a', page_size st a = Ok a' /\ all_text a'.
Proof.
  intros HS HA. unfold page_size. destruct (dget st "x-sect-orient") as [orient|] eqn:Eo; [|eauto].
  assert (X : exists w h, match dget st "x-sect-size" with
               | None => Ok (595, 842)%Z
               | Some (SPair w h) => Ok (w, h)
               | Some (SStr "") => Err EIndexError
               | Some _ => Err ETypeError
               end = Ok (w, h)).
  { destruct HS as [N|[-> |(w & h & ->)]]; [congruence| |]; eauto. }
  destruct X as (w & h & ->). cbn [rbind]. eexists. split; [reflexivity|].
  destruct orient as [s| | |]; try exact HA.
  destruct (String.eqb s "landscape"); [apply all_text_dset, HA|].
  destruct (String.eqb s "portrait" && _); [apply all_text_dset, HA|exact HA].
Qed.

Lemma generate_tbl_total o n t : treachable t -> fo_titles o = false -> In (co_unit (fo_cals o)) unit_names -> tbl_ready (fo_use_cals o) t ->
  exists e, generate_tbl o n t = Ok e.
Proof.
  intros HR HT HU (HSz & HC & HRW & HU'). unfold generate_tbl. destruct (table_views_total Cols t HR) as [cols Ec]. rewrite Ec. cbn [rbind].
  match goal with |- context [page_size _ ?a] => assert (A0 : all_text a) by (intros k x [[= <- <-]|[[= <- <-]|[]]]; eexists; reflexivity) end.
  destruct (page_size_total _ _ HSz A0) as (a1 & -> & A1). cbn [rbind]. destruct (make_attrs_total _ A1) as [attrs ->]. cbn [rbind].
  assert (X : exists l, build_corpus o t = Ok l); [|destruct X as [l ->]; eexists; reflexivity].
  unfold build_corpus. destruct (table_views_total Rows t HR) as [rows Er]. rewrite Er. cbn [rbind]. unfold split_title. rewrite HT. cbn [rbind snd fst].
  destruct (corpus_attrs_total o t HU) as (colsep & rowsep & a & -> & A); [intros E; apply (HU' E)|]. cbn [rbind].
  destruct (make_attrs_total _ A) as [attrs' ->]. cbn [rbind]. rewrite Ec.
  destruct (table_views_spec _ _ _ HR Ec) as [_ Hcols]. destruct (table_views_spec _ _ _ HR Er) as [_ Hrows].
  assert (X : exists specs, (if fo_use_cals o then cols <-? Ok cols ;; rmap (build_colspec (fo_cals o) colsep rowsep) cols else Ok []) = Ok specs).
  { destruct (fo_use_cals o); [|eauto]. cbn [rbind]. apply rmap_total. intros v Hv. apply build_colspec_total; [exact HU|].
    apply In_nth_error in Hv as [i Hi]. apply (proj1 (HU' eq_refl)) with (p := Z.of_nat i + 1); [lia|]. apply Hcols, Hi. }
  destruct X as [specs ->]. cbn [rbind].
  match goal with |- exists e, rbind (rmap ?f ?l) _ = _ => destruct (rmap_total f l) as [items ->] end; [|eexists; reflexivity].
  intros v Hv. apply In_nth_error in Hv as [i Hi]. pose proof (Hrows i v Hi) as Hrd.
  destruct (view_membership Rows (Z.of_nat i + 1) t v HR ltac:(lia) Hrd) as (_ & HO & _).
  destruct (HRW (Z.of_nat i + 1) v ltac:(lia) Hrd) as [I1 I2].
  apply build_frow_total; [exact I1|exact I2| | |].
  - intros E. destruct (HU' E) as [(_ & _ & HRR & _) Hbg]. split; [apply (HRR (Z.of_nat i + 1)); [lia|exact Hrd]|apply (Hbg (Z.of_nat i + 1)); [lia|exact Hrd]].
  - intros c Hc. split; [apply HC, HO, Hc|]. intros E. apply (proj1 (HU' E)), HO, Hc.
  - intros HN. destruct (v_owned v) as [|c l]; [congruence|]. assert (Hc : In c (table_iter t)) by (apply HO; left; reflexivity).
    destruct (treachable_tinv t HR) as (og & HS & HM). unfold table_bounding_box.
    destruct (bounding_box_spec (t_grid t) (proj1 (proj1 HM))) as [[E _]|(_ & bb & E & _)]; [|exists bb; exact E].
    unfold table_iter, grid_iter in Hc. rewrite E in Hc. destruct Hc.
Qed.
