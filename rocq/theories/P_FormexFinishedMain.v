(** * A finished Formex document read back *)
From Coq Require Import QArith.
From Verif Require Import Base M_Geometry M_Xml M_Cell M_Grid M_Table M_Str M_Units M_Builder M_Cals M_CalsParser M_Formex M_FormexFinal M_FormexFinish M_FormexParser M_FormexRead.
From Verif Require Import S_Geometry S_Grid S_Table S_Units S_Builder S_Cals S_Int S_CalsParser S_RoundTrip S_Formex S_FormexFinal S_FormexFinish S_Attrs S_FormexRead S_FormexTrip S_FormexFinished S_Axes.
From Verif Require Import P_Geometry P_Grid P_GridFacts P_Table P_TableFacts P_TableMore P_Str P_Int P_Builder P_Cals P_CalsParser P_CalsLayout P_CalsEvents P_CalsSim P_CalsTable P_CalsMore P_RoundTrip P_RoundTripAttrs P_RoundTripMain P_Formex P_Attrs P_FormexBlk P_FormexFinish P_FormexEvents P_FormexSim P_FormexTable P_FormexTrip P_FormexTripRead P_FormexTripMain P_FormexFinished.
From Verif Require Import P_Axes P_FAxes T_FormexRead.
Open Scope list_scope.
Open Scope Z_scope.

(** ** The attributes of what is built have distinct names *)

Lemma make_attrs_ok a attrs : make_attrs a = Ok attrs -> dict_ok a -> dict_ok attrs.
Proof.
  intros H. assert (E : map fst attrs = map fst a).
  { revert attrs H. induction a as [|[k v] a IH]; intros attrs H; cbn [make_attrs] in H; [injection H as <-; reflexivity|].
    destruct v as [s| | |]; try discriminate. bind H as r Er. injection H as <-. cbn [map fst]. f_equal. apply IH. reflexivity. }
  unfold dict_ok. rewrite E. auto.
Qed.
Lemma sep_attr_ok o st style name ts a a' : sep_attr o st style name ts a = Ok a' -> dict_ok a -> dict_ok a'.
Proof.
  unfold sep_attr. intros H Ha. bind H as s Es. injection H as <-. destruct s as [s|]; [|exact Ha]. destruct (String.eqb s ts); [exact Ha|apply dict_ok_dset', Ha].
Qed.
Lemma copy_style_ok st k name a : dict_ok a -> dict_ok (copy_style st k name a).
Proof. intros H. unfold copy_style. destruct (dget st k); [apply dict_ok_dset', H|exact H]. Qed.
Lemma style_map_ok d v name (a a' : attrib) : (s <-? style_lookup d v ;; Ok (dset a name (SStr s))) = Ok a' -> dict_ok a -> dict_ok a'.
Proof. intros H Ha. bind H as s Es. injection H as <-. apply dict_ok_dset', Ha. Qed.
Lemma cell_cals_ok o bb cs rs c a a' : cell_cals_attrs o bb cs rs c a = Ok a' -> dict_ok a -> dict_ok a'.
Proof.
  unfold cell_cals_attrs. intros H Ha. bind H as b Eb. destruct b as [b|]; [|discriminate]. bind H as a1 E1. bind H as a2 E2. bind H as a3 E3. bind H as a4 E4. injection H as <-.
  assert (A1 : dict_ok a1) by (destruct (cx (c_max c) =? cx (bmax b)); [injection E1 as <-; exact Ha|exact (sep_attr_ok _ _ _ _ _ _ _ E1 Ha)]).
  assert (A2 : dict_ok a2) by (destruct (cy (c_max c) =? cy (bmax b)); [injection E2 as <-; exact A1|exact (sep_attr_ok _ _ _ _ _ _ _ E2 A1)]).
  assert (A3 : dict_ok a3) by (destruct (dget (c_styles c) "vertical-align"); [exact (style_map_ok _ _ _ _ _ E3 A2)|injection E3 as <-; exact A2]).
  assert (A4 : dict_ok a4) by (destruct (dget (c_styles c) "align"); [exact (style_map_ok _ _ _ _ _ E4 A3)|injection E4 as <-; exact A3]).
  apply copy_style_ok, copy_style_ok. destruct (1 <? c_height c); [apply dict_ok_dset'|]; (destruct (1 <? c_width c); [apply dict_ok_dset', dict_ok_dset'|]; exact A4).
Qed.
Lemma fcell_attrs_ok o bb cs rs v c e : build_fcell o bb cs rs v c = Ok e -> dict_ok (x_attrs e).
Proof.
  intros H. unfold build_fcell in H. bind H as a1 E1.
  match type of H with rbind (if fo_use_cals o then cell_cals_attrs _ _ _ _ _ ?b else _) _ = _ => set (a3 := b) in * end.
  bind H as a4 E4. bind H as attrs E5.
  assert (He : x_attrs e = attrs).
  { destruct (fmx_empty c); [injection H as <-; reflexivity|]. apply content_written in H as (_ & Ha & _). exact Ha. }
  rewrite He. apply (make_attrs_ok _ _ E5).
  assert (A0 : dict_ok [("COL"%string, SStr (py_str_int (cx (c_min c))))]) by (apply (dict_ok_dset' [] "COL"%string); apply dict_ok_nil).
  assert (A1 : dict_ok a1).
  { destruct (nature_differs _ _); [|injection E1 as <-; exact A0]. bind E1 as ty Et. injection E1 as <-. apply (dict_ok_dset' [("COL"%string, SStr (py_str_int (cx (c_min c))))] "TYPE"%string (SStr ty)), A0. }
  assert (A3 : dict_ok a3).
  { unfold a3. destruct (1 <? c_height c); [apply dict_ok_dset'|]; (destruct (1 <? c_width c); [apply dict_ok_dset'|]; exact A1). }
  destruct (fo_use_cals o); [exact (cell_cals_ok _ _ _ _ _ _ _ E4 A3)|injection E4 as <-; exact A3].
Qed.
Lemma frow_attrs_ok o bb cs rs v its row : build_frow o bb cs rs v = Ok its -> In row its -> x_tag row = Some "ROW"%string -> dict_ok (x_attrs row).
Proof.
  intros H Hin Ht. unfold build_frow in H. bind H as a E1. bind H as start E3. bind H as attrs E4. bind H as finish E5. bind H as cells E6. injection H as Hit. subst its.
  assert (HR : row = XElem "ROW" attrs None cells None).
  { apply in_app_iff in Hin as [Hin|[Hin|Hin]]; [|congruence|]; exfalso.
    - destruct (dmem (v_styles v) "x-ins"); [|injection E3 as <-; destruct Hin]. bind E3 as pi Ep. injection E3 as <-. destruct Hin as [<-|[]].
      unfold revision_mark in Ep. bind Ep as q Eq. injection Ep as <-. discriminate Ht.
    - destruct (dmem (v_styles v) "x-ins"); [|injection E5 as <-; destruct Hin]. bind E5 as pi Ep. injection E5 as <-. destruct Hin as [<-|[]].
      unfold revision_mark in Ep. bind Ep as q Eq. injection Ep as <-. discriminate Ht. }
  rewrite HR. cbn [x_attrs]. apply (make_attrs_ok _ _ E4).
  assert (A0 : dict_ok (row_type_attr (v_nature v) [])).
  { unfold row_type_attr. destruct (v_nature v) as [s|]; [|apply dict_ok_nil]. destruct (String.eqb s "header"); [apply dict_ok_dset', dict_ok_nil|].
    destruct (String.eqb s "footer"); [apply dict_ok_dset', dict_ok_nil|apply dict_ok_nil]. }
  destruct (fo_use_cals o); [|injection E1 as <-; exact A0]. unfold row_cals_attrs in E1. bind E1 as a1 F1. bind E1 as a2 F2. injection E1 as <-.
  apply copy_style_ok, copy_style_ok. apply (sep_attr_ok _ _ _ _ _ _ _ F2). destruct (dget (v_styles v) "vertical-align"); [exact (style_map_ok _ _ _ _ _ F1 A0)|injection F1 as <-; exact A0].
Qed.

Lemma specs_plain o k t e corpus c : generate_tbl o k t = Ok e -> x_children e = [corpus] -> In c (x_children corpus) -> fo_use_cals o = true ->
  named (co_ns (fo_cals o)) "colspec" c -> x_tag corpus = Some "CORPUS"%string -> x_get c (qname (co_ns (fo_cals o)) "rowstyle") = None.
Proof.
  intros H Ech Hc HU Hn Htag. unfold generate_tbl in H. bind H as cols Ec. bind H as a Ea. bind H as attrs Em. bind H as ch Eh. injection H as <-.
  unfold build_corpus in Eh. bind Eh as rows Er. bind Eh as tr Et. bind Eh as cra Ecra. destruct cra as [[cs rs] ca].
  bind Eh as cattrs Ecm. bind Eh as specs Es. bind Eh as items Ei. injection Eh as <-. cbn [x_children] in Ech.
  assert (Ecor : corpus = XElem "CORPUS" cattrs None (specs ++ List.concat items) None).
  { apply app_eq_unit in Ech as [[_ Ech]|[_ Ech]]; [congruence|discriminate]. }
  subst corpus. cbn [x_children] in Hc. rewrite HU in Es. rewrite Ec in Es. cbn [rbind] in Es. apply in_app_iff in Hc as [Hc|Hc].
  - apply rmap_Forall2 in Es. destruct (Forall2_In_r _ _ _ c Es Hc) as (v & _ & Hb). clear - Hb. unfold build_colspec in Hb. bind Hb as a1 E1.
    set (a2 := match dget (v_styles v) "align" with Some _ => _ | None => _ end) in Hb.
    bind Hb as a3 E3. bind Hb as a4 E4. bind Hb as attrs E5. injection Hb as <-. unfold x_get. cbn [x_attrs]. rewrite (make_attrs_get _ _ _ E5).
    set (co := fo_cals o) in *. change (qname (co_ns co) "rowstyle") with (cals co "rowstyle").
    rewrite (sep_attr_get _ _ _ _ _ _ _ "rowstyle" E4 ltac:(discriminate)), (sep_attr_get _ _ _ _ _ _ _ "rowstyle" E3 ltac:(discriminate)).
    assert (E : dget a2 (cals co "rowstyle") = dget a1 (cals co "rowstyle")).
    { unfold a2. destruct (dget (v_styles v) "align") as [[s| | |]|]; try reflexivity. destruct (dget ALIGNS s); [|reflexivity]. apply dset_get. discriminate. }
    rewrite E, (width_attr_get _ _ _ _ _ "rowstyle" E1 ltac:(discriminate)). cbn [dget].
    destruct (String.eqb_spec (cals co "rowstyle") (cals co "colnum")) as [Ek|_]; [exfalso; revert Ek; apply cals_neq; discriminate|].
    destruct (String.eqb_spec (cals co "rowstyle") (cals co "colname")) as [Ek|_]; [exfalso; revert Ek; apply cals_neq; discriminate|]. reflexivity.
  - exfalso. apply in_concat in Hc as (its & Hits & Hc). apply rmap_Forall2 in Ei. destruct (Forall2_In_r _ _ _ its Ei Hits) as (v & _ & Hb).
    destruct (build_frow_parts _ _ _ _ _ _ Hb) as (row & (Hrt & _) & Har). pose proof (row_colspec (co_ns (fo_cals o)) row Hrt) as HX.
    assert (HY : has_name (co_ns (fo_cals o)) "colspec" c = true) by (apply tag_spec, Hn).
    unfold around in Har. destruct (dget (v_styles v) "x-ins"); [destruct Har as (x & y & ->); destruct Hc as [<-|[<-|[<-|[]]]]|subst its; destruct Hc as [<-|[]]]; try discriminate Hn; congruence.
Qed.

(** ** The attributes which are left *)
Definition superfluous (x : string) : bool := existsb (String.eqb x) ["namest"; "nameend"; "morerows"; "rowstyle"]%string.
Lemma fin_attribute ns cns (use : bool) e e' ty x : (use = true -> ns = cns) -> (use = false -> forall z, ~ fmx_name z -> attribute cns e z = None) ->
  finished_attrs ns ty e e' -> ~ fmx_name x -> attribute cns e' x = if superfluous x then None else attribute cns e x.
Proof.
  intros Hns Hno [_ HF] Hx.
  assert (Hk : expanded cns x <> "TYPE"%string) by (intros E; refine (fmx_apart cns "TYPE" x _ Hx E); cbn; tauto).
  destruct (HF _ Hk) as [F1 F2]. unfold attribute in *.
  assert (D : said_again ns (expanded cns x) \/ ~ said_again ns (expanded cns x)).
  { unfold said_again. destruct (in_dec string_dec (expanded cns x) (map (expanded ns) ["namest"; "nameend"; "morerows"; "rowstyle"]%string)); [left|right]; assumption. }
  destruct use.
  - rewrite (Hns eq_refl) in *. unfold superfluous. destruct (existsb (String.eqb x) _) eqn:Ex.
    + apply F1. apply existsb_exists in Ex as (y & Hy & Ey). apply String.eqb_eq in Ey. subst y. unfold said_again. apply in_map, Hy.
    + apply F2. intros Hs. unfold said_again in Hs. apply in_map_iff in Hs as (y & Ey & Hy). apply expanded_inj in Ey. subst y.
      assert (HX : existsb (String.eqb x) ["namest"; "nameend"; "morerows"; "rowstyle"]%string = true) by (apply existsb_exists; exists x; split; [exact Hy|apply String.eqb_refl]). congruence.
  - specialize (Hno eq_refl x Hx). destruct (superfluous x); destruct D as [D|D]; try (rewrite (F1 D)); try (rewrite (F2 D)); congruence.
Qed.
Lemma fin_plain ns e e' ty k : finished_attrs ns ty e e' -> In k ["COLSPAN"; "ROWSPAN"]%string -> x_get e' k = x_get e k.
Proof.
  intros [_ HF] Hk. destruct (HF k) as [_ F2]; [intros ->; cbn in Hk; intuition discriminate|]. apply F2. intros Hs. unfold said_again in Hs. apply in_map_iff in Hs as (y & Ey & Hy).
  refine (fmx_apart ns k y _ _ Ey); [cbn in *; intuition congruence|]. cbn in *. intuition congruence.
Qed.

Lemma lacks_tail names n x : lacks names (x_set_tail n x) -> lacks names n.
Proof.
  intros H. inversion H as [? H1 H2]; subst. constructor.
  - intros s Hs. apply H1. rewrite set_tail_tag. exact Hs.
  - intros c Hc. apply H2. rewrite set_tail_children. exact Hc.
Qed.
Lemma stranger_lacks cns n : stranger None cns n -> lacks ["TBL"; "GR.NOTES"]%string n -> lacks all_names n.
Proof.
  induction 1 as [n Hn Hc IH]. intros HL. inversion HL as [? H1 H2]; subst. constructor; [|intros c Hin; apply IH; auto].
  intros s Hs Hin. cbn in Hin. destruct Hin as [<-|[<-|[<-|[<-|[<-|[<-|[<-|[]]]]]]]];
    first [apply (H1 _ Hs); cbn; tauto|apply Hn; left; eexists; split; [|exact Hs]; cbn; tauto].
Qed.

Section Shapes.
  Variable o : fmx_opts.
  Variable cns : option string.
  Variable t : table.
  Hypothesis HP : plain_nodes cns (table_iter t).
  Hypothesis HNT : no_tables (table_iter t).

  Lemma fcell_shape cs rs v c e : In c (table_iter t) -> build_fcell o (table_bounding_box t) cs rs v c = Ok e -> cell_shape e.
  Proof.
    intros Hc He. destruct (build_fcell_spec o _ _ _ _ _ _ He) as [(Ht & _ & _ & HE & HN) _].
    split; [exact Ht|]. split; [exact (fcell_attrs_ok _ _ _ _ _ _ _ He)|]. apply Forall_forall. intros x Hx.
    assert (D : shown_empty c \/ ~ shown_empty c).
    { destruct (fmx_empty c) eqn:E; [left; apply fmx_empty_spec, E|right; rewrite <- fmx_empty_spec; congruence]. }
    destruct D as [D|D].
    - destruct (HE D) as [E1 E2]. rewrite E2 in Hx. destruct Hx as [<-|[]]. constructor; [|intros y []]. intros s [= <-]. cbn. intuition discriminate.
    - specialize (HN D). apply entry_child in Hx. rewrite HN in Hx. destruct (HP c _ Hc Hx) as [K1 _]. pose proof (HNT c _ Hc Hx) as K2.
      apply (lacks_tail _ _ None). exact (stranger_lacks cns _ K1 K2).
  Qed.
End Shapes.

Lemma colspec_apart cns s : In s all_names -> expanded cns "colspec" <> s.
Proof. intros Hs E. subst s. destruct cns; cbn in Hs; intuition discriminate. Qed.
Lemma colspec_not_blk cns e : named cns "colspec" e -> is_blk e = false.
Proof. unfold named. intros H. unfold is_blk. destruct e as [tag at0 tx ch tl| |]; try reflexivity. cbn [x_tag] in H. injection H as ->. destruct cns; reflexivity. Qed.
Lemma Forall2_second {A B} (P : A -> B -> Prop) (Q : B -> Prop) l l' : Forall2 (fun x y => P x y /\ Q y) l l' -> Forall Q l'.
Proof. induction 1 as [|x y l l' [_ H] _ IH]; constructor; assumption. Qed.
Lemma in_firstn {A} (x : A) k l : In x (firstn k l) -> exists i, (i < k)%nat /\ nth_error l i = Some x.
Proof.
  revert l. induction k as [|k IH]; intros [|y l] H; try (destruct H; fail). destruct H as [<-|H]; [exists 0%nat; split; [lia|reflexivity]|].
  destruct (IH l H) as (i & Hi & E). exists (S i). split; [lia|exact E].
Qed.
Lemma in_skipn {A} (x : A) k l : In x (skipn k l) -> exists i, (k <= i)%nat /\ nth_error l i = Some x.
Proof.
  revert l. induction k as [|k IH]; intros l H.
  - cbn in H. apply In_nth_error in H as (i & E). exists i. split; [lia|exact E].
  - destruct l as [|y l]; [destruct H|]. destruct (IH l H) as (i & Hi & E). exists (S i). split; [lia|exact E].
Qed.

Section Back.
  Variable o : fmx_opts.
  Variable p : pfmx_opts.
  Variable t : table.
  Variables n m q : Z.
  Hypothesis HR : treachable t.
  Hypothesis Ens : fo_use_cals o = true -> co_ns (fo_cals o) = pf_cals_ns p.
  Hypothesis HT : tiles (table_iter t) n m.
  Hypothesis HO : rows_ordered t.
  Hypothesis HP : plain_nodes (pf_cals_ns p) (table_iter t).
  Variables cs rs : string.

  Let cns := pf_cals_ns p.
  Let ns := co_ns (fo_cals o).

  Lemma row_bare v row z : rb o p t cs rs v row -> fo_use_cals o = false -> ~ fmx_name z -> forall x, attribute x row z = None.
  Proof.
    intros [(_ & _ & _ & _ & _ & Hra) _] HU Hz x. unfold attribute, x_get. rewrite (Hra HU). destruct (row_type (v_nature v)); cbn [dget]; [|reflexivity].
    destruct (String.eqb_spec (expanded x z) "TYPE") as [E|_]; [|reflexivity]. exfalso. refine (fmx_apart x "TYPE" z _ Hz E). cbn. tauto.
  Qed.
  Lemma row_attribute v row e' ty z : rb o p t cs rs v row -> finished_attrs ns ty row e' -> ~ fmx_name z ->
    attribute cns e' z = if superfluous z then None else attribute cns row z.
  Proof.
    intros Hrb HF Hz. apply (fin_attribute ns cns (fo_use_cals o) row e' ty z Ens); [|exact HF|exact Hz].
    intros HU y Hy. exact (row_bare v row y Hrb HU Hy cns).
  Qed.
  Lemma cell_attribute v c e e' ty z : build_fcell o (table_bounding_box t) cs rs v c = Ok e -> finished_attrs ns ty e e' -> ~ fmx_name z ->
    attribute cns e' z = if superfluous z then None else attribute cns e z.
  Proof.
    intros Hb HF Hz. apply (fin_attribute ns cns (fo_use_cals o) e e' ty z Ens); [|exact HF|exact Hz].
    intros HU y Hy. exact (cell_attrs_none o cns t cs rs v c e y HU Hb (low_name cns y Hy)).
  Qed.
  Lemma says_decoded v row tag ty lv : rb o p t cs rs v row -> (decoded ns row tag ty lv <-> row_says (fo_use_cals o) v tag ty lv).
  Proof.
    intros Hrb. unfold decoded, row_says. destruct (fo_use_cals o) eqn:HU.
    - destruct Hrb as [_ HL]. destruct (HL HU) as ((_ & _ & L3) & _). unfold ns. rewrite (Ens eq_refl). destruct (dget (v_styles v) "rowstyle") as [w|]; cbn [as_is] in L3.
      + destruct L3 as (s & -> & ->). reflexivity.
      + rewrite L3. reflexivity.
    - rewrite (row_bare v row "rowstyle" Hrb HU ltac:(cbn; intuition discriminate)). reflexivity.
  Qed.

  Lemma marks_back t' v row e' ty st' : rb o p t cs rs v row -> finished_attrs ns ty row e' ->
    (fo_use_cals o = true -> dget (t_styles t') "x-cell-border-bottom" = text_look (separator_line (Some rs))) ->
    (forall x, x <> "rowstyle"%string -> dget st' x = text_look (given cns e' x)) -> row_marks (fo_use_cals o) t' st' (v_styles v).
  Proof.
    intros Hrb HF Sr HS. pose proof (fun z => row_attribute v row e' ty z Hrb HF) as HA. unfold row_marks.
    assert (EV : attribute cns e' "valign" = attribute cns row "valign") by (rewrite HA by (cbn; intuition discriminate); reflexivity).
    assert (ES : attribute cns e' "rowsep" = attribute cns row "rowsep") by (rewrite HA by (cbn; intuition discriminate); reflexivity).
    assert (EB : attribute cns e' "bgcolor" = attribute cns row "bgcolor") by (rewrite HA by (cbn; intuition discriminate); reflexivity).
    destruct (fo_use_cals o) eqn:HU.
    - destruct Hrb as [_ HL]. destruct (HL HU) as ((L1 & L2 & L3) & L4). fold cns in L1, L2, L3, L4. specialize (Sr eq_refl). split; [|split; [|split]].
      + rewrite HS by discriminate. unfold given. cbn [String.eqb Ascii.eqb Bool.eqb]. rewrite EV.
        destruct (dget (v_styles v) "vertical-align") as [w|]; cbn [renamed_as] in L1; [|rewrite L1; reflexivity].
        destruct L1 as (s & y & -> & Hi & ->). destruct Hi as [[= <- <-]|[[= <- <-]|[[= <- <-]|[[= <- <-]|[]]]]]; reflexivity.
      + rewrite HS by discriminate. unfold given. cbn [String.eqb Ascii.eqb Bool.eqb]. rewrite EB.
        destruct (dget (v_styles v) "background-color") as [w|]; cbn [as_is] in L4; [|rewrite L4; reflexivity]. destruct L4 as (s & -> & ->). destruct s; reflexivity.
      + intros w Hw. rewrite HS by discriminate. rewrite Sr. unfold given. cbn [String.eqb Ascii.eqb Bool.eqb]. rewrite ES. apply sep_back. apply L2, Hw.
      + intros x Hx. rewrite HS by (intros ->; apply Hx; cbn; tauto). unfold given.
        repeat match goal with |- context [String.eqb x ?y] => destruct (String.eqb_spec x y) as [Ex|_]; [exfalso; apply Hx; rewrite Ex; cbn; tauto|] end. reflexivity.
    - intros x Hx. rewrite (HS x Hx). unfold given. rewrite EV, ES, EB, !(fun z Hz => row_bare v row z Hrb HU Hz cns) by (cbn; intuition discriminate).
      repeat match goal with |- context [String.eqb x ?y] => destruct (String.eqb_spec x y) as [Ex|_]; [try reflexivity; congruence|] end. reflexivity.
  Qed.

  Lemma finished_readable v c e e' ty : In c (table_iter t) -> build_fcell o (table_bounding_box t) cs rs v c = Ok e -> finished_cell ns ty e e' -> readable_cell cns c e'.
  Proof.
    intros Hc Hb (H1 & H2 & H3 & H4 & HF). split; [exact H1|]. split.
    - pose proof (fun z => cell_attribute v c e e' _ z Hb HF) as HA.
      destruct (build_fcell_spec o _ _ _ _ _ _ Hb) as [(_ & _ & HS & _) _].
      assert (HV : valid (c_box c)) by (destruct HT as (_ & _ & HV & _); unfold all_valid in HV; rewrite Forall_forall in HV; exact (HV c Hc)).
      exists (cx (bmax (c_box c)) - col_of c + 1), (cy (bmax (c_box c)) - row_of c + 1).
      rewrite !HA by (cbn; intuition discriminate). cbn [superfluous existsb String.eqb Ascii.eqb Bool.eqb orb not_empty]. unfold number_or_one.
      change (attribute None e' "COLSPAN") with (x_get e' "COLSPAN"). change (attribute None e' "ROWSPAN") with (x_get e' "ROWSPAN").
      rewrite !(fin_plain ns e e' _ _ HF) by (cbn; tauto). unfold valid in HV. destruct (c_box c) as [[x1 y1] [x2 y2]]. cbn [bmin bmax cx cy] in *. destruct HS as (_ & S1 & S2 & S3 & S4).
      split; [|split; [|split; reflexivity]].
      + destruct (Z_lt_ge_dec x1 x2) as [Hlt|Hge]; [rewrite (S1 Hlt); apply int_text_str|rewrite (S2 ltac:(lia)); lia].
      + destruct (Z_lt_ge_dec y1 y2) as [Hlt|Hge]; [rewrite (S3 Hlt); apply int_text_str|rewrite (S4 ltac:(lia)); lia].
    - rewrite H3. apply (fcell_children o cns t HP cs rs v c e Hc Hb).
  Qed.
  Lemma same_content e e' : ostr (x_text e') = ostr (x_text e) -> x_children e' = x_children e ->
    existsb (has_name None "IE") (x_children e') = existsb (has_name None "IE") (x_children e) /\ content_pieces (fcontent_of None e') = content_pieces (fcontent_of None e).
  Proof.
    intros H1 H2. rewrite H2. split; [reflexivity|]. unfold fcontent_of. rewrite H2. destruct (existsb _ _); [reflexivity|]. rewrite !content_read. unfold elem_pieces. rewrite H2.
    destruct (x_text e) as [[|a s]|], (x_text e') as [[|a' s']|]; cbn [ostr] in H1; try discriminate H1; try reflexivity. injection H1 as -> ->. reflexivity.
  Qed.
  Lemma content_back v c e e' : In c (table_iter t) -> build_fcell o (table_bounding_box t) cs rs v c = Ok e ->
    ostr (x_text e') = ostr (x_text e) -> x_children e' = x_children e -> content_shown c e'.
  Proof.
    intros Hc Hb H1 H2. destruct (fcell_children o cns t HP cs rs v c e Hc Hb) as [_ [K1 K2]]. destruct (same_content e e' H1 H2) as [E1 E2]. split.
    - intros Hs. destruct (build_fcell_spec o _ _ _ _ _ _ Hb) as [(_ & _ & _ & HE & _) _]. destruct (HE Hs) as [_ E]. unfold fcontent_of. rewrite H2, E. reflexivity.
    - intros Hs. rewrite E2. apply K2, Hs.
  Qed.

  Lemma footer_alone r v c : 1 <= r -> reads Rows r t v -> In c (table_iter t) -> c_box c = MkBox (Coord 1 r) (Coord n r) -> v_owned v = [c].
  Proof.
    intros Hr Hv Hc Eb. destruct (view_membership Rows r t v HR Hr Hv) as (_ & Hown & _). pose proof (HO r v Hr Hv) as Hlr.
    destruct HT as (Hn & Hm & HV & HN & HS & _).
    assert (K : forall d, In d (v_owned v) -> d = c).
    { intros d Hd. apply Hown in Hd as [Hd Hst]. cbn in Hst. assert (Hcv : covers (c_box d) (bmin (c_box d))).
      { unfold all_valid in HV. rewrite Forall_forall in HV. specialize (HV d Hd). unfold valid in HV. unfold covers. lia. }
      pose proof (HS d Hd _ Hcv) as HX. unfold covers in HX. cbn in HX.
      assert (Ho : overlap (c_box d) (c_box c)) by (exists (bmin (c_box d)); split; [exact Hcv|rewrite Eb; unfold covers; cbn; lia]).
      destruct (ForallOrdPairs_In HN d c Hd Hc) as [E|[E|E]]; [exact E|contradiction|]. exfalso. apply E. destruct Ho as (x & X1 & X2). exists x. split; assumption. }
    assert (Hin : In c (v_owned v)) by (apply Hown; split; [exact Hc|cbn; rewrite Eb; reflexivity]).
    destruct (v_owned v) as [|a l]; [destruct Hin|]. rewrite (K a (or_introl eq_refl)) in *. f_equal. destruct l as [|b l]; [reflexivity|]. exfalso.
    pose proof (K b (or_intror (or_introl eq_refl))) as ->. inversion Hlr as [|? ? _ H1]; subst. inversion H1; subst. lia.
  Qed.
End Back.

Section Finished.
  Variable o : fmx_opts.
  Variable p : pfmx_opts.
  Variable k : Z.
  Variable t : table.
  Variables n m q : Z.
  Variable e : xnode.
  Hypothesis HR : treachable t.
  Hypothesis Epns : pf_ns p = None.
  Hypothesis Eem : pf_embed p = false.
  Hypothesis Ens : fo_use_cals o = true -> co_ns (fo_cals o) = pf_cals_ns p.
  Hypothesis Hti : fo_titles o = true -> ~ has_title t.
  Hypothesis HT : tiles (table_iter t) n m.
  Hypothesis HCn : view_count Cols t n.
  Hypothesis HRn : view_count Rows t m.
  Hypothesis HO : rows_ordered t.
  Hypothesis HP : plain_nodes (pf_cals_ns p) (table_iter t).
  Hypothesis HNT : no_tables (table_iter t).
  Hypothesis HFo : footers_after q t n m.
  Hypothesis HBT : no_block_titles (fo_use_cals o) t q.
  Hypothesis HE : generate_tbl o k t = Ok e.

  Let cns := pf_cals_ns p.
  Let ns := co_ns (fo_cals o).

  Definition frb (cs rs : string) (v : view) (row' : xnode) : Prop :=
    exists row d, rb o p t cs rs v row /\ finished_row ns row d row'.
  Definition fcb (cs rs : string) (v : view) (row' : xnode) (c : cell) (x' : xnode) : Prop :=
    v_nature v <> Some "footer"%string /\
    exists row type level x, rb o p t cs rs v row /\ decoded ns row "ROW" type level /\ finished_attrs ns type row row' /\
      build_fcell o (table_bounding_box t) cs rs v c = Ok x /\ finished_cell ns type x x'.
  Definition fnb (cs rs : string) (v : view) (note : xnode) (c : cell) : Prop :=
    v_nature v = Some "footer"%string /\
    exists row x, rb o p t cs rs v row /\ finished_note ns row note /\ x_children row = [x] /\
      build_fcell o (table_bounding_box t) cs rs v c = Ok x.

  Lemma frow_lines cs rs rows items : table_views Rows t = Ok rows ->
    Forall2 (fun v its => exists row, frow_built o t cs rs v row /\ around v row its /\ build_frow o (table_bounding_box t) cs rs v = Ok its) rows items ->
    exists lines, Forall2 (fun v row => rb o p t cs rs v row /\ row_shape row) rows lines /\ Forall2 marks_or lines items.
  Proof.
    intros Er Hit.
    assert (Hin : forall v c, In v rows -> In c (v_owned v) -> In c (table_iter t)).
    { intros v c Hv Hc. apply (owned_members t rows c HR Er). apply in_flat_map. exists v. split; assumption. }
    clear Er. induction Hit as [|v its rows items (row & Hrow & Har & Hbr) Hit IH]; [exists []; split; constructor|].
    destruct IH as (lines & I1 & I2); [intros w c Hw; apply Hin; right; exact Hw|]. exists (row :: lines).
    assert (Hrb : rb o p t cs rs v row).
    { split; [exact Hrow|]. intros HU. destruct (frow_looks o HU t _ cs rs v its HR (tiled_bounds t n m HT) Hbr) as (row' & _ & (L1 & L2 & _) & HM).
      assert (row' = row) as ->.
      { unfold around in Har. unfold insertion_marks in HM. destruct (dget (v_styles v) "x-ins"); [|congruence].
        destruct Har as (a & b & ->). destruct HM as (? & ? & ? & ? & ? & HM & _). congruence. }
      unfold frow_more in L2. rewrite (Ens HU) in *. split; assumption. }
    assert (HM : marks_or row its) by (unfold around in Har; unfold marks_or; destruct (dget (v_styles v) "x-ins"); [right|left]; exact Har).
    split; constructor; try assumption. split; [exact Hrb|]. split; [apply Hrow|]. split.
    - apply (frow_attrs_ok _ _ _ _ _ its row Hbr); [|apply Hrow]. destruct HM as [->|(a & b & ->)]; cbn; tauto.
    - destruct Hrow as (_ & _ & _ & _ & HFc & _). clear - HFc Hin HP HNT.
      assert (Hin' : forall c, In c (v_owned v) -> In c (table_iter t)) by (intros c; apply Hin; left; reflexivity). clear Hin.
      induction HFc as [|c x l xs Hb HFc IH]; constructor; [|apply IH; intros d Hd; apply Hin'; right; exact Hd].
      apply (fcell_shape o (pf_cals_ns p) t HP HNT cs rs v c x); [apply Hin'; left; reflexivity|exact Hb].
  Qed.

  Lemma fin_lines cs rs rows1 linesA pairs : (forall v, In v rows1 -> v_nature v <> Some "footer"%string) -> Forall2 (fun v row => rb o p t cs rs v row /\ row_shape row) rows1 linesA ->
    Forall2 (fun row pr => finished_row ns row (fst pr) (snd pr)) linesA pairs ->
    Forall2 (fun v pr => line_of_view (frb cs rs) (fcb cs rs) v (snd pr)) rows1 (map (fun pr => (Z.of_nat (fst pr), snd pr)) pairs) /\
    Forall2 (fun v pr => exists row, rb o p t cs rs v row /\ finished_row ns row (fst pr) (snd pr)) rows1 pairs.
  Proof.
    intros H0 H1. revert pairs. induction H1 as [|v row rows1 linesA [Hrb HSh] H1 IH]; intros pairs H2; inversion H2 as [|? pr ? prs HF HFs]; subst; [split; constructor|].
    destruct (IH (fun w Hw => H0 w (or_intror Hw)) prs HFs) as [I1 I2]. split; [|constructor; [exists row; split; assumption|exact I2]]. cbn [map]. constructor; [|exact I1]. cbn [snd].
    pose proof HF as (type & level & Hd & Ed & Ht & Ha & Hc). split; [exact Ht|]. split; [exists row, (fst pr); split; assumption|].
    destruct Hrb as [Hrow HL]. pose proof Hrow as (_ & _ & _ & _ & HFc & _).
    eapply Forall2_trans_l; [|exact HFc|exact Hc]. intros c x x' Hx Hx'. split; [apply H0; left; reflexivity|]. exists row, type, level, x. split; [split; assumption|]. auto.
  Qed.

  Lemma fin_notes cs rs rows2 linesB notes : Forall2 (fun v row => rb o p t cs rs v row /\ row_shape row) rows2 linesB ->
    (forall v, In v rows2 -> v_nature v = Some "footer"%string) ->
    (forall v, In v rows2 -> exists c, v_owned v = [c] /\ cx (bmax (c_box c)) - col_of c + 1 = n /\ cy (bmax (c_box c)) = row_of c) ->
    Forall2 (finished_note ns) linesB notes -> Forall2 (note_of_view n (fnb cs rs)) rows2 notes.
  Proof.
    intros H1. revert notes. induction H1 as [|v row rows2 linesB [Hrb HSh] H1 IH]; intros notes H0 Hw H2; inversion H2 as [|? nt ? nts HF HFs]; subst; [constructor|].
    constructor; [|apply IH; [intros w Hi; apply H0; right; exact Hi|intros w Hi; apply Hw; right; exact Hi|exact HFs]].
    destruct (Hw v (or_introl eq_refl)) as (c & Ec & W1 & W2). exists c. split; [exact Ec|]. split; [exact W1|]. split; [exact W2|].
    pose proof Hrb as [(_ & _ & _ & _ & HFc & _) _]. rewrite Ec in HFc. inversion HFc as [|? x ? xs Hb Hn E1 E2]; subst. inversion Hn; subst.
    split; [apply H0; left; reflexivity|]. exists row, x. split; [exact Hrb|]. split; [exact HF|]. split; [symmetry; exact E2|exact Hb].
  Qed.

  (** The shape of the finished table: the notes, then the CORPUS; there is no other CORPUS. *)
  Definition finished_shape (e' : xnode) (before : list xnode) (corpus : xnode) : Prop :=
    (exists attrs, e' = XElem "TBL" attrs None (before ++ [corpus]) None) /\
    Forall (fun x => x_tag x = Some "GR.NOTES"%string /\ lacks ["CORPUS"%string] x) before /\
    Forall (lacks ["CORPUS"%string]) (x_children corpus) /\ x_tail corpus = None /\ proper_corpus None cns corpus.
  Lemma leaves_lack names l : tidy l -> ~ In "BLK"%string names -> forall d, (forall pr, In pr (leaves_of d l) -> lacks names (snd pr)) -> Forall (lacks names) l.
  Proof.
    intros H Hb. induction H as [|x l Hn Hl IH|ch l Hne Hch IHc Hl IH Hx]; intros d HQ; [constructor| |]; unfold leaves_of in HQ; cbn [flat_map] in HQ.
    - constructor; [|apply (IH d); intros pr Hpr; apply HQ, in_app_iff; right; exact Hpr]. rewrite (leaves_leaf _ _ Hn) in HQ. exact (HQ (d, x) (or_introl eq_refl)).
    - constructor; [|apply (IH d); intros pr Hpr; apply HQ, in_app_iff; right; exact Hpr]. apply lacks_elem; [exact Hb|]. apply (IHc (S d)). intros pr Hpr. apply HQ, in_app_iff. left. rewrite leaves_blk. exact Hpr.
  Qed.

  Lemma finished_trip : exists e' before corpus t', finalize_tree ns e = Ok e' /\ finished_shape e' before corpus /\
    parse_formex p (Some e') 0 before corpus = Ok t' /\
    (exists l, Permutation (table_iter t') l /\ Forall2 (fcell_finished (fo_use_cals o) q t t' n m) l (table_iter t)) /\
    view_count Cols t' n /\
    (forall r v v', 1 <= r <= m -> reads Rows r t v -> reads Rows r t' v' -> frow_finished (fo_use_cals o) q r t' v' v) /\
    ftable_kept (fo_use_cals o) t' t /\
    (forall j v v', 1 <= j <= n -> reads Cols j t v -> reads Cols j t' v' ->
      fcolumn_kept (fo_use_cals o) (co_unit (fo_cals o)) (co_fmt (fo_cals o)) t' v' v).
  Proof.
    destruct (tbl_built o k t e HR Hti HE) as (rows & n' & corpus & cs & rs & Er & Hn' & Ech & HC & Htag & Htx & Htl & Hpage & Hpg & Hclass).
    pose proof (view_count_fun _ _ _ _ Hn' HCn) as ->.
    assert (Em : Z.of_nat (List.length rows) = m) by (destruct HRn as (vs & Ev & ->); unfold table_views in Er; congruence).
    pose proof HC as (C1 & C2 & C3 & (specs & items & Esp & Hsp & Hit) & C5 & C6).
    assert (HCl : fo_use_cals o = true -> exists cols, table_views Cols t = Ok cols /\ separators_of t cs rs /\
        Forall2 (column_look cns (co_unit (fo_cals o)) (co_fmt (fo_cals o)) cs rs) cols specs).
    { intros HU. rewrite HU in Hsp. destruct (tbl_columns o k t e corpus specs (List.concat items) n HR HU HE Ech HCn Esp Hsp) as (cols & cs' & rs' & K1 & K2 & K3 & K4 & K5).
      destruct (C6 HU) as (_ & _ & K6 & K7 & _). assert (cs' = cs) as -> by congruence. assert (rs' = rs) as -> by congruence.
      exists cols. unfold cns. rewrite <- (Ens HU). auto. }
    destruct (frow_lines cs rs rows items Er Hit) as (lines & HLn & HMk).
    destruct (table_views_spec _ _ _ HR Er) as [_ Hrd].
    destruct HFo as (Hq & Hfn & Hfc).
    set (rows1 := firstn (Z.to_nat q) rows). set (rows2 := skipn (Z.to_nat q) rows).
    assert (E12 : rows = rows1 ++ rows2) by (symmetry; apply firstn_skipn).
    assert (L1 : List.length rows1 = Z.to_nat q) by (unfold rows1; rewrite firstn_length; lia).
    assert (R1 : forall v, In v rows1 -> exists r, 1 <= r <= q /\ reads Rows r t v).
    { intros v Hv. apply in_firstn in Hv as (i & Hi & Ei). exists (Z.of_nat i + 1). split; [lia|exact (Hrd i v Ei)]. }
    assert (R2 : forall v, In v rows2 -> exists r, q < r <= m /\ reads Rows r t v).
    { intros v Hv. apply in_skipn in Hv as (i & Hi & Ei). assert ((i < List.length rows)%nat) by (apply nth_error_Some; congruence). exists (Z.of_nat i + 1). split; [lia|exact (Hrd i v Ei)]. }
    assert (L2 : List.length rows2 = (List.length rows - Z.to_nat q)%nat) by (unfold rows2; apply skipn_length).
    clearbody rows1 rows2.
    assert (R3 : forall v, In v rows2 -> exists c, v_owned v = [c] /\ cx (bmax (c_box c)) - col_of c + 1 = n /\ cy (bmax (c_box c)) = row_of c).
    { intros v Hv. destruct (R2 v Hv) as (r & Hr & Hrv). destruct (Hfc r Hr) as (c & Hc & Eb). exists c.
      split; [exact (footer_alone o p t n m HR Ens HT HO r v c ltac:(lia) Hrv Hc Eb)|]. rewrite Eb. cbn. lia. }
    assert (F1 : forall v, In v rows1 -> v_nature v <> Some "footer"%string).
    { intros v Hv E. destruct (R1 v Hv) as (r & Hr & Hrv). apply (Hfn r v ltac:(lia) Hrv) in E. lia. }
    assert (F2 : forall v, In v rows2 -> v_nature v = Some "footer"%string).
    { intros v Hv. destruct (R2 v Hv) as (r & Hr & Hrv). apply (Hfn r v ltac:(lia) Hrv). lia. }
    rewrite E12 in HLn. apply Forall2_app_inv_l in HLn as (linesA & linesB & HLA & HLB & El).
    rewrite El in HMk. clear lines El. apply Forall2_app_inv_l in HMk as (itemsA & itemsB & HMA & HMB & ->).
    assert (SA : Forall row_shape linesA) by exact (Forall2_second _ _ _ _ HLA).
    assert (SB : Forall row_shape linesB) by exact (Forall2_second _ _ _ _ HLB).
    assert (TA : Forall (fun row => x_get row "TYPE" <> Some "__GR.NOTES__"%string /\ ri_tag (info_of ns row) = "ROW"%string) linesA).
    { apply Forall_forall. intros row Hrow. destruct (Forall2_In_r _ _ _ row HLA Hrow) as (v & Hv & Hrb & _). destruct (R1 v Hv) as (r & Hr & Hrv). split.
      - destruct Hrb as [(_ & _ & _ & Hty & _) _]. rewrite Hty. intros Et. assert (Hnat : v_nature v <> Some "footer"%string) by (intros E; apply (Hfn r v ltac:(lia) Hrv) in E; lia).
        unfold row_type in Et. destruct (v_nature v) as [s|]; [|discriminate Et]. destruct (String.eqb_spec s "header") as [_|_]; [discriminate Et|].
        destruct (String.eqb_spec s "footer") as [Es|_]; [congruence|discriminate Et].
      - pose proof (decoded_info ns row) as HD. apply (says_decoded o p t Ens cs rs v row _ _ _ Hrb) in HD. exact (HBT r v _ _ _ Hr Hrv HD). }
    assert (TB : Forall (fun row => x_get row "TYPE" = Some "__GR.NOTES__"%string /\ exists cell, x_children row = [cell]) linesB).
    { apply Forall_forall. intros row Hrow. destruct (Forall2_In_r _ _ _ row HLB Hrow) as (v & Hv & Hrb & _). destruct (R2 v Hv) as (r & Hr & Hrv).
      destruct Hrb as [(_ & _ & _ & Hty & HFc & _) _]. split.
      - rewrite Hty, (proj2 (Hfn r v ltac:(lia) Hrv) ltac:(lia)). reflexivity.
      - destruct (R3 v Hv) as (c & Ec & _). rewrite Ec in HFc. destruct (x_children row) as [|x [|y l]]; [inversion HFc|exists x; reflexivity|inversion HFc as [|? ? ? ? _ HX]; inversion HX]. }
    assert (HSp : Forall (spec_shape ns cns) specs).
    { destruct (fo_use_cals o) eqn:HU; [|rewrite Hsp; constructor]. apply Forall_forall. intros x Hx. destruct (Forall2_In_r _ _ _ x Hsp Hx) as (i & Hi & D1 & D2 & _ & D3 & _).
      assert (Hn : In x (x_children corpus)) by (rewrite Esp; apply in_app_iff; left; exact Hx).
      pose proof (specs_plain o k t e corpus x HE Ech Hn HU D1 C1) as Hrs. unfold ns, cns. rewrite (Ens eq_refl) in *. apply in_zrange in Hi.
      assert (HTg : x_tag x <> None) by (intros E; unfold named in D1; congruence).
      assert (HNm : forall s, In s all_names -> x_tag x <> Some s).
      { intros s Hs Es. unfold named in D1. rewrite D1 in Es. injection Es as Es. refine (colspec_apart (pf_cals_ns p) s Hs Es). }
      split; [exact HTg|]. split; [|split; [|split; [exact Hrs|split]]].
      - constructor; [intros s Es Hs; exact (HNm s Hs Es)|rewrite D3; intros y []].
      - apply colspec_not_blk with (cns := pf_cals_ns p). exact D1.
      - apply tag_spec. exact D1.
      - apply pp_colspec; [exact D1|rewrite D3; intros y []|]. intros s j Hs Hj. rewrite D2 in Hs. injection Hs as <-. pose proof (int_text_fun _ _ _ Hj (int_text_str i)). lia. }
    destruct e as [tg tattrs tx tch tl| |]; try discriminate Htag. cbn [x_tag x_text x_tail x_children] in Htag, Htx, Htl, Ech. injection Htag as ->. subst tx tl tch.
    destruct corpus as [tg cattrs tx tch tl| |]; try discriminate C1. cbn [x_tag x_text x_tail x_children] in C1, C2, C3, Esp. injection C1 as ->. subst tx tl. rewrite concat_app in Esp. subst tch.
    destruct (tbl_finished ns cns tattrs cattrs specs linesA linesB itemsA itemsB HSp HMA HMB SA SB TA TB 0 [] false)
      as (a1 & s1 & e2 & l3 & pairs & notes & EN & EC & EX & (e3 & EI & ED) & HNo & Htd & HLv & HFr & Hfp).
    set (corpus' := XElem "CORPUS" cattrs None l3 None) in *.
    set (e' := XElem "TBL" (dset tattrs "NO.SEQ" a1) None (notes ++ [corpus']) None) in *.
    assert (EF : finalize_tree ns (XElem "TBL" tattrs None [XElem "CORPUS" cattrs None (specs ++ List.concat itemsA ++ List.concat itemsB) None] None) = Ok e').
    { unfold finalize_tree, update_no_seq, cleanup_tbl_in_tbl, extract_gr_notes. cbn zeta. rewrite EN. cbn [fst]. rewrite EC, EX. cbn [rbind]. rewrite EI. cbn [rbind]. unfold drop_superfluous_attrs. rewrite ED. reflexivity. }
    exists e', notes, corpus'.
    assert (HB : forall v row c x, fcb cs rs v row c x -> In c (table_iter t) -> readable_cell cns c x).
    { intros v row c x (_ & row0 & type & level & x0 & _ & _ & _ & Hb & HF) Hc. exact (finished_readable o p t n m Ens HT HP cs rs v c x0 x type Hc Hb HF). }
    destruct (fin_lines cs rs rows1 linesA pairs F1 HLA HFr) as [HL1 HL2].
    pose proof (fin_notes cs rs rows2 linesB notes HLB F2 R3 HNo) as HL3.
    assert (Eno : of_name None "GR.NOTES" notes = notes).
    { apply of_name_all. intros x Hx. destruct (Forall2_In_r _ _ _ x HNo Hx) as (row & _ & cell & _ & Ht & _). exact Ht. }
    rewrite <- Eno in HL3.
    assert (Hne : rows1 <> []) by (intros E; rewrite E in L1; cbn in L1; lia).
    set (plines := map (fun pr : nat * xnode => (Z.of_nat (fst pr), snd pr)) pairs) in *.
    assert (Eit : fitems None cns 0 notes corpus' = map FColumn specs ++ map line_at plines ++ map FNotes (of_name None "GR.NOTES" notes)).
    { unfold fitems. change (x_children corpus') with l3. rewrite Hfp, <- app_assoc. f_equal. f_equal. unfold plines. rewrite map_map. reflexivity. }
    assert (HSd : specs = [] \/ Forall2 (describes_column cns) (zrange 1 (n + 1)) specs).
    { destruct (fo_use_cals o); [right; rewrite (Ens eq_refl) in Hsp; exact Hsp|left; exact Hsp]. }
    destruct (tree_laid_at cns (pf_embed p) t n m HR HT HO (frb cs rs) (fcb cs rs) (fnb cs rs) HB 0 notes corpus' specs plines rows rows1 rows2 Er Em E12 Hne HSd HL1 HL3 Eit)
      as (l & g & P & HL & Hcols & HG & HPm).
    assert (Hin1 : forall v cl, In v rows1 -> In cl (v_owned v) -> In cl (table_iter t)).
    { intros v cl Hv Hcl. apply (owned_members t rows cl HR Er), in_flat_map. exists v. split; [rewrite E12; apply in_app_iff; left; exact Hv|exact Hcl]. }
    assert (Hprop : proper_corpus None cns corpus').
    { clear E12 Em Hcols. split; [reflexivity|]. change (x_children corpus') with l3. apply (proper_leaves cns l3 Htd 0). intros pr Hpr. destruct (HLv pr Hpr) as (c & Hfl & Hc).
      inversion Hfl as [c0 d HX E0 E1|a b d E0|row d row' HX HY E0 E1]; subst; cbn [snd].
      - apply HX.
      - apply pp_other, stranger_pi.
      - specialize (Hc HX). destruct HY as (type & level & Hd & _ & Ht & Ha & HFc). apply pp_row; [exact Ht|]. intros x' Hx'. right.
        destruct (Forall2_In_r _ _ _ x' HFc Hx') as (x & Hx & HFx). destruct (Forall2_In_r _ _ _ c HLA Hc) as (v & Hv & Hrb & _).
        pose proof Hrb as [(_ & _ & _ & _ & HFb & _) _]. destruct (Forall2_In_r _ _ _ x HFb Hx) as (cl & Hcl & Hb).
        pose proof (Hin1 v cl Hv Hcl) as Hin.
        destruct (finished_readable o p t n m Ens HT HP cs rs v cl x x' type Hin Hb HFx) as (B1 & _ & B3). split; [exact B1|]. apply strangers_fill, B3. }
    assert (Hfr : frame_known (pf_cals_ns p) corpus').
    { intros f Hf. destruct (fo_use_cals o) eqn:HU.
      - destruct (C6 eq_refl) as (((f0 & Ef & H6 & _) & _) & _). rewrite (Ens eq_refl) in Ef. change (attribute (pf_cals_ns p) corpus' "frame" = Some f0) in Ef. rewrite Ef in Hf.
        destruct f0; [discriminate Hf|injection Hf as <-; exact H6].
      - unfold attribute, x_get in Hf. cbn [corpus' x_attrs] in Hf. specialize (C5 eq_refl). cbn [x_attrs] in C5. rewrite C5 in Hf. discriminate Hf. }
    rewrite <- Epns in Hprop, HL.
    destruct (C62_succeeds p (Some e') 0 notes corpus' l g Hprop Hfr HL) as (t' & Et & (l' & HPl & HPf)).
    destruct (C62_layout p (Some e') 0 notes corpus' t' Hprop Et) as (l1 & g1 & HL1' & _ & HC1 & HRows & HCD).
    destruct (C62_one_layout _ _ _ _ _ _ _ _ _ _ _ HL HL1') as [<- <-]. rewrite Hcols in HC1.
    assert (HTA : ftable_attributes (pf_ns p) (pf_cals_ns p) (Some e') corpus' t').
    { apply (C64_table_attributes p (Some e') 0 notes corpus' t'); [rewrite Epns; reflexivity|exact Et]. }
    assert (Hclass' : x_get e' "CLASS" = None) by (unfold x_get, e'; cbn [x_attrs]; rewrite dget_dset_other by discriminate; exact Hclass).
    assert (Hpage' : page_shown (t_styles t) (x_get e' "PAGE.SIZE")) by (unfold x_get, e'; cbn [x_attrs]; rewrite dget_dset_other by discriminate; exact Hpage).
    assert (Hshape : finished_shape e' notes corpus').
    { split; [eexists; reflexivity|]. split; [|split; [|split; [reflexivity|rewrite <- Epns; exact Hprop]]].
      - apply Forall_forall. intros x Hx. destruct (Forall2_In_r _ _ _ x HNo Hx) as (row & Hrow & cell & Ec & Ht & _ & Ech & _). split; [exact Ht|].
        rewrite Forall_forall in SB. pose proof (SB row Hrow) as (_ & _ & HSc). rewrite Ec in HSc. inversion HSc as [|? ? (_ & _ & HK) _]; subst.
        constructor; [intros s Es; rewrite Ht in Es; injection Es as <-; intros [E|[]]; discriminate E|]. rewrite Ech. intros y Hy. rewrite Forall_forall in HK.
        apply (lacks_weaken all_names); [exact (HK y Hy)|]. intros z [<-|[]]. cbn. tauto.
      - change (x_children corpus') with l3. assert (Hnb : ~ In "BLK"%string ["CORPUS"%string]) by (intros [E|[]]; discriminate E). apply (leaves_lack _ _ Htd Hnb 0%nat). intros pr Hpr. destruct (HLv pr Hpr) as (c & Hfl & _).
        assert (Hinc : incl ["CORPUS"%string] all_names) by (intros z [<-|[]]; cbn; tauto).
        inversion Hfl as [c0 d HX E0 E1|a b d E0|row d row' HX HY E0 E1]; subst; cbn [snd].
        + apply (lacks_weaken all_names); [apply HX|exact Hinc].
        + apply lacks_pi.
        + destruct HY as (type & level & Hd & _ & Ht & Ha & HFc). constructor; [intros s Es; rewrite Ht in Es; injection Es as <-; intros [E|[]]; discriminate E|].
          intros x' Hx'. destruct (Forall2_In_r _ _ _ x' HFc Hx') as (x & Hx & (Ht' & _ & Ech' & _)). destruct HX as (_ & _ & HSc). rewrite Forall_forall in HSc. destruct (HSc x Hx) as (_ & _ & HK).
          constructor; [intros s Es; rewrite Ht' in Es; injection Es as <-; intros [E|[]]; discriminate E|]. rewrite Ech'. intros y Hy. rewrite Forall_forall in HK.
          apply (lacks_weaken all_names); [exact (HK y Hy)|exact Hinc]. }
    exists t'. split; [exact EF|]. split; [exact Hshape|]. split; [exact Et|].
    assert (HTB : fo_use_cals o = true -> table_kept t' t /\ dget (t_styles t') "x-cell-border-right" = text_look (separator_line (Some cs)) /\
        dget (t_styles t') "x-cell-border-bottom" = text_look (separator_line (Some rs))).
    { intros HU. exact (ftable_back o p t e' _ rows n cs rs t' HU (Ens HU) HC Epns Hclass' Hpage' HTA). }
    split; [|split; [exact HC1|split; [|split]]].
    - assert (HFin : forall s c, laid (Shown cns (pf_embed p) t (frb cs rs) (fcb cs rs) (fnb cs rs)) s c -> In c (table_iter t) -> forall c', displays c' s ->
         fcell_finished (fo_use_cals o) q t t' n m c' c).
      { intros s c (lk & ct & na & -> & v & Hv & Hown & HX) Hin c' (S1 & S2 & S3 & S4). cbn [fst snd bare c_content c_nature c_box] in *.
        assert (Hr : 1 <= row_of c <= m).
        { destruct HT as (_ & _ & HV & _ & HS & _). unfold all_valid in HV. rewrite Forall_forall in HV. specialize (HV c Hin). unfold valid in HV.
          pose proof (HS c Hin (bmin (c_box c))) as H1. unfold covers in H1. cbn in H1. lia. }
        split; [exact S3|].
        destruct HX as [(row' & x' & (Hrt & _) & (Hnf & row & type & level & x & Hrb & Hd & Ha & Hb & Hx1 & Hx2 & Hx3 & Hx4 & Hxa) & -> & -> & ->)|(nt & (Hnf & row & x & Hrb & (x0 & Ec0 & N1 & N2 & N3 & N4) & Ec & Hb) & -> & -> & ->)].
        - assert (Hrq : row_of c <= q) by (destruct (Z_le_gt_dec (row_of c) q) as [D|D]; [exact D|exfalso; apply Hnf, (Hfn _ v Hr Hv); lia]).
          split.
          { destruct (content_back o p t HP cs rs v c x x' Hin Hb ltac:(rewrite Hx2; reflexivity) Hx3) as [K1 K2]. split; intros Hs; rewrite S1; [apply K1|apply K2]; exact Hs. }
          exists v. split; [exact Hv|]. split; [|intros D; exfalso; change (q < row_of c) in D; lia]. intros _.
          destruct (build_fcell_spec o _ _ _ _ _ _ Hb) as [HDx Hty]. split.
          + exists type, level, (x_get x "TYPE"). split; [apply (says_decoded o p t Ens cs rs v row _ _ _ Hrb), Hd|]. split; [exact Hty|]. cbn zeta.
            pose proof (proj1 Hxa) as Hxt. pose proof (proj1 Ha) as Hat. split.
            * rewrite S2. unfold fcell_read_nature, fcell_nature. change (attribute None x' "TYPE") with (x_get x' "TYPE"). rewrite Hxt. unfold line_nature, nature_or_body.
              rewrite (tag_named None row' "ROW" "ROW" Hrt). cbn [String.eqb Ascii.eqb Bool.eqb]. change (attribute None row' "TYPE") with (x_get row' "TYPE"). rewrite Hat. reflexivity.
            * rewrite S4. unfold fcell_style. cbn [String.eqb Ascii.eqb Bool.eqb]. unfold kept_type.
              change (attribute None x' "TYPE") with (x_get x' "TYPE"). change (attribute None row' "TYPE") with (x_get row' "TYPE"). rewrite Hxt, Hat. reflexivity.
          + pose proof (fun z => cell_attribute o p t Ens cs rs v c x x' _ z Hb Hxa) as HA. fold cns in HA.
            assert (A1 : attribute cns x' "colsep" = attribute cns x "colsep") by (rewrite HA by (cbn; intuition discriminate); reflexivity).
            assert (A2 : attribute cns x' "rowsep" = attribute cns x "rowsep") by (rewrite HA by (cbn; intuition discriminate); reflexivity).
            assert (A3 : attribute cns x' "bgcolor" = attribute cns x "bgcolor") by (rewrite HA by (cbn; intuition discriminate); reflexivity).
            assert (A4 : attribute cns x' "valign" = attribute cns x "valign") by (rewrite HA by (cbn; intuition discriminate); reflexivity).
            assert (A5 : attribute cns x' "align" = attribute cns x "align") by (rewrite HA by (cbn; intuition discriminate); reflexivity).
            destruct (fo_use_cals o) eqn:HU.
            * assert (HLk : cell_look cns (MkBox (Coord 1 1) (Coord n m)) cs rs c x).
              { unfold cns. rewrite <- (Ens eq_refl). apply (fcell_looks o HU t _ cs rs v c x HR (tiled_bounds t n m HT) Hb). }
              destruct HLk as (K1 & K2 & K3 & K4 & K5 & K6 & K7 & _). cbn [bmax cx cy] in *. destruct (HTB eq_refl) as (_ & Sc & Sr).
              split; [|split; [|split; [|split; [|split; [|split]]]]].
              -- rewrite S4. unfold fcell_style. cbn [String.eqb Ascii.eqb Bool.eqb]. rewrite A5.
                 destruct (dget (c_styles c) "align") as [w|]; cbn [renamed_as] in K6; [|rewrite K6; reflexivity].
                 destruct K6 as (s & y & -> & Hi & ->). destruct Hi as [[= <- <-]|[[= <- <-]|[[= <- <-]|[[= <- <-]|[]]]]]; reflexivity.
              -- rewrite S4. unfold fcell_style. cbn [String.eqb Ascii.eqb Bool.eqb]. rewrite A4.
                 destruct (dget (c_styles c) "vertical-align") as [w|]; cbn [renamed_as] in K5; [|rewrite K5; reflexivity].
                 destruct K5 as (s & y & -> & Hi & ->). destruct Hi as [[= <- <-]|[[= <- <-]|[[= <- <-]|[[= <- <-]|[[= <- <-]|[]]]]]]; reflexivity.
              -- rewrite S4. unfold fcell_style. cbn [String.eqb Ascii.eqb Bool.eqb]. rewrite A3.
                 destruct (dget (c_styles c) "background-color") as [w|]; cbn [as_is] in K7; [|rewrite K7; reflexivity]. destruct K7 as (s & -> & ->). destruct s; reflexivity.
              -- intros Hlt w Hw. rewrite S4, Sc. unfold fcell_style. cbn [String.eqb Ascii.eqb Bool.eqb]. rewrite A1. apply sep_back. apply (K1 ltac:(lia)). exact Hw.
              -- intros Hlt w Hw. rewrite S4, Sr. unfold fcell_style. cbn [String.eqb Ascii.eqb Bool.eqb]. rewrite A2. apply sep_back. apply (K3 ltac:(lia)). exact Hw.
              -- intros E. rewrite S4. unfold fcell_style. cbn [String.eqb Ascii.eqb Bool.eqb]. rewrite A1, (K2 E). reflexivity.
              -- intros E. rewrite S4. unfold fcell_style. cbn [String.eqb Ascii.eqb Bool.eqb]. rewrite A2, (K4 E). reflexivity.
            * intros y Hy. rewrite S4. unfold fcell_style. destruct (String.eqb_spec y "cellstyle") as [Ey|_]; [congruence|].
              pose proof (fun z Hz => cell_attrs_none o cns t cs rs v c x z HU Hb (low_name cns z Hz)) as K.
              rewrite A1, A2, A3, A4, A5. rewrite (K "colsep"%string), (K "rowsep"%string), (K "bgcolor"%string), (K "valign"%string), (K "align"%string) by (cbn; intuition discriminate).
              repeat match goal with |- context [String.eqb y ?z] => destruct (String.eqb y z); [reflexivity|] end. reflexivity.
        - rewrite Ec in Ec0. injection Ec0 as <-.
          assert (Hrq : q < row_of c) by (apply (Hfn _ v Hr Hv), Hnf).
          rewrite Eem in S1. split.
          { destruct (content_back o p t HP cs rs v c x nt Hin Hb ltac:(rewrite N2; reflexivity) N3) as [K1 K2]. split; intros Hs; rewrite S1; [apply K1|apply K2]; exact Hs. }
          exists v. split; [exact Hv|]. split; [intros D; exfalso; change (row_of c <= q) in D; lia|]. intros _. split; [exact S2|]. split.
          + rewrite S4. unfold given. cbn [String.eqb Ascii.eqb Bool.eqb]. unfold cns. rewrite (row_attribute o p t Ens cs rs v row nt None "rowstyle" Hrb N4) by (cbn; intuition discriminate). reflexivity.
          + apply (marks_back o p t Ens cs rs t' v row nt None (c_styles c') Hrb N4); [intros HU; apply (HTB HU)|]. intros y _. apply S4. }
      destruct (Forall2_perm_r _ _ _ _ HG HPm) as (g' & Pg & Fg).
      destruct (Forall2_perm_r _ l' g g' HPf Pg) as (l2 & Pl2 & Fl2). exists l2. split; [eapply perm_trans; [apply Permutation_sym, HPl|exact Pl2]|].
      assert (HF3 : forall L, (forall c, In c L -> In c (table_iter t)) -> forall g2, Forall2 (laid (Shown cns (pf_embed p) t (frb cs rs) (fcb cs rs) (fnb cs rs))) g2 L ->
         Forall2 (fun s c => laid (Shown cns (pf_embed p) t (frb cs rs) (fcb cs rs) (fnb cs rs)) s c /\ In c (table_iter t)) g2 L).
      { intros L HLin g2 G2. induction G2 as [|s c g2 L Hs G2 IH]; constructor; [split; [exact Hs|apply HLin; left; reflexivity]|]. apply IH. intros y Hy. apply HLin. right. exact Hy. }
      specialize (HF3 _ (fun c H => H) _ Fg).
      exact (Forall2_trans_l _ _ _ _ _ _ (fun c' s c H1 H2 => HFin s c (proj1 H2) (proj2 H2) c' H1) Fl2 HF3).
    - intros r v v' Hr Hv Hv'. specialize (HRows r v' ltac:(lia) Hv').
      rewrite Epns in HRows. fold cns in HRows. rewrite Eit, Eno in HRows. unfold row_described in HRows.
      destruct (nth_error rows (Z.to_nat (r - 1))) as [w|] eqn:Ew; [|apply nth_error_None in Ew; lia].
      pose proof (Hrd _ _ Ew) as Hw. replace (Z.of_nat (Z.to_nat (r - 1)) + 1) with r in Hw by lia. assert (w = v) as -> by (unfold reads in Hw, Hv; congruence).
      set (L := map (fun pr => (line_nature None (snd pr), line_look None cns (Z.of_nat (fst pr)) (snd pr))) pairs ++ map (fun _ => ("footer"%string, no_look)) notes).
      assert (EIt : frow_items None cns (map FColumn specs ++ map line_at plines ++ map FNotes notes) = L).
      { unfold frow_items, L, plines. rewrite !flat_map_app, map_map.
        assert (E0 : forall l : list xnode, flat_map (fun i => match i with FColumn _ => [] | FLine blks x => [(line_nature None x, line_look None cns blks x)] | FNotes _ => [("footer"%string, no_look)] end) (map FColumn l) = []) by (induction l0; [reflexivity|assumption]).
        rewrite E0. cbn [app]. f_equal; [clear; induction pairs as [|pr l IH]; [reflexivity|]; cbn [map flat_map app line_at fst snd]; f_equal; exact IH|].
        clear. induction notes as [|x l IH]; [reflexivity|]. cbn [map flat_map app]. f_equal. exact IH. }
      rewrite EIt in HRows. unfold L in HRows.
      assert (Lp : List.length pairs = Z.to_nat q) by (rewrite <- (Forall2_len _ _ _ HL2); exact L1).
      split; intros Hrq.
      + rewrite nth_error_app1 in HRows by (rewrite map_length; lia).
        assert (Ev : nth_error rows1 (Z.to_nat (r - 1)) = Some v) by (rewrite E12, nth_error_app1 in Ew by lia; exact Ew).
        assert (EP : exists pr, nth_error pairs (Z.to_nat (r - 1)) = Some pr /\ exists row, rb o p t cs rs v row /\ finished_row ns row (fst pr) (snd pr)).
        { revert Ev. generalize (Z.to_nat (r - 1)) as i. revert HL2. generalize rows1 as l0. clear. intros l0 HL2. induction HL2 as [|v0 pr l1 l2 H0 HL2 IH]; intros i Hi; [destruct i; discriminate Hi|].
          destruct i as [|i]; cbn [nth_error] in *; [injection Hi as ->; exists pr; split; [reflexivity|exact H0]|]. apply IH, Hi. }
        destruct EP as ([d row'] & EP & row & Hrb & (type & level & Hd & Ed & Ht & Ha & _)). cbn [fst snd] in *.
        rewrite (map_nth_error _ _ _ EP) in HRows. destruct HRows as [Q1 Q2]. cbn [fst snd] in *. exists type, level.
        split; [apply (says_decoded o p t Ens cs rs v row _ _ _ Hrb), Hd|].
        assert (El : Z.of_nat d = level) by (pose proof (decoded_level _ _ _ _ _ Hd); lia). rewrite El in Q2.
        split; [|split].
        * rewrite Q1. unfold line_nature, nature_or_body. rewrite (tag_named None row' "ROW" "ROW" Ht). cbn [String.eqb Ascii.eqb Bool.eqb]. change (attribute None row' "TYPE") with (x_get row' "TYPE"). rewrite (proj1 Ha). reflexivity.
        * rewrite Q2. unfold line_look, given. cbn [String.eqb Ascii.eqb Bool.eqb]. unfold cns. rewrite (row_attribute o p t Ens cs rs v row row' type "rowstyle" Hrb Ha) by (cbn; intuition discriminate).
          cbn [superfluous existsb String.eqb Ascii.eqb Bool.eqb orb not_empty or_else]. unfold line_label. rewrite (tag_named None row' "ROW" "ROW" Ht). cbn [String.eqb Ascii.eqb Bool.eqb].
          change (attribute None row' "TYPE") with (x_get row' "TYPE"). rewrite (proj1 Ha). reflexivity.
        * apply (marks_back o p t Ens cs rs t' v row row' type (v_styles v') Hrb Ha); [intros HU; apply (HTB HU)|]. intros y Hy. rewrite Q2. unfold line_look.
          destruct (String.eqb_spec y "rowstyle") as [E|_]; [contradiction|reflexivity].
      + assert (Ln : List.length notes = (Z.to_nat m - Z.to_nat q)%nat).
        { rewrite <- (Forall2_len _ _ _ HNo), <- (Forall2_len _ _ _ HLB). lia. }
        rewrite nth_error_app2 in HRows by (rewrite map_length; lia).
        destruct (nth_error (map (fun _ : xnode => ("footer"%string, no_look)) notes) (Z.to_nat (r - 1) - List.length (map (fun pr => (line_nature None (snd pr), line_look None cns (Z.of_nat (fst pr)) (snd pr))) pairs))) as [[na lk]|] eqn:EQ.
        * apply nth_error_In in EQ. apply in_map_iff in EQ as (x & [= <- <-] & _). destruct HRows as [Q1 Q2]. split; [exact Q1|exact Q2].
        * exfalso. apply nth_error_None in EQ. rewrite !map_length in EQ. lia.
    - destruct (fo_use_cals o) eqn:HU; [apply HTB; reflexivity|]. exact (ftable_bare o p t e' _ rows n cs rs t' HU HC Epns Hclass' Hpage' Hpg HTA).
    - intros j v v' Hj Hv Hv'. pose proof (proj1 HL) as HLy. rewrite Epns in HLy. fold cns in HLy. rewrite Eit, Eno in HLy.
      assert (HN : forall c, ~ In (FColumn c) (map line_at plines ++ map FNotes notes)) by (intros c Hc; apply in_app_iff in Hc as [Hc|Hc]; apply in_map_iff in Hc as (? & ? & _); discriminate).
      destruct (fo_use_cals o) eqn:HU.
      + destruct (HCl eq_refl) as (cols & K1 & K2 & K3). destruct (HTB eq_refl) as (_ & Sc & Sr).
        refine (fcolumns_kept p t t' n l (map line_at plines ++ map FNotes notes) specs cols cs rs _ _ HN _ K1 HR HCn K3 K2 Sc Sr HCD j v v' Hj Hv Hv'). rewrite Epns. exact HLy.
      + subst specs. refine (fcolumns_bare p t' l (map line_at plines ++ map FNotes notes) HN _ HCD j v' ltac:(lia) Hv'). rewrite Epns. exact HLy.
  Qed.
End Finished.
