(** * Writing a table as Formex and reading it back: the trees of the builder *)
From Coq Require Import QArith.
From Verif Require Import Base M_Geometry M_Xml M_Cell M_Grid M_Table M_Str M_Units M_Builder M_Cals M_CalsParser M_Formex M_FormexParser M_FormexRead.
From Verif Require Import S_Geometry S_Grid S_Table S_Units S_Builder S_Cals S_Int S_CalsParser S_RoundTrip S_Formex S_Attrs S_FormexRead S_FormexTrip S_Axes.
From Verif Require Import P_Geometry P_Grid P_GridFacts P_Table P_TableFacts P_TableMore P_Str P_Int P_Builder P_Cals P_CalsParser P_CalsLayout P_CalsEvents P_CalsSim P_CalsTable P_CalsMore P_RoundTrip P_RoundTripAttrs P_RoundTripMain P_Formex P_Attrs P_FormexEvents P_FormexSim P_FormexTable P_FormexTrip P_FormexTripRead.
From Verif Require Import P_Axes P_FAxes T_FormexRead.
Open Scope list_scope.
Open Scope Z_scope.

(** ** Elements without CALS attributes *)

Lemma fmx_apart cns k n : fmx_name k -> ~ fmx_name n -> expanded cns n <> k.
Proof.
  intros Hk Hn. rewrite <- qname_expanded.
  exact (fmx_other (MkFmxOpts (MkCalsOpts cns "mm" false [] (fun _ => ""%string)) false false) k n Hk Hn).
Qed.
Lemma fcell_bare o bb cs rs v c e : fo_use_cals o = false -> build_fcell o bb cs rs v c = Ok e -> forall k, ~ fmx_name k -> x_get e k = None.
Proof.
  intros HU H k Hk. unfold build_fcell in H. bind H as a1 E1.
  match type of H with rbind (if fo_use_cals o then cell_cals_attrs _ _ _ _ _ ?b else _) _ = _ => set (a3 := b) in * end.
  rewrite HU in H. cbn [rbind] in H. bind H as attrs E5.
  assert (He : x_attrs e = attrs).
  { destruct (fmx_empty c); [injection H as <-; reflexivity|]. apply content_written in H as (_ & Ha & _). exact Ha. }
  unfold x_get. rewrite He, (make_attrs_get _ _ _ E5).
  assert (K : forall x, fmx_name x -> x <> k) by (intros x Hx ->; contradiction).
  assert (E : dget a3 k = None); [|rewrite E; reflexivity].
  assert (A1 : dget a1 k = None).
  { assert (A0 : dget [("COL"%string, SStr (py_str_int (cx (c_min c))))] k = None).
    { cbn [dget]. destruct (String.eqb_spec k "COL") as [->|_]; [exfalso; apply Hk; cbn; tauto|reflexivity]. }
    destruct (nature_differs _ _); [|congruence]. bind E1 as ty Et. injection E1 as <-. cbn [dset String.eqb Ascii.eqb Bool.eqb]. cbn [dget] in *. destruct (String.eqb k "COL"); [discriminate A0|].
    destruct (String.eqb_spec k "TYPE") as [->|_]; [exfalso; apply Hk; cbn; tauto|reflexivity]. }
  unfold a3. destruct (1 <? c_height c); [rewrite dget_dset_other by (apply K; cbn; tauto)|];
    (destruct (1 <? c_width c); [rewrite dget_dset_other by (apply K; cbn; tauto)|]; exact A1).
Qed.

(** The row of [build_frow] *)
Definition frow_built (o : fmx_opts) (t : table) (cs rs : string) (v : view) (row : xnode) : Prop :=
  x_tag row = Some "ROW"%string /\ x_text row = None /\ x_tail row = None /\
  x_get row "TYPE" = row_type (v_nature v) /\
  Forall2 (fun c e => build_fcell o (table_bounding_box t) cs rs v c = Ok e) (v_owned v) (x_children row) /\
  (fo_use_cals o = false -> x_attrs row = match row_type (v_nature v) with Some s => [("TYPE"%string, s)] | None => [] end).
Definition around (v : view) (row : xnode) (items : list xnode) : Prop :=
  match dget (v_styles v) "x-ins" with
  | None => items = [row]
  | Some _ => exists a b, items = [XPI "change-start" a None; row; XPI "change-end" b None]
  end.
Lemma build_frow_parts o t cs rs v items : build_frow o (table_bounding_box t) cs rs v = Ok items ->
  exists row, frow_built o t cs rs v row /\ around v row items.
Proof.
  intros H0. destruct (build_frow_spec o _ _ _ _ _ H0) as (row0 & D1 & D2 & D3 & D4 & _ & D6).
  pose proof H0 as H. unfold build_frow in H. bind H as a E1. bind H as start E3. bind H as attrs E4.
  bind H as finish E5. bind H as cells E6. injection H as Hit.
  exists row0. split; [|exact D6].
  assert (Er : row0 = XElem "ROW" attrs None cells None).
  { unfold dmem in *. destruct (dget (v_styles v) "x-ins") as [x|].
    - destruct D6 as (a1 & a2 & ->). unfold revision_mark in *. bind E3 as p1 F1. bind F1 as q1 F2. injection F1 as <-. injection E3 as <-.
      cbn [app] in Hit. congruence.
    - rewrite D6 in Hit. injection E3 as <-. cbn [app] in Hit. congruence. }
  split; [exact D1|]. split; [exact D2|]. split; [exact D3|]. split; [exact D4|]. split.
  - subst row0. cbn [x_children]. apply rmap_Forall2 in E6. exact E6.
  - intros HU. rewrite HU in E1. injection E1 as <-. subst row0. cbn [x_attrs].
    unfold row_type_attr in E4. unfold row_type. destruct (v_nature v) as [s|]; [|cbn in E4; congruence].
    destruct (String.eqb s "header"); [cbn in E4; congruence|]. destruct (String.eqb s "footer"); cbn in E4; congruence.
Qed.

Lemma table_line_fun st style cs cs' : table_sep st style = Ok cs -> table_line st style cs' -> cs' = cs.
Proof.
  unfold table_sep, get_sep_attr. intros H [H1 H2]. pose proof (border_spec st style) as HB.
  destruct (get_border_style st style) as [[w|]|x]; cbn [rbind] in H; [| |discriminate].
  - injection H as <-. apply H1, HB.
  - injection H as <-. apply H2. exact HB.
Qed.

Lemma page_size_of st a a' : page_size st a = Ok a' -> dget st "x-sect-orient" <> None -> exists w h, page_of st w h.
Proof.
  unfold page_size. destruct (dget st "x-sect-orient") as [v|]; [|congruence]. intros H _. bind H as wh E. unfold page_of.
  destruct (dget st "x-sect-size") as [[s|b|w h|]|]; try discriminate E; [destruct s; discriminate E|eauto|eauto 6].
Qed.

(** *** The whole CORPUS *)
Definition corpus_built (o : fmx_opts) (t : table) (rows : list view) (n : Z) (cs rs : string) (corpus : xnode) : Prop :=
  x_tag corpus = Some "CORPUS"%string /\ x_text corpus = None /\ x_tail corpus = None /\
  (exists specs items, x_children corpus = specs ++ List.concat items /\
    (if fo_use_cals o then Forall2 (describes_column (co_ns (fo_cals o))) (zrange 1 (n + 1)) specs else specs = []) /\
    Forall2 (fun v its => exists row, frow_built o t cs rs v row /\ around v row its /\
                            build_frow o (table_bounding_box t) cs rs v = Ok its) rows items) /\
  (fo_use_cals o = false -> x_attrs corpus = []) /\
  (fo_use_cals o = true ->
     table_look (co_ns (fo_cals o)) (co_unit (fo_cals o)) (co_fmt (fo_cals o)) t corpus /\
     attribute (co_ns (fo_cals o)) corpus "tabstyle" = t_nature t /\
     attribute (co_ns (fo_cals o)) corpus "colsep" = Some cs /\ attribute (co_ns (fo_cals o)) corpus "rowsep" = Some rs /\
     separators_of t cs rs).

Lemma tbl_built o k t e : treachable t -> (fo_titles o = true -> ~ has_title t) -> generate_tbl o k t = Ok e ->
  exists rows n corpus cs rs, table_views Rows t = Ok rows /\ view_count Cols t n /\ x_children e = [corpus] /\ corpus_built o t rows n cs rs corpus /\
    x_tag e = Some "TBL"%string /\ x_text e = None /\ x_tail e = None /\ page_shown (t_styles t) (x_get e "PAGE.SIZE") /\
    (dget (t_styles t) "x-sect-orient" <> None -> exists w h, page_of (t_styles t) w h) /\ x_get e "CLASS" = None.
Proof.
  intros HR Hti H. unfold generate_tbl in H. bind H as cols Ec. bind H as a Ea. bind H as attrs Em. bind H as ch Eh. injection H as <-.
  pose proof Eh as Eh'. unfold build_corpus in Eh'. bind Eh' as rows Er. bind Eh' as tr Et. bind Eh' as cra Ecra. destruct cra as [[cs rs] ca].
  bind Eh' as cattrs Ecm. bind Eh' as specs Es. bind Eh' as items Ei. injection Eh' as Ech.
  pose proof (split_title_spec o t rows tr HR Et) as HS.
  assert (HT : fst tr = [] /\ snd tr = rows).
  { destruct (fo_titles o); [|exact HS]. destruct HS as [[HT _]|[_ HS]]; [destruct (Hti eq_refl HT)|exact HS]. }
  destruct HT as [T1 T2]. rewrite T1, T2 in *. cbn [app] in Ech.
  set (corpus := XElem "CORPUS" cattrs None (specs ++ List.concat items) None) in *.
  exists rows, (Z.of_nat (List.length cols)), corpus, cs, rs. split; [reflexivity|]. split; [exists cols; split; [exact Ec|reflexivity]|].
  split; [cbn [x_children]; congruence|]. split.
  - split; [reflexivity|]. split; [reflexivity|]. split; [reflexivity|]. split; [|split].
    + exists specs, items. split; [reflexivity|]. split.
      * destruct (fo_use_cals o); [|congruence]. rewrite Ec in Es. cbn [rbind] in Es. apply Forall2_positions; [apply (table_views_spec _ _ _ HR Ec)|]. apply rmap_Forall2 in Es.
        eapply Forall2_impl_l; [|exact Es]. intros v e _. apply build_colspec_spec.
      * apply rmap_Forall2 in Ei. eapply Forall2_impl_l; [|exact Ei]. intros v its _ Hv. cbn beta in *.
        destruct (build_frow_parts _ _ _ _ _ _ Hv) as (row & H1 & H2). exists row. split; [exact H1|]. split; [exact H2|exact Hv].
    + intros HU. unfold corpus_attrs in Ecra. rewrite HU in Ecra. injection Ecra as <- <- <-. cbn in Ecm. injection Ecm as <-. reflexivity.
    + intros HU. assert (HBb : exists bb, table_iter t <> [] -> bounds (table_iter t) bb).
      { destruct (treachable_tinv t HR) as (og & _ & HM). assert (HV : all_valid (table_iter t)) by apply HM.
        destruct (table_iter t) as [|x l] eqn:El; [exists (MkBox (Coord 1 1) (Coord 1 1)); congruence|].
        destruct (bounds_exist (x :: l) HV ltac:(discriminate)) as (bb & Hb). exists bb. auto. }
      destruct HBb as (bb & HBb).
      destruct (corpus_looks o HU t bb ch HR HBb Eh) as (corpus' & cols' & rows' & tr' & cs' & rs' & specs' & R1 & R2 & R3 & R4 & R5 & R6 & R7 & R8 & R9 & _).
      rewrite Er in R1. injection R1 as <-. rewrite Et in R3. injection R3 as <-. rewrite T1 in R4. cbn [app] in R4. rewrite <- Ech in R4. injection R4 as <-.
      fold corpus. split; [exact R5|]. split; [exact R6|]. rewrite R7, R8.
      assert (EE : cs' = cs /\ rs' = rs).
      { unfold corpus_attrs in Ecra. rewrite HU in Ecra. bind Ecra as frame F1. bind Ecra as cs1 F2. bind Ecra as rs1 F3. bind Ecra as a1 F4. bind Ecra as a2 F5.
        injection Ecra as <- <- <-. destruct R9 as [Rc Rr]. split; [exact (table_line_fun _ _ _ _ F2 Rc)|exact (table_line_fun _ _ _ _ F3 Rr)]. }
      destruct EE as [-> ->]. auto.
  - split; [reflexivity|]. split; [reflexivity|]. split; [reflexivity|]. split.
    + unfold x_get. cbn [x_attrs]. rewrite (make_attrs_get _ _ _ Em). apply (page_look _ _ _ Ea). reflexivity.
    + split; [apply (page_size_of _ _ _ Ea)|]. unfold x_get. cbn [x_attrs]. rewrite (make_attrs_get _ _ _ Em), (page_size_key _ _ _ "CLASS" Ea) by discriminate. reflexivity.
Qed.

(** ** Reading a CELL *)

Lemma stranger_ie cns : stranger None cns (XElem "IE" [] None [] None).
Proof.
  constructor; [|intros x []]. intros [(name & Hin & Hn)|Hn].
  - cbn [fmx_names In] in Hin. repeat (destruct Hin as [<-|Hin]; [discriminate Hn|]). destruct Hin.
  - unfold named in Hn. destruct cns; discriminate Hn.
Qed.

Lemma tiled_bounds t n m : tiles (table_iter t) n m -> table_iter t <> [] -> bounds (table_iter t) (MkBox (Coord 1 1) (Coord n m)).
Proof.
  intros HT _. destruct HT as (Hn & Hm & _ & _ & HS & HC). split; [unfold valid; cbn; lia|]. split; [exact HS|].
  intros b _ Hb k Hk. destruct (HC k Hk) as (c & Hc & Hcv). exact (Hb c Hc k Hcv).
Qed.

Section Cells.
  Variable o : fmx_opts.
  Variable cns : option string.
  Variable t : table.
  Variables n m : Z.
  Hypothesis HR : treachable t.
  Hypothesis HT : tiles (table_iter t) n m.
  Hypothesis HP : plain_nodes cns (table_iter t).
  Hypothesis Ens : fo_use_cals o = true -> co_ns (fo_cals o) = cns.

  Let bb := MkBox (Coord 1 1) (Coord n m).
  Lemma cell_attrs_none cs rs v c e x : fo_use_cals o = false -> build_fcell o (table_bounding_box t) cs rs v c = Ok e -> ~ fmx_name (expanded cns x) -> attribute cns e x = None.
  Proof. intros HU He Hx. unfold attribute. exact (fcell_bare o _ _ _ _ _ _ HU He _ Hx). Qed.
  Lemma low_name x : ~ fmx_name x -> ~ fmx_name (expanded cns x).
  Proof. intros Hx Hk. exact (fmx_apart cns _ x Hk Hx eq_refl). Qed.

  Lemma fcell_spans cs rs v c e : In c (table_iter t) -> build_fcell o (table_bounding_box t) cs rs v c = Ok e ->
    fcell_span None cns e (cx (bmax (c_box c)) - col_of c + 1) (cy (bmax (c_box c)) - row_of c + 1).
  Proof.
    intros Hc He. destruct (build_fcell_spec o _ _ _ _ _ _ He) as [(_ & _ & HS & _) _].
    assert (HV : valid (c_box c)) by (destruct HT as (_ & _ & HV & _); unfold all_valid in HV; rewrite Forall_forall in HV; exact (HV c Hc)).
    assert (H1 : 1 <= cx (bmin (c_box c))).
    { destruct HT as (_ & _ & _ & _ & HSub & _). pose proof (HSub c Hc (bmin (c_box c))) as HX. unfold covers, valid in *. cbn in HX. lia. }
    unfold valid in HV.
    exists (cx (bmax (c_box c)) - col_of c + 1), (cy (bmax (c_box c)) - row_of c + 1).
    assert (HX : (cx (bmin (c_box c)) < cx (bmax (c_box c)) -> fo_use_cals o = true -> attribute cns e "namest" = Some (column_name (cx (bmin (c_box c)))) /\ attribute cns e "nameend" = Some (column_name (cx (bmax (c_box c))))) /\
       (cx (bmax (c_box c)) <= cx (bmin (c_box c)) \/ fo_use_cals o = false -> attribute cns e "namest" = None /\ attribute cns e "nameend" = None) /\
       (cy (bmin (c_box c)) < cy (bmax (c_box c)) -> fo_use_cals o = true -> attribute cns e "morerows" = Some (py_str_int (cy (bmax (c_box c)) - cy (bmin (c_box c))))) /\
       (cy (bmax (c_box c)) <= cy (bmin (c_box c)) \/ fo_use_cals o = false -> attribute cns e "morerows" = None)).
    { destruct (fo_use_cals o) eqn:HU.
      - assert (HL : cell_look (co_ns (fo_cals o)) bb cs rs c e).
        { apply (fcell_looks o HU t bb cs rs v c e HR (tiled_bounds t n m HT) He). }
        rewrite (Ens eq_refl) in HL. destruct HL as (_ & _ & _ & _ & _ & _ & _ & HL). destruct (c_box c) as [[x1 y1] [x2 y2]]. cbn [bmin bmax cx cy] in *.
        destruct HL as (L1 & L2 & L3 & L4). split; [intros; auto|]. split; [intros [?|?]; [auto|discriminate]|]. split; [auto|]. intros [?|?]; [auto|discriminate].
      - pose proof (fun x Hx => cell_attrs_none cs rs v c e x HU He (low_name x Hx)) as K.
        split; [discriminate|]. split; [intros _; split; apply K; cbn; intuition discriminate|]. split; [discriminate|]. intros _. apply K. cbn. intuition discriminate. }
    unfold number_or_one. change (attribute None e "COLSPAN") with (x_get e "COLSPAN"). change (attribute None e "ROWSPAN") with (x_get e "ROWSPAN").
    destruct (c_box c) as [[x1 y1] [x2 y2]]. cbn [bmin bmax cx cy] in *. destruct HS as (_ & S1 & S2 & S3 & S4). destruct HX as (X1 & X2 & X3 & X4).
    split; [|split; [|split]].
    - destruct (Z_lt_ge_dec x1 x2) as [Hlt|Hge]; [rewrite (S1 Hlt); apply int_text_str|rewrite (S2 ltac:(lia)); lia].
    - destruct (Z_lt_ge_dec y1 y2) as [Hlt|Hge]; [rewrite (S3 Hlt); apply int_text_str|rewrite (S4 ltac:(lia)); lia].
    - destruct (fo_use_cals o) eqn:HU; [|destruct (X2 (or_intror eq_refl)) as [-> ->]; reflexivity].
      destruct (Z_lt_ge_dec x1 x2) as [Hlt|Hge]; [|destruct (X2 ltac:(lia)) as [-> ->]; reflexivity].
      destruct (X1 Hlt eq_refl) as [-> ->]. cbn [not_empty column_name String.append]. exists x1, x2.
      split; [apply (first_number_column "c"); [apply digit_c|lia]|]. split; [apply (first_number_column "c"); [apply digit_c|lia]|]. lia.
    - destruct (fo_use_cals o) eqn:HU; [|rewrite (X4 (or_intror eq_refl)); reflexivity].
      destruct (Z_lt_ge_dec y1 y2) as [Hlt|Hge]; [|rewrite (X4 ltac:(lia)); reflexivity].
      rewrite (X3 Hlt eq_refl). pose proof (int_text_str (y2 - y1)) as HI. unfold not_empty. destruct (py_str_int (y2 - y1)) eqn:Es.
      + apply py_int_spec in HI. discriminate.
      + replace (y2 - y1 + 1 - 1) with (y2 - y1) by lia. exact HI.
  Qed.

  Lemma fcell_children cs rs v c e : In c (table_iter t) -> build_fcell o (table_bounding_box t) cs rs v c = Ok e ->
    (forall x, In x (x_children e) -> stranger None cns x) /\ content_shown c e.
  Proof.
    intros Hc He. destruct (build_fcell_spec o _ _ _ _ _ _ He) as [(_ & _ & _ & HE & HN) _].
    assert (D : shown_empty c \/ ~ shown_empty c).
    { destruct (fmx_empty c) eqn:E; [left; apply fmx_empty_spec, E|right; rewrite <- fmx_empty_spec; congruence]. }
    destruct D as [D|D].
    - destruct (HE D) as [E1 E2]. split; [rewrite E2; intros x [<-|[]]; apply stranger_ie|]. split; [|contradiction]. intros _.
      unfold fcontent_of. rewrite E2. reflexivity.
    - specialize (HN D). assert (K : forall x, In x (x_children e) -> stranger None cns x /\ x_tag x <> Some "IE"%string).
      { intros x Hx. apply entry_child in Hx. rewrite HN in Hx. destruct (HP c _ Hc Hx) as [K1 K2]. split; [exact (stranger_tail _ _ _ _ K1)|]. rewrite set_tail_tag in K2. exact K2. }
      split; [intros x Hx; apply K, Hx|]. split; [contradiction|]. intros _. unfold fcontent_of.
      destruct (existsb (has_name None "IE") (x_children e)) eqn:Ex; [|rewrite content_read; exact HN].
      exfalso. apply existsb_exists in Ex as (x & Hx & Hn). apply (K x Hx). apply (has_tag_spec (MkPCalsOpts None "mm" (fun _ => ""%string))) in Hn. exact Hn.
  Qed.
  Lemma fcell_readable cs rs v c e : In c (table_iter t) -> build_fcell o (table_bounding_box t) cs rs v c = Ok e -> readable_cell cns c e.
  Proof.
    intros Hc He. split; [apply (build_fcell_spec o _ _ _ _ _ _ He)|]. split; [exact (fcell_spans cs rs v c e Hc He)|].
    apply (fcell_children cs rs v c e Hc He).
  Qed.
End Cells.

(** ** What is read back *)

Lemma frame_dec f s : In f six_frames -> frame_shows f s \/ ~ frame_shows f s.
Proof.
  intros H. unfold six_frames in H. cbn [In] in H.
  destruct H as [<-|[<-|[<-|[<-|[<-|[<-|[]]]]]]]; unfold frame_shows; destruct s; solve [left; intuition congruence|right; intuition congruence].
Qed.
Lemma drawn_frame st f s v : In f six_frames -> dget st (side_style s) = v ->
  (frame_shows f s -> v = Some (SStr "solid 1pt black")) -> (~ frame_shows f s -> v = Some (SStr "none")) -> (drawn st s <-> frame_shows f s).
Proof.
  intros Hf <- H1 H2. destruct (line_in st (side_style s)) as [L1 L2]. split.
  - intros (w & Hw & Hne & _). destruct (frame_dec f s Hf) as [D|D]; [exact D|]. specialize (L2 (H2 D)). pose proof (line_fun _ _ _ _ Hw L2). contradiction.
  - intros D. exists "black"%string. split; [apply L1, H1, D|]. split; discriminate.
Qed.

Lemma ftable_back o p t e corpus rows n cs rs t' : fo_use_cals o = true -> co_ns (fo_cals o) = pf_cals_ns p ->
  corpus_built o t rows n cs rs corpus -> pf_ns p = None -> x_get e "CLASS" = None -> page_shown (t_styles t) (x_get e "PAGE.SIZE") ->
  ftable_attributes (pf_ns p) (pf_cals_ns p) (Some e) corpus t' -> table_kept t' t /\
  dget (t_styles t') "x-cell-border-right" = text_look (separator_line (Some cs)) /\ dget (t_styles t') "x-cell-border-bottom" = text_look (separator_line (Some rs)).
Proof.
  intros HU Ens (_ & _ & _ & _ & _ & HL) Epns Hclass Hpage (HF & HS & HN). destruct (HL HU) as (((f & Ef & Hf6 & Hf) & Ho & Hp & Hb & _) & Htab & Hcs & Hrs & [Lc Lr]).
  rewrite Ens in *. rewrite Epns in *.
  assert (Nf : not_empty (Some f) = Some f) by (unfold six_frames in Hf6; cbn [In] in Hf6; destruct Hf6 as [<-|[<-|[<-|[<-|[<-|[<-|[]]]]]]]; reflexivity).
  assert (Sc : dget (t_styles t') "x-cell-border-right" = text_look (separator_line (Some cs))).
  { rewrite HS by (vm_compute; intuition discriminate). unfold ftable_style. cbn [String.eqb Ascii.eqb Bool.eqb]. rewrite Hcs. reflexivity. }
  assert (Sr : dget (t_styles t') "x-cell-border-bottom" = text_look (separator_line (Some rs))).
  { rewrite HS by (vm_compute; intuition discriminate). unfold ftable_style. cbn [String.eqb Ascii.eqb Bool.eqb]. rewrite Hrs. reflexivity. }
  split; [|split; assumption]. unfold table_kept. split; [|split; [|split; [|split; [|split; [|split]]]]].
  - intros f0 Hin Hs s. specialize (Hf (ex_intro _ f0 (conj Hin Hs)) s). rewrite <- Hf. specialize (HF s). unfold table_frame in HF. rewrite Ef, Nf in HF.
    destruct HF as (_ & H1 & H2). exact (drawn_frame _ f s _ Hf6 eq_refl H1 H2).
  - rewrite HN. unfold ftable_nature. cbn [parent_attribute]. rewrite Htab. change (attribute None e "CLASS") with (x_get e "CLASS"). rewrite Hclass.
    destruct (t_nature t) as [[|a s]|]; reflexivity.
  - rewrite HS by (vm_compute; intuition discriminate). unfold ftable_style. cbn [String.eqb Ascii.eqb Bool.eqb parent_attribute].
    change (attribute None e "PAGE.SIZE") with (x_get e "PAGE.SIZE").
    destruct (dget (t_styles t) "x-sect-orient") as [v|] eqn:Eo; cbn [renamed_as] in Ho.
    + destruct Ho as (s & w & -> & Hin & ->). destruct Hin as [[= <- <-]|[[= <- <-]|[]]]; reflexivity.
    + rewrite Ho, (proj1 Hpage Eo). reflexivity.
  - rewrite HS by (vm_compute; intuition discriminate). unfold ftable_style. cbn [String.eqb Ascii.eqb Bool.eqb]. rewrite Hp.
    destruct (dget (t_styles t) "x-sect-cols") as [[s|b|a b|]|]; [|reflexivity|reflexivity|reflexivity|reflexivity].
    destruct s as [|[[] [] [] [] [] [] [] []] [|]]; reflexivity.
  - rewrite HS by (vm_compute; intuition discriminate). unfold ftable_style. cbn [String.eqb Ascii.eqb Bool.eqb].
    destruct (dget (t_styles t) "background-color") as [v|]; cbn [as_is] in Hb; [|rewrite Hb; reflexivity]. destruct Hb as (s & -> & ->). destruct s; reflexivity.
  - intros style w Hin Hline. destruct Hin as [<-|[<-|[]]].
    + rewrite Sc, (proj1 Lc w Hline), shown_line. unfold kept_line. destruct (String.eqb w "none"); reflexivity.
    + rewrite Sr, (proj1 Lr w Hline), shown_line. unfold kept_line. destruct (String.eqb w "none"); reflexivity.
  - intros _. rewrite HS by (vm_compute; intuition discriminate). reflexivity.
Qed.

Lemma ftable_bare o p t e corpus rows n cs rs t' : fo_use_cals o = false -> corpus_built o t rows n cs rs corpus -> pf_ns p = None ->
  x_get e "CLASS" = None -> page_shown (t_styles t) (x_get e "PAGE.SIZE") -> (dget (t_styles t) "x-sect-orient" <> None -> exists w h, page_of (t_styles t) w h) ->
  ftable_attributes (pf_ns p) (pf_cals_ns p) (Some e) corpus t' -> ftable_kept false t' t.
Proof.
  intros HU (_ & _ & _ & _ & HA & _) Epns Hclass (P1 & P2) Hpg (HF & HS & HN). specialize (HA HU). rewrite Epns in *.
  assert (A : forall x, attribute (pf_cals_ns p) corpus x = None) by (intros x; unfold attribute, x_get; rewrite HA; reflexivity).
  assert (HO : dget (t_styles t') "x-sect-orient" = text_look (page_orient (x_get e "PAGE.SIZE"))).
  { rewrite HS by (vm_compute; intuition discriminate). unfold ftable_style. cbn [String.eqb Ascii.eqb Bool.eqb]. rewrite A. reflexivity. }
  split; [rewrite HN; unfold ftable_nature; rewrite A; exact Hclass|]. split; [|split; [|split]].
  - intros k Hk. destruct (in_dec string_dec k ["border-top"; "border-bottom"; "border-left"; "border-right"]%string) as [D|D].
    + assert (HX : exists s, k = side_style s).
      { cbn [In] in D. destruct D as [<-|[<-|[<-|[<-|[]]]]]; [exists TopSide|exists BottomSide|exists LeftSide|exists RightSide]; reflexivity. }
      destruct HX as (s & ->). specialize (HF s). unfold table_frame in HF. rewrite A in HF. exact HF.
    + rewrite (HS k D). unfold ftable_style. rewrite !A.
      repeat match goal with |- context [String.eqb k ?x] => destruct (String.eqb_spec k x) as [->|_]; [try reflexivity; try (exfalso; apply Hk; reflexivity)|] end. reflexivity.
  - intros E. rewrite HO, (P1 E). reflexivity.
  - intros E. destruct (Hpg ltac:(congruence)) as (w & h & Hwh). destruct (P2 w h Hwh) as [P2a _]. destruct (P2a E) as [Q1 Q2]. rewrite HO.
    assert (D : one_page w h \/ ~ one_page w h) by (unfold one_page; lia). destruct D as [D|D]; [rewrite (Q1 D)|rewrite (Q2 D)]; reflexivity.
  - intros w h Hwh E. destruct (P2 w h Hwh) as [_ P2b]. destruct (P2b E) as [Q1 Q2]. rewrite HO. split; intros D; [rewrite (Q1 D)|rewrite (Q2 D)]; reflexivity.
Qed.

Lemma line_nature_type row na : x_tag row = Some "ROW"%string -> x_get row "TYPE" = row_type na -> line_nature None row = header_or_body na.
Proof.
  intros H E. unfold line_nature. rewrite (tag_named None row "ROW" "ROW" H). change (attribute None row "TYPE") with (x_get row "TYPE"). rewrite E.
  cbn [String.eqb Ascii.eqb Bool.eqb]. unfold row_type, header_or_body. destruct na as [s|]; [|reflexivity].
  destruct (String.eqb s "header"); [reflexivity|]. destruct (String.eqb s "footer"); reflexivity.
Qed.
Lemma sep_back v d w : effective v d = shown w -> own_or_default (text_look (separator_line v)) (text_look (separator_line (Some d))) = Some (kept_line w).
Proof.
  intros E. unfold kept_line. unfold shown in E. destruct v as [s|]; cbn [effective] in E; subst; destruct (String.eqb w "none"); reflexivity.
Qed.

Section Trip.
  Variable o : fmx_opts.
  Variable p : pfmx_opts.
  Variable k : Z.
  Variable t : table.
  Variables n m : Z.
  Variable e : xnode.
  Hypothesis HR : treachable t.
  Hypothesis Epns : pf_ns p = None.
  Hypothesis Ens : fo_use_cals o = true -> co_ns (fo_cals o) = pf_cals_ns p.
  Hypothesis Hti : fo_titles o = true -> ~ has_title t.
  Hypothesis HT : tiles (table_iter t) n m.
  Hypothesis HCn : view_count Cols t n.
  Hypothesis HRn : view_count Rows t m.
  Hypothesis HO : rows_ordered t.
  Hypothesis HP : plain_nodes (pf_cals_ns p) (table_iter t).
  Hypothesis HE : generate_tbl o k t = Ok e.

  Let cns := pf_cals_ns p.
  Definition rb (cs rs : string) (v : view) (row : xnode) : Prop :=
    frow_built o t cs rs v row /\
    (fo_use_cals o = true -> row_look cns rs v row /\ as_is (dget (v_styles v) "background-color") (attribute cns row "bgcolor")).
  Definition cb (cs rs : string) (v : view) (row : xnode) (c : cell) (x : xnode) : Prop :=
    rb cs rs v row /\ build_fcell o (table_bounding_box t) cs rs v c = Ok x.

  Lemma fround_trip : exists corpus t', x_children e = [corpus] /\ parse_formex p (Some e) 0 [] corpus = Ok t' /\
    (exists l, Permutation (table_iter t') l /\ Forall2 (fcell_kept (fo_use_cals o) t t' n m) l (table_iter t)) /\
    view_count Cols t' n /\
    (forall r v v', 1 <= r <= m -> reads Rows r t v -> reads Rows r t' v' -> frow_kept (fo_use_cals o) t' v' v) /\
    ftable_kept (fo_use_cals o) t' t /\
    (forall j v v', 1 <= j <= n -> reads Cols j t v -> reads Cols j t' v' ->
      fcolumn_kept (fo_use_cals o) (co_unit (fo_cals o)) (co_fmt (fo_cals o)) t' v' v).
  Proof.
    destruct (tbl_built o k t e HR Hti HE) as (rows & n' & corpus & cs & rs & Er & Hn' & Ech & HC & Htag & _ & _ & Hpage & Hpg & Hclass).
    pose proof (view_count_fun _ _ _ _ Hn' HCn) as ->.
    assert (Em : Z.of_nat (List.length rows) = m) by (destruct HRn as (vs & Ev & ->); unfold table_views in Er; congruence).
    pose proof HC as (C1 & C2 & C3 & (specs & items & Esp & Hsp & Hit) & C5 & C6).
    assert (HCl : fo_use_cals o = true -> exists cols, table_views Cols t = Ok cols /\ separators_of t cs rs /\
        Forall2 (column_look cns (co_unit (fo_cals o)) (co_fmt (fo_cals o)) cs rs) cols specs).
    { intros HU. rewrite HU in Hsp. destruct (tbl_columns o k t e corpus specs (List.concat items) n HR HU HE Ech HCn Esp Hsp) as (cols & cs' & rs' & K1 & K2 & K3 & K4 & K5).
      destruct (C6 HU) as (_ & _ & K6 & K7 & _). assert (cs' = cs) as -> by congruence. assert (rs' = rs) as -> by congruence.
      exists cols. unfold cns. rewrite <- (Ens HU). auto. }
    assert (HB : forall v row c x, cb cs rs v row c x -> In c (table_iter t) -> readable_cell cns c x).
    { intros v row c x [_ Hb] Hc. exact (fcell_readable o cns t n m HR HT HP Ens cs rs v c x Hc Hb). }
    assert (HSh : tree_shape cns n corpus specs items).
    { split; [exact C1|]. split; [exact Esp|]. destruct (fo_use_cals o); [right; rewrite (Ens eq_refl) in Hsp; exact Hsp|left; exact Hsp]. }
    assert (HF : Forall2 (items_of_view (rb cs rs) (cb cs rs)) rows items).
    { eapply Forall2_impl_l; [|exact Hit]. intros v its _ (row & Hrow & Har & Hbr). cbn beta.
      assert (Hrb : rb cs rs v row).
      { split; [exact Hrow|]. intros HU. destruct (frow_looks o HU t _ cs rs v its HR (tiled_bounds t n m HT) Hbr) as (row' & _ & (L1 & L2 & _) & HM).
        assert (row' = row) as ->.
        { unfold around in Har. unfold insertion_marks in HM. destruct (dget (v_styles v) "x-ins"); [|congruence].
          destruct Har as (a & b & ->). destruct HM as (? & ? & ? & ? & ? & HM & _). congruence. }
        unfold frow_more in L2. rewrite (Ens HU) in *. split; assumption. }
      exists row. split.
      - split; [apply Hrow|]. split; [exact Hrb|]. destruct Hrow as (_ & _ & _ & _ & HFc & _). eapply Forall2_impl_l; [|exact HFc].
        intros c x _ Hx. split; [exact Hrb|exact Hx].
      - unfold around in Har. destruct (dget (v_styles v) "x-ins"); [right|left]; exact Har. }
    assert (Hne : rows <> []) by (intros E; subst rows; destruct HT as (_ & ? & _); cbn in Em; lia).
    destruct (tree_laid cns (pf_embed p) t n m HR HT HO (rb cs rs) (cb cs rs) (fun _ _ _ => False) HB 0 [] corpus specs items rows rows [] Er Em ltac:(rewrite app_nil_r; reflexivity) Hne HSh HF (Forall2_nil _))
      as (Hprop & lines & l & g & P & HLn & Eit & HL & Hcols & HG & HPm).
    assert (Hfr : frame_known (pf_cals_ns p) corpus).
    { intros f Hf. destruct (fo_use_cals o) eqn:HU.
      - destruct (C6 eq_refl) as (((f0 & Ef & H6 & _) & _) & _). rewrite (Ens eq_refl) in Ef. rewrite Ef in Hf.
        destruct f0; [discriminate Hf|injection Hf as <-; exact H6].
      - unfold attribute, x_get in Hf. rewrite (C5 eq_refl) in Hf. discriminate Hf. }
    change (of_name None "GR.NOTES" []) with (@nil xnode) in Eit. cbn [map app] in Eit.
    rewrite <- Epns in Hprop, HL. 
    destruct (C62_succeeds p (Some e) 0 [] corpus l g Hprop Hfr HL) as (t' & Et & (l' & HPl & HPf)).
    destruct (C62_layout p (Some e) 0 [] corpus t' Hprop Et) as (l1 & g1 & HL1 & _ & HC1 & HRows & HCD).
    destruct (C62_one_layout _ _ _ _ _ _ _ _ _ _ _ HL HL1) as [<- <-]. rewrite Hcols in HC1.
    assert (HTA : ftable_attributes (pf_ns p) (pf_cals_ns p) (Some e) corpus t').
    { apply (C64_table_attributes p (Some e) 0 [] corpus t'); [rewrite Epns; exact C1|exact Et]. }
    exists corpus, t'. split; [exact Ech|]. split; [exact Et|].
    assert (HTB : fo_use_cals o = true -> table_kept t' t /\ dget (t_styles t') "x-cell-border-right" = text_look (separator_line (Some cs)) /\
        dget (t_styles t') "x-cell-border-bottom" = text_look (separator_line (Some rs))).
    { intros HU. exact (ftable_back o p t e corpus rows n cs rs t' HU (Ens HU) HC Epns Hclass Hpage HTA). }
    split; [|split; [exact HC1|split; [|split]]].
    - assert (HFin : forall s c, laid (Shown cns (pf_embed p) t (rb cs rs) (cb cs rs) (fun _ _ _ => False)) s c -> In c (table_iter t) -> forall c', displays c' s ->
         fcell_kept (fo_use_cals o) t t' n m c' c).
      { intros s c (lk & ct & na & -> & v & Hv & Hown & HX) Hin c' (S1 & S2 & S3 & S4). cbn [fst snd bare c_content c_nature c_box] in *.
        destruct HX as [(row & x & (Hrt & Hrb & _) & [_ Hb] & -> & -> & ->)|(x & [] & _)].
        destruct (build_fcell_spec o _ _ _ _ _ _ Hb) as [HDx Hty]. destruct Hrb as [(_ & _ & _ & Hrty & _) Hlook].
        split; [exact S3|]. split.
        { destruct (fcell_children o cns t HP cs rs v c x Hin Hb) as [_ [K1 K2]]. split; intros Hs; rewrite S1; [apply K1|apply K2]; exact Hs. }
        split.
        { exists v, (x_get x "TYPE"). split; [exact Hv|]. split; [exact Hty|]. split.
          - rewrite S2. unfold fcell_read_nature, fcell_nature. rewrite (line_nature_type row (v_nature v) Hrt Hrty). reflexivity.
          - rewrite S4. unfold fcell_style. cbn [String.eqb Ascii.eqb Bool.eqb]. unfold kept_type.
            change (attribute None x "TYPE") with (x_get x "TYPE"). change (attribute None row "TYPE") with (x_get row "TYPE"). rewrite Hrty. reflexivity. }
        destruct (fo_use_cals o) eqn:HU.
        - assert (HLk : cell_look cns (MkBox (Coord 1 1) (Coord n m)) cs rs c x).
          { unfold cns. rewrite <- (Ens eq_refl). apply (fcell_looks o HU t _ cs rs v c x HR (tiled_bounds t n m HT) Hb). }
          destruct HLk as (L1 & L2 & L3 & L4 & L5 & L6 & L7 & _). cbn [bmax cx cy] in *. destruct (HTB eq_refl) as (_ & Sc & Sr).
          split; [|split; [|split; [|split; [|split; [|split]]]]].
          + rewrite S4. unfold fcell_style. cbn [String.eqb Ascii.eqb Bool.eqb].
            destruct (dget (c_styles c) "align") as [w|]; cbn [renamed_as] in L6; [|rewrite L6; reflexivity].
            destruct L6 as (s & y & -> & Hi & ->). destruct Hi as [[= <- <-]|[[= <- <-]|[[= <- <-]|[[= <- <-]|[]]]]]; reflexivity.
          + rewrite S4. unfold fcell_style. cbn [String.eqb Ascii.eqb Bool.eqb].
            destruct (dget (c_styles c) "vertical-align") as [w|]; cbn [renamed_as] in L5; [|rewrite L5; reflexivity].
            destruct L5 as (s & y & -> & Hi & ->). destruct Hi as [[= <- <-]|[[= <- <-]|[[= <- <-]|[[= <- <-]|[[= <- <-]|[]]]]]]; reflexivity.
          + rewrite S4. unfold fcell_style. cbn [String.eqb Ascii.eqb Bool.eqb].
            destruct (dget (c_styles c) "background-color") as [w|]; cbn [as_is] in L7; [|rewrite L7; reflexivity]. destruct L7 as (s & -> & ->). destruct s; reflexivity.
          + intros Hlt w Hw. rewrite S4, Sc. unfold fcell_style. cbn [String.eqb Ascii.eqb Bool.eqb]. apply sep_back. apply (L1 ltac:(lia)). exact Hw.
          + intros Hlt w Hw. rewrite S4, Sr. unfold fcell_style. cbn [String.eqb Ascii.eqb Bool.eqb]. apply sep_back. apply (L3 ltac:(lia)). exact Hw.
          + intros E. rewrite S4. unfold fcell_style. cbn [String.eqb Ascii.eqb Bool.eqb]. rewrite (L2 E). reflexivity.
          + intros E. rewrite S4. unfold fcell_style. cbn [String.eqb Ascii.eqb Bool.eqb]. rewrite (L4 E). reflexivity.
        - intros y Hy. rewrite S4. unfold fcell_style. destruct (String.eqb_spec y "cellstyle") as [->|_]; [congruence|].
          pose proof (fun z Hz => cell_attrs_none o cns t cs rs v c x z HU Hb (low_name cns z Hz)) as K.
          rewrite (K "colsep"%string), (K "rowsep"%string), (K "bgcolor"%string), (K "valign"%string), (K "align"%string) by (cbn; intuition discriminate).
          repeat match goal with |- context [String.eqb y ?z] => destruct (String.eqb y z); [reflexivity|] end. reflexivity. }
      destruct (Forall2_perm_r _ _ _ _ HG HPm) as (g' & Pg & Fg).
      destruct (Forall2_perm_r _ l' g g' HPf Pg) as (l2 & Pl2 & Fl2). exists l2. split; [eapply perm_trans; [apply Permutation_sym, HPl|exact Pl2]|].
      assert (HF3 : forall L, (forall c, In c L -> In c (table_iter t)) -> forall g2, Forall2 (laid (Shown cns (pf_embed p) t (rb cs rs) (cb cs rs) (fun _ _ _ => False))) g2 L ->
         Forall2 (fun s c => laid (Shown cns (pf_embed p) t (rb cs rs) (cb cs rs) (fun _ _ _ => False)) s c /\ In c (table_iter t)) g2 L).
      { intros L HLin g2 F2. induction F2 as [|s c g2 L Hs F2 IH]; constructor; [split; [exact Hs|apply HLin; left; reflexivity]|]. apply IH. intros y Hy. apply HLin. right. exact Hy. }
      specialize (HF3 _ (fun c H => H) _ Fg).
      exact (Forall2_trans_l _ _ _ _ _ _ (fun c' s c H1 H2 => HFin s c (proj1 H2) (proj2 H2) c' H1) Fl2 HF3).
    - intros r v v' Hr Hv Hv'. specialize (HRows r v' ltac:(lia) Hv').
      rewrite Epns in HRows. fold cns in HRows. rewrite Eit in HRows. unfold row_described in HRows.
      destruct (table_views_spec _ _ _ HR Er) as [_ Hrd].
      destruct (nth_error rows (Z.to_nat (r - 1))) as [w|] eqn:Ew; [|apply nth_error_None in Ew; lia].
      pose proof (Hrd _ _ Ew) as Hw. replace (Z.of_nat (Z.to_nat (r - 1)) + 1) with r in Hw by lia. assert (w = v) as -> by (unfold reads in Hw, Hv; congruence).
      assert (EI : exists row, nth_error (frow_items None cns (map FColumn specs ++ map (FLine 0) lines ++ [])) (Z.to_nat (r - 1)) = Some (line_nature None row, line_look None cns 0 row) /\ line_of_view (rb cs rs) (cb cs rs) v row).
      { unfold frow_items. rewrite flat_map_app, app_nil_r.
        assert (E0 : forall l : list xnode, flat_map (fun i => match i with FColumn _ => [] | FLine blks x => [(line_nature None x, line_look None cns blks x)] | FNotes _ => [("footer"%string, no_look)] end) (map FColumn l) = []) by (induction l0; [reflexivity|assumption]).
        rewrite E0. cbn [app]. clear - HLn Ew. revert Ew. generalize (Z.to_nat (r - 1)) as i. induction HLn as [|v0 row rows lines H0 HLn IH]; intros i Hi; [destruct i; discriminate Hi|].
        destruct i as [|i]; cbn [nth_error map flat_map app] in *; [injection Hi as ->; exists row; split; [reflexivity|exact H0]|]. apply IH, Hi. }
      destruct EI as (row & E1 & (Hrt & Hrb & _)). rewrite E1 in HRows. destruct HRows as [R1 R2]. destruct Hrb as [(_ & _ & _ & Hrty & _ & Hra) Hlook].
      split; [rewrite R1, (line_nature_type row (v_nature v) Hrt Hrty); reflexivity|]. cbn zeta.
      assert (Hlab : line_label None 0 row = row_label (row_type (v_nature v)) 0).
      { unfold line_label. rewrite (tag_named None row "ROW" "ROW" Hrt). cbn [String.eqb Ascii.eqb Bool.eqb]. change (attribute None row "TYPE") with (x_get row "TYPE"). rewrite Hrty. reflexivity. }
      destruct (fo_use_cals o) eqn:HU.
      + destruct (Hlook eq_refl) as ((L1 & L2 & L3) & L4). destruct (HTB eq_refl) as (_ & _ & Sr). split; [|split; [|split]].
        * rewrite R2. unfold line_look. cbn [String.eqb Ascii.eqb Bool.eqb given].
          destruct (dget (v_styles v) "vertical-align") as [w|]; cbn [renamed_as] in L1; unfold given; cbn [String.eqb Ascii.eqb Bool.eqb]; [|rewrite L1; reflexivity].
          destruct L1 as (s & y & -> & Hi & ->). destruct Hi as [[= <- <-]|[[= <- <-]|[[= <- <-]|[[= <- <-]|[]]]]]; reflexivity.
        * rewrite R2. unfold line_look, given. cbn [String.eqb Ascii.eqb Bool.eqb].
          destruct (dget (v_styles v) "background-color") as [w|]; cbn [as_is] in L4; [|rewrite L4; reflexivity]. destruct L4 as (s & -> & ->). destruct s; reflexivity.
        * rewrite R2. unfold line_look, given. cbn [String.eqb Ascii.eqb Bool.eqb]. rewrite Hlab.
          destruct (dget (v_styles v) "rowstyle") as [w|]; cbn [as_is] in L3; [|rewrite L3; reflexivity]. destruct L3 as (s & -> & ->). destruct s; reflexivity.
        * intros w Hw'. rewrite R2, Sr. unfold line_look, given. cbn [String.eqb Ascii.eqb Bool.eqb]. apply sep_back. apply L2, Hw'.
      + intros y. rewrite R2. unfold line_look. rewrite Hlab.
        assert (KA : forall z, attribute cns row z <> None -> expanded cns z = "TYPE"%string).
        { intros z Hz. unfold attribute, x_get in Hz. rewrite (Hra eq_refl) in Hz. destruct (row_type (v_nature v)); cbn [dget] in Hz; [|congruence].
          destruct (String.eqb_spec (expanded cns z) "TYPE") as [E|_]; [exact E|congruence]. }
        assert (KN : forall z, ~ fmx_name z -> attribute cns row z = None).
        { intros z Hz. destruct (attribute cns row z) eqn:Ez; [|reflexivity]. exfalso. refine (fmx_apart cns "TYPE" z _ Hz (KA z _)); [cbn; tauto|congruence]. }
        assert (KG : given cns row y = None).
        { unfold given. rewrite !KN by (cbn; intuition discriminate). repeat match goal with |- context [String.eqb y ?z] => destruct (String.eqb y z); [reflexivity|] end. reflexivity. }
        rewrite KG. destruct (String.eqb y "rowstyle"); reflexivity.
    - destruct (fo_use_cals o) eqn:HU; [apply HTB; reflexivity|]. exact (ftable_bare o p t e corpus rows n cs rs t' HU HC Epns Hclass Hpage Hpg HTA).
    - intros j v v' Hj Hv Hv'. pose proof (proj1 HL) as HLy. rewrite Epns in HLy. fold cns in HLy. rewrite Eit in HLy.
      assert (HN : forall c, ~ In (FColumn c) (map (FLine 0) lines ++ [])) by (intros c Hc; rewrite app_nil_r in Hc; apply in_map_iff in Hc as (? & ? & _); discriminate).
      destruct (fo_use_cals o) eqn:HU.
      + destruct (HCl eq_refl) as (cols & K1 & K2 & K3). destruct (HTB eq_refl) as (_ & Sc & Sr).
        refine (fcolumns_kept p t t' n l (map (FLine 0) lines ++ []) specs cols cs rs _ _ HN _ K1 HR HCn K3 K2 Sc Sr HCD j v v' Hj Hv Hv'). rewrite Epns. exact HLy.
      + subst specs. refine (fcolumns_bare p t' l (map (FLine 0) lines ++ []) HN _ HCD j v' ltac:(lia) Hv'). rewrite Epns. exact HLy.
  Qed.
End Trip.
