(** * Facts about the attributes written by the builders *)
From Coq Require Import QArith.
From Verif Require Import Base M_Geometry M_Xml M_Cell M_Grid M_Table M_Regex M_Str M_Units M_Builder M_Cals M_Formex.
From Verif Require Import S_Geometry S_Grid S_Table S_Units S_Int S_Builder S_Cals S_CalsParser S_RoundTrip S_Formex S_Attrs.
From Verif Require Import P_Geometry P_Cell P_Grid P_GridFacts P_Table P_TableStep P_TableFacts P_TableMore P_Int P_Str P_Units P_Builder P_Cals P_CalsParser P_CalsLayout P_CalsTable P_RoundTrip P_RoundTripAttrs P_Formex.
Open Scope string_scope.
Open Scope list_scope.
Open Scope Z_scope.

(** ** One step: one attribute is set *)

Definition set_value (o : cals_opts) (name : string) (r : option sval) (a a' : attrib) : Prop :=
  forall n, dget a' (cals o n) = if String.eqb n name then match r with Some v => Some v | None => dget a (cals o n) end else dget a (cals o n).

Lemma set_none o name a : set_value o name None a a.
Proof. intros n. destruct (String.eqb n name); reflexivity. Qed.
Lemma set_some o name v a : set_value o name (Some v) a (dset a (cals o name) v).
Proof.
  intros n. destruct (String.eqb_spec n name) as [->|N]; [apply dget_dset_same|]. apply dset_get, N.
Qed.
Lemma copy_set o st k name a : set_value o name (dget st k) a (copy_style st k (cals o name) a).
Proof. unfold copy_style. destruct (dget st k); [apply set_some|apply set_none]. Qed.
Lemma sep_set o st style name ts a a' : sep_attr o st style name ts a = Ok a' ->
  exists r, set_value o name (option_map SStr r) a a' /\ line_shown st style ts r.
Proof.
  unfold sep_attr, get_sep_attr. intros H. pose proof (border_spec st style) as HB.
  destruct (get_border_style st style) as [[w|]|x]; cbn [rbind] in H; [| |discriminate].
  - destruct HB as [HL HU]. injection H as <-. destruct (String.eqb_spec (if String.eqb w "none" then "0" else "1") ts) as [E|N].
    + exists None. split; [apply set_none|]. split; [|reflexivity]. intros w' Hw. apply HU in Hw. subst w'. cbn. symmetry. exact E.
    + eexists (Some _). split; [apply set_some|]. split; [intros w' Hw; apply HU in Hw; subst w'; reflexivity|]. intros Hn. destruct (Hn w HL).
  - injection H as <-. exists None. split; [apply set_none|]. split; [|reflexivity]. intros w Hw. destruct (HB w Hw).
Qed.
Lemma lookup_in (d : dict string) s w : dget d s = Some w -> In (s, w) d.
Proof.
  induction d as [|[k x] d IH]; [discriminate|]. cbn [dget]. destruct (String.eqb_spec s k) as [->|]; [intros [= ->]; left; reflexivity|]. intros H. right. apply IH, H.
Qed.
Lemma map_set o d st k name a a' :
  match dget st k with
  | Some v => s <-? style_lookup d v ;; Ok (dset a (cals o name) (SStr s))
  | None => Ok a
  end = Ok a' ->
  exists r, set_value o name (option_map SStr r) a a' /\ renamed_as d (dget st k) r.
Proof.
  destruct (dget st k) as [v|]; [|intros [= <-]; exists None; split; [apply set_none|reflexivity]].
  intros H. bind H as x Ex. injection H as <-. exists (Some x). split; [apply set_some|].
  unfold style_lookup in Ex. destruct v as [s| | |]; try discriminate. exists s, x. split; [reflexivity|]. split; [|reflexivity].
  unfold lookup in Ex. destruct (dget d s) eqn:E; [|discriminate]. injection Ex as ->. apply lookup_in, E.
Qed.
Lemma width_set o st name a a' : width_attr o st name a = Ok a' ->
  exists r, set_value o name (option_map SStr r) a a' /\ width_as (co_unit o) (co_fmt o) (dget st "width") r.
Proof.
  unfold width_attr. destruct (dget st "width") as [[w| | |]|]; try discriminate.
  2:{ intros [= <-]. exists None. split; [apply set_none|reflexivity]. }
  intros H. bind H as wu E1. bind H as value E2. injection H as <-. eexists (Some _). split; [apply set_some|].
  pose proof (parse_width_spec w "mm") as HW. rewrite E1 in HW. destruct wu as [v unit]. destruct HW as (num & u & HR & Hv & ->).
  assert (Hnum : exists q, numeral num q) by (destruct HR as (pre & rest & _ & L & _); apply L). destruct Hnum as (q & Hq).
  specialize (Hv q Hq). cbn [fst snd] in E2.
  assert (Hu : In (unit_or u "mm") unit_names).
  { destruct u as [|b u]; [cbn; tauto|]. destruct HR as (pre & rest & _ & _ & _ & [[L _]|[L _]]); [exact L|discriminate]. }
  assert (Ho : In (co_unit o) unit_names).
  { destruct (in_dec string_dec (co_unit o) unit_names) as [Ho|Ho]; [exact Ho|]. exfalso. unfold convert_value in E2.
    rewrite (unit_length_unknown _ Ho) in E2. bind_any E2. discriminate. }
  apply millimetres_names in Hu as [p Hp]. apply millimetres_names in Ho as [p' Hp'].
  destruct (convert_spec v _ _ p p' Hp Hp') as (r & E & HN & _). rewrite E in E2. injection E2 as <-.
  exists w, num, u, q, p, p', r. repeat (split; [first [reflexivity|assumption]|]). split; [|reflexivity].
  destruct HN as (n & En & H1 & H2). exists n. split; [exact En|]. split.
  - intros m. specialize (H1 m). rewrite Hv in H1. exact H1.
  - intros m Hm HE. apply (H2 m Hm). rewrite Hv. exact HE.
Qed.

(** ** The attributes of an element *)

Lemma written o a attrs e n : make_attrs a = Ok attrs -> x_attrs e = attrs -> attribute (co_ns o) e n = as_text (dget a (cals o n)).
Proof. intros Hm He. unfold attribute, x_get. rewrite He, <- qname_expanded. apply (make_attrs_get _ _ _ Hm). Qed.
Lemma written_as_is a attrs k : make_attrs a = Ok attrs -> forall v, dget a k = v -> as_is v (as_text (dget a k)).
Proof.
  intros Hm v Hv. rewrite Hv. destruct v as [v|]; [|reflexivity]. destruct (make_attrs_text _ _ _ _ Hm Hv) as [s ->]. exists s. split; reflexivity.
Qed.
Lemma text_of r : as_text (option_map SStr r) = r.
Proof. destruct r; reflexivity. Qed.
Lemma or_text r : match option_map SStr r with Some v => Some v | None => None end = option_map SStr r.
Proof. destruct r; reflexivity. Qed.
Lemma or_style (r : option sval) : match r with Some v => Some v | None => None end = r.
Proof. destruct r; reflexivity. Qed.

Definition cell_names : list string := ["colsep"; "rowsep"; "valign"; "align"; "namest"; "nameend"; "morerows"; "bgcolor"].

Ltac value_of := repeat match goal with H : set_value _ _ _ _ ?a |- context [dget ?a (cals _ _)] => rewrite H end;
  cbn [String.eqb Ascii.eqb Bool.eqb].

(** the attributes of a cell, apart from its style; the two builders write the same ones *)
Definition cell_chain (co : cals_opts) (bb : box) (colsep rowsep : string) (c : cell) (a : attrib) : result attrib :=
  let st := c_styles c in
  a <-? (if (cx (c_max c) =? cx (bmax bb))%Z then Ok a else sep_attr co st "border-right" "colsep" colsep a) ;;
  a <-? (if (cy (c_max c) =? cy (bmax bb))%Z then Ok a else sep_attr co st "border-bottom" "rowsep" rowsep a) ;;
  a <-? match dget st "vertical-align" with
        | Some v => s <-? style_lookup CELL_VALIGNS v ;; Ok (dset a (cals co "valign") (SStr s))
        | None => Ok a
        end ;;
  a <-? match dget st "align" with
        | Some v => s <-? style_lookup ALIGNS v ;; Ok (dset a (cals co "align") (SStr s))
        | None => Ok a
        end ;;
  let a := if (1 <? c_width c)%Z
           then dset (dset a (cals co "namest") (SStr ("c" ++ py_str_int (cx (c_min c)))))
                  (cals co "nameend") (SStr ("c" ++ py_str_int (cx (c_max c))))
           else a in
  let a := if (1 <? c_height c)%Z then dset a (cals co "morerows") (SStr (py_str_int (c_height c - 1))) else a in
  Ok (copy_style st "background-color" (cals co "bgcolor") a).

Lemma chain_look co bb cs rs c a a7 a8 attrs e : cell_chain co bb cs rs c a = Ok a7 ->
  (forall n, In n cell_names -> dget a (cals co n) = None) ->
  (forall n, In n cell_names -> dget a8 (cals co n) = dget a7 (cals co n)) ->
  make_attrs a8 = Ok attrs -> x_attrs e = attrs -> cell_look (co_ns co) bb cs rs c e.
Proof.
  unfold cell_chain. intros H Ha X8 Hm He. bind H as a1 E1. bind H as a2 E2. bind H as a3 E3. bind H as a4 E4. injection H as <-.
  apply map_set in E3 as (r3 & E3 & R3). apply map_set in E4 as (r4 & E4 & R4).
  assert (X1 : exists r, set_value co "colsep" (option_map SStr r) a a1 /\
     if cx (c_max c) =? cx (bmax bb) then r = None else line_shown (c_styles c) "border-right" cs r).
  { destruct (cx (c_max c) =? cx (bmax bb)); [injection E1 as <-; exists None; split; [apply set_none|reflexivity]|apply sep_set, E1]. }
  destruct X1 as (r1 & X1 & R1). clear E1.
  assert (X2 : exists r, set_value co "rowsep" (option_map SStr r) a1 a2 /\
     if cy (c_max c) =? cy (bmax bb) then r = None else line_shown (c_styles c) "border-bottom" rs r).
  { destruct (cy (c_max c) =? cy (bmax bb)); [injection E2 as <-; exists None; split; [apply set_none|reflexivity]|apply sep_set, E2]. }
  destruct X2 as (r2 & X2 & R2). clear E2. 
  match type of X8 with context [copy_style _ _ _ ?b] => set (a6 := b) in * end.
  pose (a5 := if 1 <? c_width c then dset (dset a4 (cals co "namest") (SStr ("c" ++ py_str_int (cx (c_min c))))) (cals co "nameend") (SStr ("c" ++ py_str_int (cx (c_max c)))) else a4).
  assert (X5 : exists b, set_value co "namest" (if 1 <? c_width c then Some (SStr (column_name (cx (c_min c)))) else None) a4 b /\
                         set_value co "nameend" (if 1 <? c_width c then Some (SStr (column_name (cx (c_max c)))) else None) b a5).
  { subst a5. destruct (1 <? c_width c); [eexists; split; apply set_some|exists a4; split; apply set_none]. }
  destruct X5 as (b & X5 & X5').
  assert (X6 : set_value co "morerows" (if 1 <? c_height c then Some (SStr (py_str_int (c_height c - 1))) else None) a5 a6).
  { subst a6. fold a5. destruct (1 <? c_height c); [apply set_some|apply set_none]. }
  clearbody a6 a5.
  pose proof (copy_set co (c_styles c) "background-color" "bgcolor" a6) as X7. set (a7 := copy_style (c_styles c) "background-color" (cals co "bgcolor") a6) in *. clearbody a7.
  assert (W : forall n, attribute (co_ns co) e n = as_text (dget a8 (cals co n))) by (intros n; apply (written co _ _ _ _ Hm He)).
  assert (V : forall n, In n cell_names -> dget a8 (cals co n) = 
     if String.eqb n "bgcolor" then dget (c_styles c) "background-color" else
     if String.eqb n "morerows" then if 1 <? c_height c then Some (SStr (py_str_int (c_height c - 1))) else None else
     if String.eqb n "nameend" then if 1 <? c_width c then Some (SStr (column_name (cx (c_max c)))) else None else
     if String.eqb n "namest" then if 1 <? c_width c then Some (SStr (column_name (cx (c_min c)))) else None else
     if String.eqb n "align" then option_map SStr r4 else if String.eqb n "valign" then option_map SStr r3 else
     if String.eqb n "rowsep" then option_map SStr r2 else if String.eqb n "colsep" then option_map SStr r1 else None).
  { intros n Hn. rewrite X8, X7, X6, X5', X5, E4, E3, X2, X1, (Ha n Hn) by exact Hn.
    cbn in Hn. repeat (destruct Hn as [Hn|Hn]; [subst n; cbn [String.eqb Ascii.eqb Bool.eqb]; apply or_style|]). destruct Hn. }
  assert (VB : as_is (dget (c_styles c) "background-color") (as_text (dget (c_styles c) "background-color"))).
  { rewrite <- (V "bgcolor" ltac:(cbn; tauto)) at 2. apply (written_as_is _ _ _ Hm). apply V. cbn; tauto. }
  unfold cell_look. rewrite !W. rewrite !V by (cbn; tauto). cbn [String.eqb Ascii.eqb Bool.eqb]. rewrite !text_of.
  unfold c_max, c_min, c_width, c_height, box_width, box_height in *.
  destruct (Z.eqb_spec (cx (bmax (c_box c))) (cx (bmax bb))) as [Q1|Q1]; (destruct (Z.eqb_spec (cy (bmax (c_box c))) (cy (bmax bb))) as [Q2|Q2]);
  (split; [intros; first [contradiction|assumption]|]); (split; [intros; first [contradiction|assumption]|]);
  (split; [intros; first [contradiction|assumption]|]); (split; [intros; first [contradiction|assumption]|]).
  all: split; [unfold renamed_as in *; destruct (dget (c_styles c) "vertical-align"); [|exact R3]; destruct R3 as (s3 & w3 & -> & Hi & ->); exists s3, w3; split; [reflexivity|]; split; [cbn in *; tauto|reflexivity]|].
  all: split; [exact R4|].
  all: split; [exact VB|].
  all: destruct (c_box c) as [[x1 y1] [x2 y2]]; cbn [bmin bmax cx cy] in *.
  all: destruct (Z.ltb_spec 1 (x2 - x1 + 1)); destruct (Z.ltb_spec 1 (y2 - y1 + 1)); cbn [as_text];
    (split; [intros; try lia; split; reflexivity|]); (split; [intros; try lia; split; reflexivity|]);
    (split; [intros; try lia; do 2 f_equal; lia|]); intros; try lia; reflexivity.
Qed.

Lemma fcell_look o bb cs rs c a a' attrs e : cell_cals_attrs o (Ok (Some bb)) cs rs c a = Ok a' ->
  (forall n, In n cell_names -> dget a (cals (fo_cals o) n) = None) -> make_attrs a' = Ok attrs -> x_attrs e = attrs ->
  cell_look (co_ns (fo_cals o)) bb cs rs c e.
Proof.
  unfold cell_cals_attrs. intros H Ha Hm He. cbn [rbind] in H. bind H as a1 E1. bind H as a2 E2. bind H as a3 E3. bind H as a4 E4. injection H as <-.
  eapply chain_look; [|exact Ha| |exact Hm|exact He].
  - unfold cell_chain. rewrite E1. cbn [rbind]. rewrite E2. cbn [rbind]. rewrite E3. cbn [rbind]. rewrite E4. reflexivity.
  - intros n Hn. apply copy_style_key. apply not_eq_sym, fmx_other; [cbn; tauto|]. intros Ht. unfold cell_names, fmx_name in *. cbn in Hn, Ht.
    intuition congruence.
Qed.

Lemma entry_look o bb cs rs c e : build_cell o (Some bb) cs rs c = Ok e ->
  cell_look (co_ns o) bb cs rs c e /\ as_is (dget (c_styles c) "cellstyle") (attribute (co_ns o) e "cellstyle").
Proof.
  intros H. split; [|apply build_cell_attrs in H; apply H].
  unfold build_cell in H. bind H as a1 E1. bind H as a2 E2. bind H as a3 E3. bind H as a4 E4. bind H as attrs Hm.
  apply content_written in H as (_ & He & _ & _).
  eapply (chain_look o bb cs rs c []); [| | |exact Hm|exact He].
  - unfold cell_chain. refine (eq_trans (f_equal (fun m => rbind m _) E1) _). cbn [rbind].
    refine (eq_trans (f_equal (fun m => rbind m _) E2) _). cbn [rbind]. refine (eq_trans (f_equal (fun m => rbind m _) E3) _). cbn [rbind].
    refine (eq_trans (f_equal (fun m => rbind m _) E4) _). reflexivity.
  - reflexivity.
  - intros n Hn. apply copy_style_get. intros ->. cbn in Hn. intuition discriminate.
Qed.

(** ** Rows and columns *)

Lemma set_first o name v : set_value o name (Some v) [] [(cals o name, v)].
Proof. apply (set_some o name v []). Qed.

Lemma row_chain o st rs a a1 a2 attrs e a3 :
  (forall n, In n ["valign"; "rowsep"; "rowstyle"] -> dget a (cals o n) = None) ->
  match dget st "vertical-align" with
  | Some v => s <-? style_lookup ROW_VALIGNS v ;; Ok (dset a (cals o "valign") (SStr s))
  | None => Ok a
  end = Ok a1 -> sep_attr o st "border-bottom" "rowsep" rs a1 = Ok a2 ->
  (forall n, In n ["valign"; "rowsep"; "rowstyle"] -> dget a3 (cals o n) = dget (copy_style st "rowstyle" (cals o "rowstyle") a2) (cals o n)) ->
  make_attrs a3 = Ok attrs -> x_attrs e = attrs ->
  renamed_as valign_names (dget st "vertical-align") (attribute (co_ns o) e "valign") /\
  line_shown st "border-bottom" rs (attribute (co_ns o) e "rowsep") /\
  as_is (dget st "rowstyle") (attribute (co_ns o) e "rowstyle").
Proof.
  intros Ha E1 E2 E3 Hm He. apply map_set in E1 as (r1 & E1 & R1). apply sep_set in E2 as (r2 & E2 & R2).
  pose proof (copy_set o st "rowstyle" "rowstyle" a2) as X. rewrite !(written o _ _ _ _ Hm He).
  assert (VS : dget a3 (cals o "rowstyle") = dget st "rowstyle").
  { rewrite E3, X, E2, E1, Ha by (cbn; tauto). cbn [String.eqb Ascii.eqb Bool.eqb]. apply or_style. }
  split; [|split; [|rewrite <- VS at 1; apply (written_as_is _ _ _ Hm), eq_refl]].
  - rewrite E3, X, E2, E1, Ha by (cbn; tauto). cbn [String.eqb Ascii.eqb Bool.eqb]. rewrite or_style, text_of. exact R1.
  - rewrite E3, X, E2, E1, Ha by (cbn; tauto). cbn [String.eqb Ascii.eqb Bool.eqb]. rewrite or_style, text_of. exact R2.
Qed.

Lemma colspec_look o cs rs v e : build_colspec o cs rs v = Ok e -> column_look (co_ns o) (co_unit o) (co_fmt o) cs rs v e.
Proof.
  intros H. split; [apply (build_colspec_spec _ _ _ _ _ H)|]. unfold build_colspec in H.
  bind H as a1 E1. bind H as a3 E3. bind H as a4 E4. bind H as attrs Hm. injection H as <-.
  apply width_set in E1 as (r1 & E1 & R1). apply sep_set in E3 as (r3 & E3 & R3). apply sep_set in E4 as (r4 & E4 & R4).
  match type of E3 with set_value _ _ _ ?b _ => set (a2 := b) in * end.
  pose (r2 := match dget (v_styles v) "align" with Some (SStr s) => dget ALIGNS s | _ => None end).
  assert (E2 : set_value o "align" (option_map SStr r2) a1 a2).
  { subst a2 r2. destruct (dget (v_styles v) "align") as [[s| | |]|]; try apply set_none. destruct (dget ALIGNS s); [apply set_some|apply set_none]. }
  clearbody a2.
  assert (W : forall n, attribute (co_ns o) (XElem (cals o "colspec") attrs None [] None) n = as_text (dget a4 (cals o n)))
    by (intros n; eapply written; [exact Hm|reflexivity]).
  rewrite !W.
  assert (V0 : forall n, ~ In n ["colnum"; "colname"] -> dget [(cals o "colnum", SStr (py_str_int (v_pos v))); (cals o "colname", SStr (String.append "c" (py_str_int (v_pos v))))] (cals o n) = None).
  { intros n Hn. cbn [dget]. destruct (String.eqb_spec (cals o n) (cals o "colnum")) as [E|_]; [exfalso; apply qname_inj in E; subst n; apply Hn; cbn; tauto|].
    destruct (String.eqb_spec (cals o n) (cals o "colname")) as [E|_]; [exfalso; apply qname_inj in E; subst n; apply Hn; cbn; tauto|]. reflexivity. }
  rewrite !E4, !E3, !E2, !E1. cbn [String.eqb Ascii.eqb Bool.eqb]. rewrite !V0 by (cbn; intuition discriminate). rewrite !or_style, !text_of.
  split; [exact R1|]. split; [|split; [|split; [exact R3|exact R4]]].
  - intros s Hs Hin. subst r2. rewrite Hs. cbn in Hin. unfold ALIGNS. repeat (destruct Hin as [<-|Hin]; [reflexivity|]). destruct Hin.
  - intros HN. subst r2. destruct (dget (v_styles v) "align") as [[s| | |]|]; try reflexivity.
    destruct (dget ALIGNS s) as [w|] eqn:E; [|reflexivity]. exfalso. apply (HN s eq_refl). apply lookup_in in E.
    apply in_map_iff. exists (s, w). split; [reflexivity|exact E].
Qed.

(** ** The table *)

Definition table_names : list string := ["orient"; "pgwide"; "bgcolor"; "width"].

Definition pgwide_of (st : styles) : option string :=
  match dget st "x-sect-cols" with
  | None => None
  | Some (SStr s) => Some (if String.eqb s "1" then "1" else "0")
  | Some _ => Some "0"
  end.
Lemma pgwide_set o st a :
  set_value o "pgwide" (option_map SStr (pgwide_of st)) a
    match dget st "x-sect-cols" with
    | Some v => dset a (cals o "pgwide") (SStr (match v with SStr "1" => "1" | _ => "0" end))
    | None => a
    end.
Proof.
  unfold pgwide_of. destruct (dget st "x-sect-cols") as [v|]; [|apply set_none].
  match goal with |- set_value _ _ (option_map SStr ?x) _ (dset _ _ (SStr ?y)) => replace x with (Some y); [apply set_some|] end.
  destruct v as [s| | |]; try reflexivity. destruct (String.eqb_spec s "1") as [->|N]; [reflexivity|].
  destruct s as [|[[] [] [] [] [] [] [] []] [|]]; try reflexivity; congruence.
Qed.

Lemma frame_looks st f : get_frame_attr st = Ok f -> frame_look st f.
Proof.
  intros H. pose proof (frame_spec st) as HF. rewrite H in HF. destruct HF as (bt & bb & bl & br & -> & Ht & Hb & Hl & Hr). split.
  - destruct bt, bb, bl, br; cbn; tauto.
  - intros (g & Hg & HS). replace (frame_name bt bb bl br) with g; [exact HS|].
    rewrite <- (HS TopSide) in Ht. rewrite <- (HS BottomSide) in Hb. rewrite <- (HS LeftSide) in Hl. rewrite <- (HS RightSide) in Hr. clear HS H.
    assert (B : forall b s, (b = true <-> frame_shows g s) -> b = shows_b g s).
    { intros b s [B1 B2]. pose proof (shows_b_spec g s) as HB. destruct b; [symmetry; apply HB, B1, eq_refl|].
      destruct (shows_b g s) eqn:E; [|reflexivity]. apply B2, HB, eq_refl. }
    rewrite (B _ _ Ht), (B _ _ Hb), (B _ _ Hl), (B _ _ Hr). cbn in Hg. repeat (destruct Hg as [<-|Hg]; [reflexivity|]). destruct Hg.
Qed.

Lemma table_line_spec st style cs : table_sep st style = Ok cs -> table_line st style cs.
Proof.
  intros H. split; [apply (table_sep_values _ _ _ H)|]. intros HN. unfold table_sep, get_sep_attr in H. pose proof (border_spec st style) as HB.
  destruct (get_border_style st style) as [[w|]|x]; cbn [rbind] in H; [destruct (HN w (proj1 HB))|congruence|discriminate].
Qed.

Lemma table_chain o t a frame a1 a2 attrs e : get_frame_attr (t_styles t) = Ok frame ->
  dget a (cals o "frame") = Some (SStr frame) -> (forall n, In n table_names -> dget a (cals o n) = None) ->
  match dget (t_styles t) "x-sect-orient" with
  | Some v => s <-? style_lookup ORIENTS v ;; Ok (dset a (cals o "orient") (SStr s))
  | None => Ok a
  end = Ok a1 ->
  width_attr o (t_styles t) "width" (copy_style (t_styles t) "background-color" (cals o "bgcolor")
    match dget (t_styles t) "x-sect-cols" with
    | Some v => dset a1 (cals o "pgwide") (SStr (match v with SStr "1" => "1" | _ => "0" end))
    | None => a1
    end) = Ok a2 ->
  make_attrs a2 = Ok attrs -> x_attrs e = attrs -> table_look (co_ns o) (co_unit o) (co_fmt o) t e.
Proof.
  intros Ef Af Ha E1 E2 Hm He. apply map_set in E1 as (r1 & E1 & R1). apply width_set in E2 as (r2 & E2 & R2).
  pose proof (pgwide_set o (t_styles t) a1) as E3. match type of E3 with set_value _ _ _ _ ?b => set (a3 := b) in * end. clearbody a3.
  pose proof (copy_set o (t_styles t) "background-color" "bgcolor" a3) as E4.
  match type of E4 with set_value _ _ _ _ ?b => set (a4 := b) in * end. clearbody a4.
  assert (W : forall n, attribute (co_ns o) e n = as_text (dget a2 (cals o n))) by (intros n; apply (written o _ _ _ _ Hm He)).
  assert (VB : dget a2 (cals o "bgcolor") = dget (t_styles t) "background-color").
  { rewrite E2, E4, E3, E1, Ha by (cbn; tauto). cbn [String.eqb Ascii.eqb Bool.eqb]. apply or_style. }
  unfold table_look. rewrite !W. split; [|split; [|split; [|split]]].
  - exists frame. rewrite E2, E4, E3, E1, Af. cbn [String.eqb Ascii.eqb Bool.eqb]. split; [reflexivity|apply frame_looks, Ef].
  - rewrite E2, E4, E3, E1, Ha by (cbn; tauto). cbn [String.eqb Ascii.eqb Bool.eqb]. rewrite or_style, text_of. exact R1.
  - rewrite E2, E4, E3, E1, Ha by (cbn; tauto). cbn [String.eqb Ascii.eqb Bool.eqb]. rewrite or_style, text_of. reflexivity.
  - rewrite <- VB at 1. apply (written_as_is _ _ _ Hm), eq_refl.
  - rewrite E2, E4, E3, E1, Ha by (cbn; tauto). cbn [String.eqb Ascii.eqb Bool.eqb]. rewrite or_style, text_of. exact R2.
Qed.

(** ** The page *)

Lemma single_page w h : (((w <=? 649) && (h <=? 918) || (w <=? 918) && (h <=? 649))%Z = true <-> one_page w h).
Proof. unfold one_page. rewrite orb_true_iff, !andb_true_iff, !Z.leb_le. reflexivity. Qed.

Lemma page_look st a a' : page_size st a = Ok a' -> dget a "PAGE.SIZE" = None -> page_shown st (as_text (dget a' "PAGE.SIZE")).
Proof.
  unfold page_size. intros H Ha. split.
  - intros E. rewrite E in H. injection H as <-. rewrite Ha. reflexivity.
  - intros w h HP. destruct (dget st "x-sect-orient") as [orient|]; [|split; discriminate].
    bind H as wh Ew. assert (wh = (w, h)) as ->.
    { destruct HP as [E|(E & -> & ->)]; rewrite E in Ew; injection Ew as <-; reflexivity. }
    injection H as <-. pose proof (single_page w h) as HS.
    split; intros [= ->]; cbn [String.eqb Ascii.eqb Bool.eqb andb]; destruct (_ || _) eqn:E; cbn [negb].
    all: rewrite ?dget_dset_same, ?Ha; cbn [as_text].
    1,3: assert (P : one_page w h) by (apply HS; reflexivity).
    3,4: assert (P : ~ one_page w h) by (rewrite <- HS; discriminate).
    all: split; intros; first [reflexivity|contradiction].
Qed.

(** ** The marks of an insertion *)

Lemma escaped_reads s : read_as (escape_attr s) s.
Proof.
  induction s as [|c s IH]; [constructor|]. cbn [escape_attr].
  destruct (Nat.eqb_spec (nat_of_ascii c) 38) as [E|N1]; [replace c with "&"%char by (rewrite <- (ascii_nat_embedding c), E; reflexivity); apply read_entity; [cbn; tauto|exact IH]|].
  destruct (Nat.eqb_spec (nat_of_ascii c) 60) as [E|N2]; [replace c with "<"%char by (rewrite <- (ascii_nat_embedding c), E; reflexivity); apply read_entity; [cbn; tauto|exact IH]|].
  destruct (Nat.eqb_spec (nat_of_ascii c) 62) as [E|N3]; [replace c with ">"%char by (rewrite <- (ascii_nat_embedding c), E; reflexivity); apply read_entity; [cbn; tauto|exact IH]|].
  destruct (Nat.eqb_spec (nat_of_ascii c) 34) as [E|N4]; [replace c with (ascii_of_nat 34) by (rewrite <- (ascii_nat_embedding c), E; reflexivity); apply read_entity; [cbn; tauto|exact IH]|].
  destruct (Nat.eqb_spec (nat_of_ascii c) 9) as [E|N5]; [replace c with (ascii_of_nat 9) by (rewrite <- (ascii_nat_embedding c), E; reflexivity); apply read_entity; [cbn; tauto|exact IH]|].
  destruct (Nat.eqb_spec (nat_of_ascii c) 10) as [E|N6]; [replace c with (ascii_of_nat 10) by (rewrite <- (ascii_nat_embedding c), E; reflexivity); apply read_entity; [cbn; tauto|exact IH]|].
  destruct (Nat.eqb_spec (nat_of_ascii c) 13) as [E|N7]; [replace c with (ascii_of_nat 13) by (rewrite <- (ascii_nat_embedding c), E; reflexivity); apply read_entity; [cbn; tauto|exact IH]|].
  apply (read_char c); [|exact IH]. intros H. cbn in H. repeat (destruct H as [H|H]; [subst c; first [exact (N1 eq_refl)|exact (N2 eq_refl)|exact (N3 eq_refl)|exact (N4 eq_refl)|exact (N5 eq_refl)|exact (N6 eq_refl)|exact (N7 eq_refl)]|]). destruct H.
Qed.
Lemma append_assoc a b c : String.append (String.append a b) c = String.append a (String.append b c).
Proof. induction a as [|x a IH]; [reflexivity|]. cbn. rewrite IH. reflexivity. Qed.
Lemma quoted w : String.append quote (String.append w quote) = quotes w.
Proof. reflexivity. Qed.
Lemma written_says l : l <> [] ->
  says (String.concat " " (map (fun kv => String.append (fst kv) (String.append "=" (String.append quote (String.append (escape_attr (snd kv)) quote)))) l)) l.
Proof.
  induction l as [|[k v] l IH]; [congruence|]. intros _. cbn [map fst snd]. rewrite quoted. destruct l as [|kv l].
  - cbn [map String.concat]. apply says_one, escaped_reads.
  - specialize (IH ltac:(discriminate)). set (f := fun kv : string * string => _) in *.
    change (map f (kv :: l)) with (f kv :: map f l) in *.
    change (String.concat " " (String.append k (String.append "=" (quotes (escape_attr v))) :: f kv :: map f l))
      with (String.append (String.append k (String.append "=" (quotes (escape_attr v)))) (String.append " " (String.concat " " (f kv :: map f l)))).
    rewrite !append_assoc. apply says_more; [apply escaped_reads|exact IH].
Qed.
Lemma mark_says name a pi : revision_mark name a = Ok pi -> a <> [] ->
  exists attrs data, make_attrs a = Ok attrs /\ pi = XPI name data None /\ says data attrs.
Proof.
  unfold revision_mark. intros H Ha. bind H as attrs Em. injection H as <-. eexists _, _. split; [reflexivity|]. split; [reflexivity|].
  apply written_says. intros ->. destruct a as [|[k [s| | |]] a]; cbn in Em; try congruence; try discriminate. bind_any Em. discriminate.
Qed.
Lemma make_attrs_cons k s a attrs : make_attrs ((k, SStr s) :: a) = Ok attrs -> exists l, make_attrs a = Ok l /\ attrs = (k, s) :: l.
Proof. cbn [make_attrs]. intros H. bind H as l El. injection H as <-. eauto. Qed.

Lemma dget_app {V} (a b : dict V) k : dget (a ++ b) k = match dget a k with Some v => Some v | None => dget b k end.
Proof. induction a as [|[k' v] a IH]; [reflexivity|]. cbn [app dget]. destruct (String.eqb k k'); [reflexivity|exact IH]. Qed.

Lemma marks_spec st start finish row :
  let r0 := [("type", SStr "row:insertion")] in
  let r1 := match dget st "x-ins-id" with Some v => dset r0 "change-id" (SStr ("ct" ++ sval_str v)) | None => r0 end in
  (if dmem st "x-ins" then
     pi <-? revision_mark "change-start" (copy_style st "x-ins-date" "date" (copy_style st "x-ins-author" "creator" r1)) ;;
     Ok [pi]
   else Ok []) = Ok start ->
  (if dmem st "x-ins" then pi <-? revision_mark "change-end" r1 ;; Ok [pi] else Ok []) = Ok finish ->
  insertion_marks st row (start ++ row :: finish).
Proof.
  cbv zeta. intros HS HF. unfold insertion_marks, dmem in *. destruct (dget st "x-ins") as [ins|]; [|injection HS as <-; injection HF as <-; reflexivity].
  bind HS as p1 E1. injection HS as <-. bind HF as p2 E2. injection HF as <-.
  assert (X : exists id, id_mark (dget st "x-ins-id") id /\
    match dget st "x-ins-id" with Some v => dset [("type", SStr "row:insertion")] "change-id" (SStr ("ct" ++ sval_str v)) | None => [("type", SStr "row:insertion")] end =
    ("type", SStr "row:insertion") :: map (fun kv => (fst kv, SStr (snd kv))) id).
  { destruct (dget st "x-ins-id") as [v|].
    - exists [("change-id", String.append "ct" (sval_str v))]. split; [|reflexivity]. exists (sval_str v). split; [reflexivity|]. destruct v as [x|[]|x y|]; constructor.
    - exists []. split; reflexivity. }
  destruct X as (id & HI & EI). rewrite EI in E1, E2. 
  apply mark_says in E2 as (at2 & d2 & M2 & -> & S2); [|discriminate].
  apply mark_says in E1 as (at1 & d1 & M1 & -> & S1); [|unfold copy_style; destruct (dget st "x-ins-date"), (dget st "x-ins-author"); discriminate].
  assert (MI : forall l, make_attrs (map (fun kv => (fst kv, SStr (snd kv))) l) = Ok l).
  { intros l. induction l as [|[k v] l IH]; [reflexivity|]. cbn [map make_attrs fst snd]. rewrite IH. reflexivity. }
  assert (EA : at2 = ("type", "row:insertion") :: id).
  { change (("type", SStr "row:insertion") :: map (fun kv => (fst kv, SStr (snd kv))) id) with (map (fun kv : string * string => (fst kv, SStr (snd kv))) (("type", "row:insertion") :: id)) in M2.
    rewrite MI in M2. congruence. }
  subst at2.
  assert (HK : forall k, k <> "type" -> k <> "change-id" -> ~ In k (map fst id)).
  { intros k K1 K2. unfold id_mark in HI. destruct (dget st "x-ins-id") as [v0|]; [destruct HI as (s & -> & _); cbn; intuition congruence|subst id; intros []]. }
  assert (DS : forall (l : list (string * string)) k v, ~ In k (map fst l) -> dset (map (fun kv => (fst kv, SStr (snd kv))) l) k v = map (fun kv => (fst kv, SStr (snd kv))) l ++ [(k, v)]).
  { intros l k v. induction l as [|[k' v'] l IH]; [reflexivity|]. cbn [map fst snd In]. intros N. cbn [dset app].
    destruct (String.eqb_spec k k') as [->|_]; [exfalso; apply N; left; reflexivity|]. rewrite IH by tauto. reflexivity. }
  assert (T : forall (l : list (string * string)) k, ~ In k (map fst l) ->
     dget (map (fun kv => (fst kv, SStr (snd kv))) l) k = None).
  { intros l k. induction l as [|[k' v'] l IH]; [reflexivity|]. cbn [map fst snd In dget]. intros N.
    destruct (String.eqb_spec k k') as [->|_]; [exfalso; apply N; left; reflexivity|]. apply IH. tauto. }
  set (base := ("type", "row:insertion") :: id) in *.
  change (("type", SStr "row:insertion") :: map (fun kv => (fst kv, SStr (snd kv))) id) with (map (fun kv : string * string => (fst kv, SStr (snd kv))) base) in M1.
  assert (HB : forall k, k = "creator" \/ k = "date" -> ~ In k (map fst base)).
  { intros k Hk [H|H]; [destruct Hk; subst k; discriminate|]. revert H. apply HK; destruct Hk; subst k; discriminate. }
  assert (C : exists cr, text_mark "creator" (dget st "x-ins-author") cr /\
      copy_style st "x-ins-author" "creator" (map (fun kv => (fst kv, SStr (snd kv))) base) = map (fun kv => (fst kv, SStr (snd kv))) (base ++ cr)).
  { unfold copy_style in *. destruct (dget st "x-ins-author") as [v|]; [|exists []; split; [reflexivity|rewrite app_nil_r; reflexivity]].
    rewrite (DS base "creator" v) in * by (apply HB; tauto).
    assert (HV : exists s, v = SStr s).
    { destruct (dget st "x-ins-date") as [x|]; eapply (make_attrs_text _ _ "creator" v M1).
      - rewrite dget_dset_other by discriminate. rewrite dget_app, (T base "creator") by (apply HB; tauto). apply dget_one.
      - rewrite dget_app, (T base "creator") by (apply HB; tauto). apply dget_one. }
    destruct HV as [s ->]. exists [("creator", s)]. split; [exists s; split; reflexivity|]. rewrite map_app. reflexivity. }
  destruct C as (cr & HC & EC). rewrite EC in M1.
  assert (D : exists da, text_mark "date" (dget st "x-ins-date") da /\ at1 = base ++ cr ++ da).
  { unfold copy_style in M1. destruct (dget st "x-ins-date") as [v|].
    - assert (HN : ~ In "date" (map fst (base ++ cr))).
      { rewrite map_app, in_app_iff. intros [H|H]; [revert H; apply HB; tauto|]. unfold text_mark in HC. destruct (dget st "x-ins-author") as [v0|]; [destruct HC as (s & _ & ->); cbn in H; intuition discriminate|subst cr; destruct H]. }
      rewrite DS in M1 by exact HN. assert (HV : exists s, v = SStr s).
      { eapply (make_attrs_text _ _ "date" v M1). rewrite dget_app, (T (base ++ cr) "date") by exact HN. apply dget_one. }
      destruct HV as [s ->]. exists [("date", s)]. split; [exists s; split; reflexivity|].
      change [("date", SStr s)] with (map (fun kv : string * string => (fst kv, SStr (snd kv))) [("date", s)]) in M1. rewrite <- map_app, MI in M1.
      rewrite app_assoc. congruence.
    - exists []. split; [reflexivity|]. rewrite MI in M1. rewrite app_nil_r. congruence. }
  destruct D as (da & HD & ->).
  exists d1, d2, id, cr, da. repeat (split; [first [reflexivity|assumption]|]). exact S2.
Qed.

(** ** The whole trees *)

Lemma bb_of t b bb : treachable t -> table_bounding_box t = Ok (Some b) -> (table_iter t <> [] -> bounds (table_iter t) bb) -> b = bb.
Proof.
  intros HR Eb HB. destruct (treachable_tinv t HR) as (og & HS & HM).
  assert (HV : all_valid (t_grid t)) by apply HM. assert (HB' : bounds (table_iter t) b) by (apply (bounding_box_least _ _ HV Eb)).
  eapply bounds_fun; [exact HB'|]. apply HB. intros E. unfold table_iter, grid_iter, table_bounding_box, grid_bounding_box in *. rewrite E in Eb. discriminate.
Qed.

Section Formex.
  Variable o : fmx_opts.
  Let co := fo_cals o.
  Hypothesis HU : fo_use_cals o = true.

  Lemma fcell_looks t bb cs rs row c e : treachable t -> (table_iter t <> [] -> bounds (table_iter t) bb) -> build_fcell o (table_bounding_box t) cs rs row c = Ok e ->
    cell_look (co_ns co) bb cs rs c e.
  Proof.
    intros HR HB H. unfold build_fcell in H. bind H as a1 E1.
    match type of H with rbind (if fo_use_cals o then cell_cals_attrs _ _ _ _ _ ?b else _) _ = _ => set (a3 := b) in * end.
    rewrite HU in H. bind H as a4 E4. bind H as attrs E5.
    assert (He : x_attrs e = attrs).
    { destruct (fmx_empty c); [injection H as <-; reflexivity|]. apply content_written in H as (_ & Ha & _). exact Ha. }
    destruct (table_bounding_box t) as [[b|]|] eqn:Eb; [|discriminate|discriminate].
    pose proof (bb_of t b bb HR Eb HB) as ->. eapply fcell_look; [exact E4| |exact E5|exact He].
    intros n Hn. assert (K : forall k, fmx_name k -> cals (fo_cals o) n <> k).
    { intros k Hk. apply fmx_other; [exact Hk|]. intros Ht. unfold cell_names, fmx_name in *. cbn in Hn, Ht. intuition congruence. }
    assert (D : forall k v (a : attrib), fmx_name k -> dget (dset a k v) (cals (fo_cals o) n) = dget a (cals (fo_cals o) n)).
    { intros k v a Hk. apply dget_dset_other. apply not_eq_sym, K, Hk. }
    assert (G1 : dget a1 (cals (fo_cals o) n) = None).
    { assert (G0 : dget [("COL", SStr (py_str_int (cx (c_min c))))] (cals (fo_cals o) n) = None).
      { cbn [dget]. destruct (String.eqb_spec (cals (fo_cals o) n) "COL") as [E|_]; [destruct (K "COL" ltac:(cbn; tauto) E)|reflexivity]. }
      destruct (nature_differs _ _); [|congruence]. bind E1 as tt0 Et. injection E1 as <-. cbn [dget].
      destruct (String.eqb_spec (cals (fo_cals o) n) "COL") as [E|_]; [destruct (K "COL" ltac:(cbn; tauto) E)|].
      destruct (String.eqb_spec (cals (fo_cals o) n) "TYPE") as [E|_]; [destruct (K "TYPE" ltac:(cbn; tauto) E)|reflexivity]. }
    subst a3. destruct (1 <? c_height c); [rewrite D by (cbn; tauto)|]; (destruct (1 <? c_width c); [rewrite D by (cbn; tauto)|]; exact G1).
  Qed.

  Definition frow_more (v : view) (e : xnode) : Prop := as_is (dget (v_styles v) "background-color") (attribute (co_ns co) e "bgcolor").

  Lemma frow_looks t bb cs rs v items : treachable t -> (table_iter t <> [] -> bounds (table_iter t) bb) -> build_frow o (table_bounding_box t) cs rs v = Ok items ->
    row_rendered "ROW" (co_ns co) bb cs rs frow_more (fun _ _ => True) v items.
  Proof.
    intros HR HB H. unfold build_frow in H. rewrite HU in H. bind H as a E1. bind H as start E3. bind H as attrs E4.
    bind H as finish E5. bind H as cells E6. injection H as <-.
    exists (XElem "ROW" attrs None cells None). split; [reflexivity|]. split; [|apply marks_spec; assumption].
    - unfold row_cals_attrs in E1. bind E1 as a1 F1. bind E1 as a2 F2. injection E1 as <-.
      assert (A0 : forall n, In n ["valign"; "rowsep"; "rowstyle"; "bgcolor"] -> dget (row_type_attr (v_nature v) []) (cals (fo_cals o) n) = None).
      { intros n Hn. assert (K : cals (fo_cals o) n <> "TYPE").
        { apply fmx_other; [cbn; tauto|]. intros Ht. unfold fmx_name in *. cbn in Hn, Ht. intuition congruence. }
        unfold row_type_attr. destruct (v_nature v) as [s|]; [|reflexivity].
        destruct (String.eqb s "header"); [rewrite dget_dset_other by (apply not_eq_sym, K); reflexivity|].
        destruct (String.eqb s "footer"); [rewrite dget_dset_other by (apply not_eq_sym, K); reflexivity|reflexivity]. }
      split; [|split].
      + eapply (row_chain (fo_cals o)); [|exact F1|exact F2| |exact E4|reflexivity].
        * intros n Hn. apply A0. cbn in *. tauto.
        * intros n Hn. apply copy_style_get. intros ->. cbn in Hn. intuition discriminate.
      + unfold frow_more. erewrite (written (fo_cals o)); [|exact E4|reflexivity].
        pose proof (map_set _ _ _ _ _ _ _ F1) as (r1 & G1 & _). pose proof (sep_set _ _ _ _ _ _ _ F2) as (r2 & G2 & _).
        pose proof (copy_set (fo_cals o) (v_styles v) "rowstyle" "rowstyle" a2) as G3.
        match type of G3 with set_value _ _ _ _ ?b => set (a3 := b) in * end.
        pose proof (copy_set (fo_cals o) (v_styles v) "background-color" "bgcolor" a3) as G4.
        match type of G4 with set_value _ _ _ _ ?b => set (a4 := b) in * end.
        assert (V : dget a4 (cals (fo_cals o) "bgcolor") = dget (v_styles v) "background-color").
        { rewrite G4, G3, G2, G1, A0 by (cbn; tauto). cbn [String.eqb Ascii.eqb Bool.eqb]. apply or_style. }
        rewrite <- V at 1. apply (written_as_is _ _ _ E4), eq_refl.
      + apply rmap_Forall2 in E6. eapply Forall2_impl_l; [|exact E6]. intros c e _ Hc. cbn beta in Hc.
        split; [exact (fcell_looks _ _ _ _ _ _ _ HR HB Hc)|exact I].
  Qed.

  Lemma corpus_looks t bb l : treachable t -> (table_iter t <> [] -> bounds (table_iter t) bb) -> build_corpus o t = Ok l ->
    exists corpus cols rows tr cs rs specs,
      table_views Rows t = Ok rows /\ table_views Cols t = Ok cols /\ split_title o t rows = Ok tr /\ l = fst tr ++ [corpus] /\
      table_look (co_ns co) (co_unit co) (co_fmt co) t corpus /\ attribute (co_ns co) corpus "tabstyle" = t_nature t /\
      attribute (co_ns co) corpus "colsep" = Some cs /\ attribute (co_ns co) corpus "rowsep" = Some rs /\ separators_of t cs rs /\
      Forall2 (column_look (co_ns co) (co_unit co) (co_fmt co) cs rs) cols specs /\
      exists items, x_children corpus = specs ++ List.concat items /\
        Forall2 (row_rendered "ROW" (co_ns co) bb cs rs frow_more (fun _ _ => True)) (snd tr) items.
  Proof.
    intros HR HB H. unfold build_corpus in H. bind H as rows Er. bind H as tr Et. bind H as cra Ea. destruct cra as [[cs rs] a].
    bind H as attrs Em. rewrite HU in H. bind H as specs Es. bind Es as cols Ec. bind H as items Ei. injection H as <-.
    eexists. exists cols, rows, tr, cs, rs, specs. split; [reflexivity|]. split; [reflexivity|]. split; [exact Et|]. split; [reflexivity|].
    unfold corpus_attrs in Ea. rewrite HU in Ea. bind Ea as frame F1. bind Ea as cs' F2. bind Ea as rs' F3. bind Ea as a1 F4. bind Ea as a2 F5.
    injection Ea as -> -> ->.
    match type of F4 with context [nature_attr ?o' ?n "tabstyle" ?b] => set (b0 := b) in *; set (b1 := nature_attr o' n "tabstyle" b0) in * end.
    assert (B0 : set_value (fo_cals o) "tabstyle" (option_map SStr (t_nature t)) b0 b1).
    { subst b1. unfold nature_attr. destruct (t_nature t); [apply set_some|apply set_none]. }
    assert (B1 : forall n, dget b0 (cals (fo_cals o) n) = if String.eqb n "frame" then Some (SStr frame) else if String.eqb n "colsep" then Some (SStr cs)
      else if String.eqb n "rowsep" then Some (SStr rs) else None).
    { intros n. subst b0. cbn [dget]. assert (K : forall m, String.eqb (cals (fo_cals o) n) (cals (fo_cals o) m) = String.eqb n m).
      { intros m. destruct (String.eqb_spec n m) as [->|N]; [apply String.eqb_refl|]. apply String.eqb_neq. intros E. apply qname_inj in E. contradiction. }
      rewrite !K. reflexivity. }
    clearbody b1 b0.
    set (corpus := XElem _ _ _ _ _).
    assert (W : forall n, attribute (co_ns co) corpus n = as_text (dget a (cals (fo_cals o) n))) by (intros n; eapply written; [exact Em|reflexivity]).
    assert (G : forall n, ~ In n table_names -> dget a (cals (fo_cals o) n) = dget b1 (cals (fo_cals o) n)).
    { intros n Hn. apply map_set in F4 as (r1 & F4 & _). apply width_set in F5 as (r2 & F5 & _). rewrite F5, copy_set, pgwide_set, F4.
      destruct (String.eqb_spec n "width") as [->|_]; [exfalso; apply Hn; cbn; tauto|].
      destruct (String.eqb_spec n "bgcolor") as [->|_]; [exfalso; apply Hn; cbn; tauto|].
      destruct (String.eqb_spec n "pgwide") as [->|_]; [exfalso; apply Hn; cbn; tauto|].
      destruct (String.eqb_spec n "orient") as [->|_]; [exfalso; apply Hn; cbn; tauto|]. reflexivity. }
    split; [|split; [|split; [|split; [|split; [|split]]]]].
    - eapply table_chain; [exact F1| | |exact F4|exact F5|exact Em|reflexivity].
      + rewrite B0, B1. reflexivity.
      + intros n Hn. rewrite B0, B1. cbn in Hn. repeat (destruct Hn as [<-|Hn]; [reflexivity|]). destruct Hn.
    - rewrite W, G, B0, B1 by (cbn; intuition discriminate). cbn [String.eqb Ascii.eqb Bool.eqb]. rewrite or_style. apply text_of.
    - rewrite W, G, B0, B1 by (cbn; intuition discriminate). reflexivity.
    - rewrite W, G, B0, B1 by (cbn; intuition discriminate). reflexivity.
    - split; apply table_line_spec; assumption.
    - apply rmap_Forall2 in Es. eapply Forall2_impl_l; [|exact Es]. intros v e _. apply colspec_look.
    - exists items. split; [reflexivity|]. apply rmap_Forall2 in Ei. eapply Forall2_impl_l; [|exact Ei]. intros v it _ Hv.
      exact (frow_looks _ _ _ _ _ _ HR HB Hv).
  Qed.
End Formex.

Section Cals.
  Variable o : cals_opts.

  Definition entry_more (c : cell) (e : xnode) : Prop := as_is (dget (c_styles c) "cellstyle") (attribute (co_ns o) e "cellstyle").

  Lemma row_looks t bb cs rs v items : treachable t -> (table_iter t <> [] -> bounds (table_iter t) bb) -> build_row o (table_bounding_box t) cs rs v = Ok items ->
    row_rendered (expanded (co_ns o) "row") (co_ns o) bb cs rs (fun _ _ => True) entry_more v items.
  Proof.
    intros HR HB H. unfold build_row in H. bind H as a1 F1. bind H as a2 F2. bind H as start E3. bind H as attrs E4.
    bind H as finish E5. bind H as cells E6. injection H as <-.
    exists (XElem (cals o "row") attrs None cells None). split; [rewrite <- qname_expanded; reflexivity|]. split; [|apply marks_spec; assumption].
    - split; [|split; [exact I|]].
      + eapply (row_chain o); [| |exact F2| |exact E4|reflexivity].
        * instantiate (1 := []). reflexivity.
        * exact F1.
        * reflexivity.
      + apply rmap_Forall2 in E6. eapply Forall2_impl_l; [|exact E6]. intros c e _ Hc. cbn beta in Hc. bind Hc as b Eb.
        destruct b as [b|]; [|discriminate]. pose proof (bb_of t b bb HR Eb HB) as ->. apply entry_look, Hc.
  Qed.

  Definition section_look bb cs rs (s : nature * list view) (e : xnode) : Prop :=
    exists items, x_children e = List.concat items /\
      Forall2 (row_rendered (expanded (co_ns o) "row") (co_ns o) bb cs rs (fun _ _ => True) entry_more) (snd s) items.

  Lemma tbody_looks t bb cs rs tag n rows e : treachable t -> (table_iter t <> [] -> bounds (table_iter t) bb) ->
    build_tbody o (table_bounding_box t) cs rs tag rows = Ok e -> section_look bb cs rs (n, rows) e.
  Proof.
    intros HR HB H. unfold build_tbody in H. bind H as items Ei. injection H as <-. exists items. split; [reflexivity|].
    apply rmap_Forall2 in Ei. eapply Forall2_impl_l; [|exact Ei]. intros v it _ Hv. exact (row_looks _ _ _ _ _ _ HR HB Hv).
  Qed.

  Lemma tree_looks t bb e : treachable t -> (table_iter t <> [] -> bounds (table_iter t) bb) -> generate_table_tree o t = Ok e ->
    table_look (co_ns o) (co_unit o) (co_fmt o) t e /\
    exists cols rows tg specs bodies cs rs, table_views Cols t = Ok cols /\ table_views Rows t = Ok rows /\
      x_children e = [tg] /\ x_children tg = specs ++ bodies /\
      (let d := if co_in_tgroup o then tg else e in
       attribute (co_ns o) d "colsep" = Some cs /\ attribute (co_ns o) d "rowsep" = Some rs /\
       attribute (co_ns o) d (if co_in_tgroup o then "tgroupstyle" else "tabstyle") = t_nature t) /\
      separators_of t cs rs /\
      Forall2 (column_look (co_ns o) (co_unit o) (co_fmt o) cs rs) cols specs /\
      Forall2 (section_look bb cs rs) (sections_of o rows) bodies.
  Proof.
    intros HR HB H. destruct (generate_attrs _ _ _ H) as (cs & rs & tg & frame & Hch & Hn & _ & _ & Hcs & Hrs & Hat & _).
    unfold generate_table_tree in H. bind H as frame' Ef. bind H as car Ea. destruct car as [[cs0 rs0] a].
    bind H as a1 E1. bind H as a2 E2. bind H as attrs Em. bind H as tg' Et. injection H as <-. cbn [x_children] in Hch. injection Hch as <-.
    split.
    - assert (B : exists r1 r2 r3, forall n, dget a (cals o n) = if String.eqb n "frame" then Some (SStr frame') else if String.eqb n "colsep" then r1
        else if String.eqb n "rowsep" then r2 else if String.eqb n "tabstyle" then r3 else None).
      { pose proof (set_first o "frame" (SStr frame')) as S0. destruct (co_in_tgroup o).
        - injection Ea as _ _ <-. exists None, None, None. intros n. rewrite S0.
          destruct (String.eqb n "frame"); [reflexivity|]. destruct (String.eqb n "colsep"), (String.eqb n "rowsep"), (String.eqb n "tabstyle"); reflexivity.
        - bind Ea as s1 F1. bind Ea as s2 F2. injection Ea as _ _ <-.
          match goal with |- context [nature_attr _ _ _ (dset ?b (cals o "rowsep") _)] => change b with (dset [(cals o "frame", SStr frame')] (cals o "colsep") (SStr s1)) end.
          pose proof (set_some o "colsep" (SStr s1) [(cals o "frame", SStr frame')]) as S1.
          match type of S1 with set_value _ _ _ _ ?b => set (b1 := b) in * end.
          pose proof (set_some o "rowsep" (SStr s2) b1) as S2. match type of S2 with set_value _ _ _ _ ?b => set (b2 := b) in * end.
          assert (S3 : set_value o "tabstyle" (option_map SStr (t_nature t)) b2 (nature_attr o (t_nature t) "tabstyle" b2)).
          { unfold nature_attr. destruct (t_nature t); [apply set_some|apply set_none]. }
          exists (Some (SStr s1)), (Some (SStr s2)), (option_map SStr (t_nature t)). intros n. rewrite S3, S2, S1, S0. cbn [dget].
          destruct (String.eqb_spec n "frame") as [->|]; [reflexivity|]. destruct (String.eqb_spec n "colsep") as [->|]; [reflexivity|].
          destruct (String.eqb_spec n "rowsep") as [->|]; [reflexivity|]. destruct (String.eqb n "tabstyle"); [apply or_style|reflexivity]. }
      destruct B as (r1 & r2 & r3 & B).
      eapply table_chain; [exact Ef| | |exact E1|exact E2|exact Em|reflexivity].
      + rewrite B. reflexivity.
      + intros n Hin. rewrite B. cbn in Hin. repeat (destruct Hin as [<-|Hin]; [reflexivity|]). destruct Hin.
    - unfold build_tgroup in Et. bind Et as cols Ec. bind Et as car Eg. destruct car as [[cs' rs'] ag]. bind Et as attrs' Em'.
      bind Et as specs Es. bind Et as rows Er. bind Et as bodies Eb. injection Et as <-.
      assert (X : cs' = cs /\ rs' = rs).
      { destruct (co_in_tgroup o).
        - rewrite Hcs, Hrs in Eg. cbn [rbind] in Eg. split; congruence.
        - rewrite Hcs, Hrs in Ea. cbn [rbind] in Ea. split; congruence. }
      destruct X as [-> ->]. exists cols, rows. eexists. exists specs, bodies, cs, rs. split; [reflexivity|]. split; [reflexivity|].
      split; [reflexivity|]. split; [reflexivity|]. split; [|split; [|split]].
      + cbn zeta. destruct (co_in_tgroup o); destruct Hat as (A1 & A2 & A3 & A4 & A5 & A6); auto.
      + split; apply table_line_spec; assumption.
      + apply rmap_Forall2 in Es. eapply Forall2_impl_l; [|exact Es]. intros v e _. apply colspec_look.
      + apply rmap_Forall2 in Eb. eapply Forall2_impl_l; [|exact Eb]. intros [n grp] e _ He. exact (tbody_looks _ _ _ _ _ _ _ _ HR HB He).
  Qed.
End Cals.
