(** * The attributes of a CALS table which is written and read back *)
From Coq Require Import QArith.
From Verif Require Import Base M_Geometry M_Xml M_Cell M_Grid M_Table M_Str M_Units M_Builder M_Cals M_CalsParser.
From Verif Require Import S_Geometry S_Grid S_Table S_Units S_Builder S_Cals S_Int S_CalsParser S_RoundTrip.
From Verif Require Import P_Geometry P_Grid P_GridFacts P_Table P_TableFacts P_Int P_Str P_Builder P_Cals P_CalsParser P_RoundTrip.
Open Scope list_scope.
Open Scope Z_scope.

(** ** Attributes of an entry *)

Lemma copy_style_same o st k name a : dget (copy_style st k (cals o name) a) (cals o name) =
  match dget st k with Some v => Some v | None => dget a (cals o name) end.
Proof. unfold copy_style. destruct (dget st k); [apply dget_dset_same|reflexivity]. Qed.

Lemma make_attrs_text a attrs k v : make_attrs a = Ok attrs -> dget a k = Some v -> exists s, v = SStr s.
Proof.
  revert attrs. induction a as [|[k' v'] a IH]; intros attrs H Hg; [discriminate|]. cbn in H. destruct v' as [s| | |]; try discriminate.
  bind H as rest Er. cbn in Hg. destruct (String.eqb k k'); [exists s; congruence|]. eapply IH; [reflexivity|exact Hg].
Qed.

Lemma map_lookup_get o d v name a a' : (s <-? style_lookup d v ;; Ok (dset a (cals o name) (SStr s))) = Ok a' ->
  exists s x, v = SStr s /\ dget d s = Some x /\ dget a' (cals o name) = Some (SStr x).
Proof.
  intros H. bind H as x Ex. injection H as <-. unfold style_lookup in Ex. destruct v as [s| | |]; try discriminate. unfold lookup in Ex.
  destruct (dget d s) as [y|] eqn:Ed; [|discriminate]. injection Ex as ->. exists s, x. split; [reflexivity|]. split; [exact Ed|]. apply dget_dset_same.
Qed.

Definition entry_attrs (ns : option string) (st : styles) (e : xnode) : Prop :=
  (match dget st "align" with
   | None => attribute ns e "align" = None
   | Some v => exists s, v = SStr s /\ In s aligns /\ attribute ns e "align" = Some s
   end) /\
  (match dget st "vertical-align" with
   | None => attribute ns e "valign" = None
   | Some v => exists s x, v = SStr s /\ dget CELL_VALIGNS s = Some x /\ attribute ns e "valign" = Some x
   end) /\
  (match dget st "background-color" with
   | None => attribute ns e "bgcolor" = None
   | Some v => exists s, v = SStr s /\ attribute ns e "bgcolor" = Some s
   end) /\
  (match dget st "cellstyle" with
   | None => attribute ns e "cellstyle" = None
   | Some v => exists s, v = SStr s /\ attribute ns e "cellstyle" = Some s
   end).

Lemma aligns_same s x : dget ALIGNS s = Some x -> x = s /\ In s aligns.
Proof.
  unfold ALIGNS. cbn [dget]. repeat match goal with |- context [String.eqb s ?k] => destruct (String.eqb_spec s k) as [->|_]; [intros [= <-]; split; [reflexivity|cbn; tauto]|] end.
  discriminate.
Qed.

Lemma build_cell_attrs o bb cs rs c e : build_cell o bb cs rs c = Ok e -> entry_attrs (co_ns o) (c_styles c) e.
Proof.
  unfold build_cell. destruct bb as [bb|]; [|discriminate]. intros H.
  match type of H with rbind ?m _ = _ => destruct m as [a1|] eqn:E1; cbn [rbind] in H; [|discriminate H] end.
  match type of H with rbind ?m _ = _ => destruct m as [a2|] eqn:E2; cbn [rbind] in H; [|discriminate H] end.
  match type of H with rbind ?m _ = _ => destruct m as [a3|] eqn:E3; cbn [rbind] in H; [|discriminate H] end.
  match type of H with rbind ?m _ = _ => destruct m as [a4|] eqn:E4; cbn [rbind] in H; [|discriminate H] end.
  match type of H with rbind ?m _ = _ => destruct m as [attrs|] eqn:E5; cbn [rbind] in H; [|discriminate H] end.
  assert (G2 : forall n, n <> "colsep"%string -> n <> "rowsep"%string -> dget a2 (cals o n) = None).
  { intros n N1 N2.
    assert (G1 : dget a1 (cals o n) = None).
    { destruct (cx (c_max c) =? cx (bmax bb)); [injection E1 as <-; reflexivity|]. rewrite (sep_attr_get _ _ _ _ _ _ _ n E1 N1). reflexivity. }
    destruct (cy (c_max c) =? cy (bmax bb)); [injection E2 as <-; exact G1|]. rewrite (sep_attr_get _ _ _ _ _ _ _ n E2 N2). exact G1. }
  assert (G3 : forall n, n <> "valign"%string -> dget a3 (cals o n) = dget a2 (cals o n)).
  { intros n N3. destruct (dget (c_styles c) "vertical-align"); [|congruence]. apply (style_map_get _ _ _ _ _ _ n E3 N3). }
  assert (G4 : forall n, n <> "align"%string -> dget a4 (cals o n) = dget a3 (cals o n)).
  { intros n N4. destruct (dget (c_styles c) "align"); [|congruence]. apply (style_map_get _ _ _ _ _ _ n E4 N4). }
  apply content_written in H as (_ & Ha & _ & _).
  match type of E5 with make_attrs (copy_style _ _ _ (copy_style _ _ _ ?b)) = _ => set (a5 := b) in * end.
  assert (G5 : forall n, n <> "namest"%string -> n <> "nameend"%string -> n <> "morerows"%string -> dget a5 (cals o n) = dget a4 (cals o n)).
  { intros n N1 N2 N3. subst a5. destruct (1 <? c_height c), (1 <? c_width c); repeat rewrite dset_get by assumption; reflexivity. }
  assert (A : forall n, attribute (co_ns o) e n = as_text (dget (copy_style (c_styles c) "cellstyle" (cals o "cellstyle") (copy_style (c_styles c) "background-color" (cals o "bgcolor") a5)) (cals o n))) by
      (intros n; unfold attribute, x_get; rewrite Ha, <- qname_expanded; apply (make_attrs_get _ _ _ E5)).
  unfold entry_attrs. rewrite !A. split; [|split; [|split]].
  - rewrite !copy_style_get, G5 by discriminate. destruct (dget (c_styles c) "align") as [v|] eqn:Ev.
    + destruct (map_lookup_get _ _ _ _ _ _ E4) as (s & x & -> & Ed & ->). destruct (aligns_same _ _ Ed) as [-> Hin]. exists s. auto.
    + injection E4 as <-. rewrite G3, G2 by discriminate. reflexivity.
  - rewrite !copy_style_get, G5, G4 by discriminate. destruct (dget (c_styles c) "vertical-align") as [v|] eqn:Ev.
    + destruct (map_lookup_get _ _ _ _ _ _ E3) as (s & x & -> & Ed & ->). exists s, x. auto.
    + injection E3 as <-. rewrite G2 by discriminate. reflexivity.
  - assert (EE : dget (copy_style (c_styles c) "cellstyle" (cals o "cellstyle") (copy_style (c_styles c) "background-color" (cals o "bgcolor") a5)) (cals o "bgcolor") = dget (c_styles c) "background-color").
    { rewrite copy_style_get by discriminate. rewrite copy_style_same, G5, G4, G3, G2 by discriminate. destruct (dget (c_styles c) "background-color"); reflexivity. }
    rewrite EE. destruct (dget (c_styles c) "background-color") as [v|] eqn:Ev; [|reflexivity].
    destruct (make_attrs_text _ _ _ _ E5 EE) as (s & ->). exists s. auto.
  - assert (EE : dget (copy_style (c_styles c) "cellstyle" (cals o "cellstyle") (copy_style (c_styles c) "background-color" (cals o "bgcolor") a5)) (cals o "cellstyle") = dget (c_styles c) "cellstyle").
    { rewrite copy_style_same, copy_style_get, G5, G4, G3, G2 by discriminate. destruct (dget (c_styles c) "cellstyle"); reflexivity. }
    rewrite EE. destruct (dget (c_styles c) "cellstyle") as [v|] eqn:Ev; [|reflexivity].
    destruct (make_attrs_text _ _ _ _ E5 EE) as (s & ->). exists s. auto.
Qed.

Lemma kept_text_read st' k v : dget st' k = match not_empty (Some v) with Some s => Some (SStr s) | None => None end ->
  dget st' k = kept_text (Some (SStr v)).
Proof. intros ->. destruct v; reflexivity. Qed.

Lemma entry_styles_kept ns st e st' : entry_attrs ns st e -> has_styles st' (entry_style ns e) -> cell_styles_kept st' st.
Proof.
  intros (H1 & H2 & H3 & H4) HS. unfold cell_styles_kept. rewrite !HS. unfold entry_style. cbn [String.eqb Ascii.eqb Bool.eqb]. split; [|split; [|split]].
  - destruct (dget st "align") as [v|]; [|rewrite H1; reflexivity]. destruct H1 as (s & -> & Hin & ->).
    unfold aligns in Hin. cbn [In] in Hin. decompose [or] Hin; subst; try contradiction; reflexivity.
  - destruct (dget st "vertical-align") as [v|]; [|rewrite H2; reflexivity]. destruct H2 as (s & x & -> & Hd & ->).
    unfold CELL_VALIGNS in Hd. cbn [dget] in Hd.
    repeat match type of Hd with context [String.eqb s ?k] => destruct (String.eqb_spec s k) as [->|_]; [injection Hd as <-; reflexivity|] end. discriminate.
  - destruct (dget st "background-color") as [v|]; [|rewrite H3; reflexivity]. destruct H3 as (s & -> & ->). destruct s; reflexivity.
  - destruct (dget st "cellstyle") as [v|]; [|rewrite H4; reflexivity]. destruct H4 as (s & -> & ->). destruct s; reflexivity.
Qed.

(** ** Attributes of the table *)

Definition table_attrs (o : cals_opts) (t : table) (e : xnode) (cs rs : string) : Prop :=
  let ns := co_ns o in let st := t_styles t in
  exists tg frame, x_children e = [tg] /\ named ns "tgroup" tg /\ get_frame_attr st = Ok frame /\ attribute ns e "frame" = Some frame /\
  table_sep st "x-cell-border-right" = Ok cs /\ table_sep st "x-cell-border-bottom" = Ok rs /\
  (if co_in_tgroup o
   then attribute ns e "colsep" = None /\ attribute ns e "rowsep" = None /\ attribute ns e "tabstyle" = None /\
        attribute ns tg "colsep" = Some cs /\ attribute ns tg "rowsep" = Some rs /\ attribute ns tg "tgroupstyle" = t_nature t
   else attribute ns e "colsep" = Some cs /\ attribute ns e "rowsep" = Some rs /\ attribute ns e "tabstyle" = t_nature t /\
        attribute ns tg "colsep" = None /\ attribute ns tg "rowsep" = None /\ attribute ns tg "tgroupstyle" = None) /\
  (match dget st "x-sect-orient" with
   | None => attribute ns e "orient" = None
   | Some v => exists s x, v = SStr s /\ dget ORIENTS s = Some x /\ attribute ns e "orient" = Some x
   end) /\
  (attribute ns e "pgwide" = match dget st "x-sect-cols" with
                             | None => None
                             | Some (SStr "1") => Some "1"%string
                             | Some _ => Some "0"%string
                             end) /\
  (match dget st "background-color" with
   | None => attribute ns e "bgcolor" = None
   | Some v => exists s, v = SStr s /\ attribute ns e "bgcolor" = Some s
   end) /\
  (match dget st "width" with
   | None => attribute ns e "width" = None
   | Some _ => exists q, attribute ns e "width" = Some (String.append (co_fmt o q) (co_unit o))
   end).

Lemma dget_cals1 o n m v : m <> n -> dget [(cals o n, v)] (cals o m) = (None : option sval).
Proof. intros H. cbn. destruct (String.eqb_spec (cals o m) (cals o n)) as [E|_]; [destruct (cals_neq o m n H E)|reflexivity]. Qed.

Lemma nature_attr_same o na name a : dget a (cals o name) = None -> dget (nature_attr o na name a) (cals o name) = option_map SStr na.
Proof. intros H. destruct na; cbn; [apply dget_dset_same|exact H]. Qed.

Lemma built_tgroup o colsep rowsep t tg : build_tgroup o colsep rowsep t = Ok tg ->
  named (co_ns o) "tgroup" tg /\
  if co_in_tgroup o
  then exists cs rs, table_sep (t_styles t) "x-cell-border-right" = Ok cs /\ table_sep (t_styles t) "x-cell-border-bottom" = Ok rs /\
       attribute (co_ns o) tg "colsep" = Some cs /\ attribute (co_ns o) tg "rowsep" = Some rs /\ attribute (co_ns o) tg "tgroupstyle" = t_nature t
  else attribute (co_ns o) tg "colsep" = None /\ attribute (co_ns o) tg "rowsep" = None /\ attribute (co_ns o) tg "tgroupstyle" = None.
Proof.
  unfold build_tgroup. intros H. bind H as cols Ec. bind H as car Ea. destruct car as [[cs rs] a].
  bind H as attrs Em. bind H as specs Es. bind H as rows Er. bind H as bodies Eb. injection H as <-.
  split; [unfold named; rewrite <- qname_expanded; reflexivity|].
  assert (A : forall n ch, attribute (co_ns o) (XElem (cals o "tgroup") attrs None ch None) n = as_text (dget a (cals o n))).
  { intros n ch. unfold attribute, x_get. cbn [x_attrs]. rewrite <- qname_expanded. apply (make_attrs_get _ _ _ Em). }
  rewrite !A. destruct (co_in_tgroup o).
  - bind Ea as s1 F1. bind Ea as s2 F2. match type of Ea with Ok (_, _, ?x) = _ => replace a with x by congruence end. exists s1, s2.
    split; [reflexivity|]. split; [reflexivity|]. rewrite !nature_attr_get by discriminate. rewrite dget_dset_same, dset_get, dget_dset_same by discriminate.
    split; [reflexivity|]. split; [reflexivity|]. rewrite nature_attr_same; [destruct (t_nature t); reflexivity|]. rewrite !dset_get by discriminate. apply dget_cals1. discriminate.
  - match type of Ea with Ok (_, _, ?x) = _ => replace a with x by congruence end. rewrite !dget_cals1 by discriminate. auto.
Qed.

Lemma generate_attrs o t e : generate_table_tree o t = Ok e -> exists cs rs, table_attrs o t e cs rs.
Proof.
  unfold generate_table_tree. intros H. bind H as frame Ef. bind H as car Ea. destruct car as [[cs0 rs0] a].
  bind H as a1 E1. bind H as a2 E2. bind H as attrs Em. bind H as tg Et. injection H as <-.
  assert (A : forall n ch, attribute (co_ns o) (XElem (cals o "table") attrs None ch None) n = as_text (dget a2 (cals o n))).
  { intros n ch. unfold attribute, x_get. cbn [x_attrs]. rewrite <- qname_expanded. apply (make_attrs_get _ _ _ Em). }
  assert (G1 : forall n, n <> "orient"%string -> dget a1 (cals o n) = dget a (cals o n)).
  { intros n N. destruct (dget (t_styles t) "x-sect-orient"); [|congruence]. apply (style_map_get _ _ _ _ _ _ n E1 N). }
  match type of E2 with width_attr _ _ _ (copy_style _ _ _ ?b) = _ => set (a3 := b) in * end.
  assert (G3 : forall n, n <> "pgwide"%string -> dget a3 (cals o n) = dget a1 (cals o n)).
  { intros n N. subst a3. destruct (dget (t_styles t) "x-sect-cols"); [apply dset_get, N|reflexivity]. }
  assert (G : forall n, n <> "orient"%string -> n <> "pgwide"%string -> n <> "bgcolor"%string -> n <> "width"%string -> dget a2 (cals o n) = dget a (cals o n)).
  { intros n N1 N2 N3 N4. rewrite (width_attr_get _ _ _ _ _ n E2 N4), copy_style_get, G3, G1 by assumption. reflexivity. }
  assert (HB : exists cs rs, (if co_in_tgroup o then True else table_sep (t_styles t) "x-cell-border-right" = Ok cs /\ table_sep (t_styles t) "x-cell-border-bottom" = Ok rs) /\
    dget a (cals o "frame") = Some (SStr frame) /\
    (if co_in_tgroup o then dget a (cals o "colsep") = None /\ dget a (cals o "rowsep") = None /\ dget a (cals o "tabstyle") = None
     else dget a (cals o "colsep") = Some (SStr cs) /\ dget a (cals o "rowsep") = Some (SStr rs) /\ dget a (cals o "tabstyle") = option_map SStr (t_nature t)) /\
    dget a (cals o "orient") = None /\ dget a (cals o "pgwide") = None /\ dget a (cals o "bgcolor") = None /\ dget a (cals o "width") = None).
  { destruct (co_in_tgroup o).
    - match type of Ea with Ok (_, _, ?x) = _ => replace a with x by congruence end. exists ""%string, ""%string. split; [exact I|].
      split; [apply dget_one|]. rewrite !dget_cals1 by discriminate. auto 10.
    - bind Ea as s1 F1. bind Ea as s2 F2. match type of Ea with Ok (_, _, ?x) = _ => replace a with x by congruence end. exists s1, s2. split; [auto|].
      rewrite !nature_attr_get by discriminate. rewrite nature_attr_same by (rewrite !dset_get by discriminate; apply dget_cals1; discriminate).
      repeat first [rewrite nature_attr_get by discriminate | rewrite dget_dset_same | rewrite dset_get by discriminate | rewrite dget_one | rewrite dget_cals1 by discriminate]. auto 10. }
  destruct HB as (cs & rs & HS & Bf & Bt & Bo & Bp & Bb & Bw). destruct (built_tgroup _ _ _ _ _ Et) as [Hn Htg].
  assert (HH : exists cs rs, table_sep (t_styles t) "x-cell-border-right" = Ok cs /\ table_sep (t_styles t) "x-cell-border-bottom" = Ok rs /\
    (if co_in_tgroup o
     then as_text (dget a2 (cals o "colsep")) = None /\ as_text (dget a2 (cals o "rowsep")) = None /\ as_text (dget a2 (cals o "tabstyle")) = None /\
        attribute (co_ns o) tg "colsep" = Some cs /\ attribute (co_ns o) tg "rowsep" = Some rs /\ attribute (co_ns o) tg "tgroupstyle" = t_nature t
     else as_text (dget a2 (cals o "colsep")) = Some cs /\ as_text (dget a2 (cals o "rowsep")) = Some rs /\ as_text (dget a2 (cals o "tabstyle")) = t_nature t /\
        attribute (co_ns o) tg "colsep" = None /\ attribute (co_ns o) tg "rowsep" = None /\ attribute (co_ns o) tg "tgroupstyle" = None)).
  { rewrite !G by discriminate. destruct (co_in_tgroup o).
    - destruct Htg as (c & r & T1 & T2 & T3 & T4 & T5). destruct Bt as (-> & -> & ->). exists c, r. auto 10.
    - destruct HS as [T1 T2]. destruct Bt as (-> & -> & ->). exists cs, rs. destruct Htg as (T3 & T4 & T5).
      split; [exact T1|]. split; [exact T2|]. split; [reflexivity|]. split; [reflexivity|]. split; [destruct (t_nature t); reflexivity|]. auto. }
  destruct HH as (c & r & T1 & T2 & T3). exists c, r, tg, frame. split; [reflexivity|]. split; [exact Hn|]. split; [exact Ef|].
  split; [rewrite A, G, Bf by discriminate; reflexivity|]. split; [exact T1|]. split; [exact T2|]. rewrite !A. split; [exact T3|]. split; [|split; [|split]].
  - rewrite (width_attr_get _ _ _ _ _ "orient" E2), copy_style_get, G3 by discriminate. destruct (dget (t_styles t) "x-sect-orient") as [v|].
    + destruct (map_lookup_get _ _ _ _ _ _ E1) as (s & x & -> & Ed & ->). exists s, x. auto.
    + injection E1 as <-. rewrite Bo. reflexivity.
  - rewrite (width_attr_get _ _ _ _ _ "pgwide" E2), copy_style_get by discriminate. subst a3. destruct (dget (t_styles t) "x-sect-cols") as [v|].
    + rewrite dget_dset_same. cbn [as_text]. destruct v as [s| | |]; [|reflexivity|reflexivity|reflexivity]. destruct (String.eqb_spec s "1") as [->|N]; [reflexivity|].
      destruct s as [|[[] [] [] [] [] [] [] []] [|]]; try reflexivity; congruence.
    + rewrite G1, Bp by discriminate. reflexivity.
  - assert (EE : dget a2 (cals o "bgcolor") = dget (t_styles t) "background-color").
    { rewrite (width_attr_get _ _ _ _ _ "bgcolor" E2), copy_style_same, G3, G1, Bb by discriminate. destruct (dget (t_styles t) "background-color"); reflexivity. }
    rewrite EE. destruct (dget (t_styles t) "background-color") as [v|]; [|reflexivity]. destruct (make_attrs_text _ _ _ _ Em EE) as (s & ->). exists s. auto.
  - unfold width_attr in E2. destruct (dget (t_styles t) "width") as [[w| | |]|]; try discriminate.
    + bind E2 as wu F1. bind E2 as q F2. injection E2 as <-. exists q. rewrite dget_dset_same. reflexivity.
    + injection E2 as <-. rewrite copy_style_get, G3, G1, Bw by discriminate. reflexivity.
Qed.

(** ** Reading the attributes back *)

Lemma table_sep_values st style cs : table_sep st style = Ok cs -> (cs = "0"%string \/ cs = "1"%string) /\ forall w, line_of st style w -> cs = shown w.
Proof.
  unfold table_sep, get_sep_attr. intros H. pose proof (border_spec st style) as HB.
  destruct (get_border_style st style) as [[w|]|x]; cbn [rbind] in H; [| |discriminate].
  - destruct HB as [_ HU]. injection H as <-. split; [destruct (String.eqb w "none"); auto|]. intros w' Hw. apply HU in Hw as ->. reflexivity.
  - injection H as <-. split; [auto|]. intros w Hw. destruct (HB w Hw).
Qed.

Lemma shown_line w : separator_line (Some (shown w)) = Some (if String.eqb w "none" then "none"%string else "solid 1pt black"%string).
Proof. unfold shown. destruct (String.eqb w "none"); reflexivity. Qed.

Lemma of_name_one ns name n : named ns name n -> of_name ns name [n] = [n].
Proof. intros H. apply of_name_all. intros x [<-|[]]. exact H. Qed.

Lemma table_separators o t e cs rs : table_attrs o t e cs rs ->
  table_separator (co_ns o) e "colsep" = separator_line (Some cs) /\ table_separator (co_ns o) e "rowsep" = separator_line (Some rs).
Proof.
  intros (tg & f & Hc & Hn & _ & _ & Hcs & Hrs & H & _). unfold table_separator. rewrite Hc, (of_name_one _ _ _ Hn). cbn [map].
  apply table_sep_values in Hcs as [Hcs _]. apply table_sep_values in Hrs as [Hrs _].
  destruct (co_in_tgroup o); destruct H as (-> & -> & _ & -> & -> & _); destruct Hcs as [-> | ->], Hrs as [-> | ->]; split; reflexivity.
Qed.


Lemma line_in st style : 
  (dget st style = Some (SStr "solid 1pt black") -> line_of st style "black") /\
  (dget st style = Some (SStr "none") -> line_of st style "none").
Proof.
  pose proof (border_spec st style) as H. unfold get_border_style in H. split; intros E; rewrite E in H.
  - change (fold_left _ (split_on " " "solid 1pt black") None) with (Some "black"%string) in H. apply H.
  - change (fold_left _ (split_on " " "none") None) with (Some "none"%string) in H. apply H.
Qed.
Lemma line_fun st style w w' : line_of st style w -> line_of st style w' -> w = w'.
Proof.
  intros H H'. pose proof (border_spec st style) as HB. destruct (get_border_style st style) as [[x|]|]; [|destruct (HB w H)|].
  - destruct HB as [_ HB]. rewrite (HB w H), (HB w' H'). reflexivity.
  - destruct HB as [_ HB]. destruct HB. destruct H as (s & a & b & E & _). unfold text_or_absent. rewrite E. exact I.
Qed.

Lemma frame_back st st' f frame : In f six_frames -> (forall s, frame_shows f s <-> drawn st s) -> get_frame_attr st = Ok frame ->
  (forall s, (frame_shows frame s -> dget st' (side_style s) = Some (SStr "solid 1pt black")) /\ (~ frame_shows frame s -> dget st' (side_style s) = Some (SStr "none"))) ->
  forall s, drawn st' s <-> drawn st s.
Proof.
  intros Hin Hf Ef HT. assert (EF : frame = f).
  { pose proof (frame_spec st) as H. rewrite Ef in H. destruct H as (bt & bb & bl & br & -> & Ht & Hb & Hl & Hr).
    rewrite <- Hf in Ht, Hb, Hl, Hr. unfold six_frames in Hin. cbn [In] in Hin. unfold frame_shows in *. clear - Hin Ht Hb Hl Hr.
    destruct Hin as [<-|[<-|[<-|[<-|[<-|[<-|[]]]]]]]; destruct bt, bb, bl, br; try reflexivity; exfalso;
      try (destruct Ht as [Ht Ht']; try (specialize (Ht' ltac:(tauto)); discriminate); try (specialize (Ht eq_refl)));
      try (destruct Hb as [Hb Hb']; try (specialize (Hb' ltac:(tauto)); discriminate); try (specialize (Hb eq_refl)));
      try (destruct Hl as [Hl Hl']; try (specialize (Hl' ltac:(tauto)); discriminate); try (specialize (Hl eq_refl)));
      try (destruct Hr as [Hr Hr']; try (specialize (Hr' ltac:(tauto)); discriminate); try (specialize (Hr eq_refl)));
      intuition discriminate. }
  subst frame. intros s. rewrite <- Hf. destruct (HT s) as [H1 H2]. split.
  - intros (w & Hw & N1 & N2). assert (HD : frame_shows f s \/ ~ frame_shows f s).
    { unfold frame_shows. destruct (string_dec f "all"); [auto|].
      destruct s; [destruct (string_dec f "top"), (string_dec f "topbot")|destruct (string_dec f "bottom"), (string_dec f "topbot")|destruct (string_dec f "sides")|destruct (string_dec f "sides")]; tauto. }
    destruct HD as [HD|HD]; [exact HD|]. specialize (H2 HD). apply (line_in st' (side_style s)) in H2.
    destruct (N1 (line_fun _ _ _ _ Hw H2)).
  - intros Hs. specialize (H1 Hs). exists "black"%string. split; [apply line_in, H1|]. split; discriminate.
Qed.

Lemma table_back o p t e cs rs t' : co_ns o = pc_ns p -> table_attrs o t e cs rs -> table_attributes (pc_ns p) (pc_unit p) (pc_fmt p) e t' -> table_kept t' t.
Proof.
  intros Ens HA (HF & HW & HS & HN). rewrite <- Ens in *. pose proof (table_separators _ _ _ _ _ HA) as [Sc Sr].
  destruct HA as (tg & f & Hc & Hn & Ef & Af & Hcs & Hrs & Hsep & Ho & Hp & Hb & Hw). unfold table_kept. split; [|split; [|split; [|split; [|split; [|split]]]]].
  - intros f0 Hin Hs. apply (frame_back _ _ f0 f Hin Hs Ef). intros s. specialize (HF s). unfold table_frame in HF. rewrite Af in HF.
    pose proof (frame_spec (t_styles t)) as FS. rewrite Ef in FS. destruct FS as (bt & bb & bl & br & EF & _).
    assert (not_empty (Some f) = Some f) as EE by (subst f; destruct bt, bb, bl, br; reflexivity). rewrite EE in HF. split; apply HF.
  - rewrite Hc, (of_name_one _ _ _ Hn) in HN. cbn [map] in HN. inversion HN as [|s l n n1 n2 H1 H2]; subst. inversion H2; subst. clear HN H2.
    destruct (co_in_tgroup o); destruct Hsep as (_ & _ & Htab & _ & _ & Htg); rewrite Htab, Htg in H1.
    + change (not_empty None) with (@None string) in H1. inversion H1 as [? Hx|? ? Hx Hy|]; subst; [symmetry; exact Hx|symmetry; exact Hx].
    + inversion H1 as [|? ? Hx|? ? ? ? Hx]; subst; [reflexivity|discriminate Hx|discriminate Hx].
  - rewrite HS by (vm_compute; intuition discriminate). unfold table_style. cbn [String.eqb Ascii.eqb Bool.eqb].
    destruct (dget (t_styles t) "x-sect-orient") as [v|]; [|rewrite Ho; reflexivity]. destruct Ho as (s & x & -> & Hd & ->).
    unfold ORIENTS in Hd. cbn [dget] in Hd.
    repeat match type of Hd with context [String.eqb s ?k] => destruct (String.eqb_spec s k) as [->|_]; [injection Hd as <-; reflexivity|] end. discriminate.
  - rewrite HS by (vm_compute; intuition discriminate). unfold table_style. cbn [String.eqb Ascii.eqb Bool.eqb]. rewrite Hp.
    destruct (dget (t_styles t) "x-sect-cols") as [[s|b|a b|]|]; [|reflexivity|reflexivity|reflexivity|reflexivity].
    destruct s as [|[[] [] [] [] [] [] [] []] [|]]; reflexivity.
  - rewrite HS by (vm_compute; intuition discriminate). unfold table_style. cbn [String.eqb Ascii.eqb Bool.eqb].
    destruct (dget (t_styles t) "background-color") as [v|]; [|rewrite Hb; reflexivity]. destruct Hb as (s & -> & ->). destruct s; reflexivity.
  - intros style w Hin Hline. apply table_sep_values in Hcs as [_ Hcs]. apply table_sep_values in Hrs as [_ Hrs].
    destruct Hin as [<-|[<-|[]]]; (rewrite HS by (vm_compute; intuition discriminate)); unfold table_style; cbn [String.eqb Ascii.eqb Bool.eqb].
    + rewrite Sc, (Hcs w Hline), shown_line. unfold kept_line. destruct (String.eqb w "none"); reflexivity.
    + rewrite Sr, (Hrs w Hline), shown_line. unfold kept_line. destruct (String.eqb w "none"); reflexivity.
  - intros E. rewrite E in Hw. unfold table_width in HW. rewrite Hw in HW. exact HW.
Qed.

(** The tree which is written can be read. *)
Lemma table_readable o p t e cs rs : co_ns o = pc_ns p -> table_attrs o t e cs rs -> In (pc_unit p) unit_names ->
  (forall q, exists c, In c (list_ascii_of_string (co_fmt o q)) /\ digit c) -> readable_table (pc_ns p) (pc_unit p) e.
Proof.
  intros Ens (tg & f & Hc & Hn & Ef & Af & _ & _ & _ & _ & _ & _ & Hw) Hu Hd. rewrite <- Ens. split.
  - intros f0 H. rewrite Af in H. pose proof (frame_spec (t_styles t)) as FS. rewrite Ef in FS. destruct FS as (bt & bb & bl & br & -> & _).
    destruct bt, bb, bl, br; injection H as <-; vm_compute; tauto.
  - intros w H. split; [exact Hu|]. destruct (dget (t_styles t) "width"); [|rewrite Hw in H; discriminate]. destruct Hw as (q & Ew). rewrite Ew in H.
    destruct (Hd q) as (c & Hin & Hdig). exists c. split; [|exact Hdig].
    assert (E : w = String.append (co_fmt o q) (co_unit o)) by (destruct (String.append (co_fmt o q) (co_unit o)); [discriminate|injection H as <-; reflexivity]).
    rewrite E, list_of_append. apply in_app_iff. left. exact Hin.
Qed.

Lemma border_back o p t e cs rs t' c en c' n m : co_ns o = pc_ns p -> table_attrs o t e cs rs ->
  table_attributes (pc_ns p) (pc_unit p) (pc_fmt p) e t' ->
  separated (co_ns o) (MkBox (Coord 1 1) (Coord n m)) cs rs c en -> has_styles (c_styles c') (entry_style (co_ns o) en) -> borders_kept t' n m c' c.
Proof.
  intros Ens HA (_ & _ & HS & _) (H1 & H2 & H3 & H4) HH. rewrite <- Ens in *. destruct (table_separators _ _ _ _ _ HA) as [Sc Sr]. cbn [bmax cx cy] in *.
  assert (K : forall v d w, effective v d = shown w -> (d = "0"%string \/ d = "1"%string) ->
     match match separator_line v with Some s => Some (SStr s) | None => None end with
     | Some x => Some x
     | None => match separator_line (Some d) with Some s => Some (SStr s) | None => None end
     end = Some (kept_line w)).
  { intros v d w E Hd. unfold kept_line. unfold shown in E. destruct v as [s|]; cbn [effective] in E.
    - subst s. destruct (String.eqb w "none"); reflexivity.
    - subst d. destruct (String.eqb w "none"); reflexivity. }
  destruct HA as (tg & f & Hc & Hn & Ef & Af & Hcs & Hrs & _). apply table_sep_values in Hcs as [Hcs _]. apply table_sep_values in Hrs as [Hrs _].
  split; [|split; [|split]].
  - intros Hlt w Hw. specialize (H1 ltac:(lia) w Hw). unfold border_in_force. rewrite HH, HS by (vm_compute; intuition discriminate).
    unfold entry_style, table_style. cbn [String.eqb Ascii.eqb Bool.eqb String.append]. rewrite Sc. apply K; assumption.
  - intros Hlt w Hw. specialize (H3 ltac:(lia) w Hw). unfold border_in_force. rewrite HH, HS by (vm_compute; intuition discriminate).
    unfold entry_style, table_style. cbn [String.eqb Ascii.eqb Bool.eqb String.append]. rewrite Sr. apply K; assumption.
  - intros E. rewrite HH. unfold entry_style. cbn [String.eqb Ascii.eqb Bool.eqb]. rewrite (H2 E). reflexivity.
  - intros E. rewrite HH. unfold entry_style. cbn [String.eqb Ascii.eqb Bool.eqb]. rewrite (H4 E). reflexivity.
Qed.
