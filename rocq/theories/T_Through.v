(** * Theorems about tables converted through CALS (C94) *)
From Coq Require Import QArith Permutation.
From Verif Require Import Base M_Geometry M_Xml M_Cell M_Grid M_Table M_Str M_Units M_Builder M_Cals M_CalsParser M_Formex M_FormexParser M_FormexRead M_Ooxml M_Convert.
From Verif Require Import S_Geometry S_Grid S_Table S_Units S_Builder S_Cals S_Int S_CalsParser S_RoundTrip S_Formex S_FormexRead S_FormexTrip S_Attrs S_Axes S_Convert S_Through.
From Verif Require S_Ooxml.
From Verif Require Import P_Table P_TableFacts P_TableMore P_Cals P_Formex P_CalsParser P_CalsTable P_RoundTrip P_RoundTripAttrs P_FormexTripMain P_RoundTripMain P_Fit P_Height P_Parsed P_Rect P_CalsMore P_FormexMore.
From Verif Require Import T_Table T_Cals T_Formex T_CalsParser T_FormexRead T_RoundTrip T_FormexTrip T_Convert T_ConvertBack T_Options T_Pictures.
From Verif Require P_Grid P_CalsLayout S_OoxmlStyle S_ConvertWord T_Ooxml T_OoxmlCell.
Open Scope string_scope.
Open Scope list_scope.
Open Scope Z_scope.

(** ** Entries read as empty *)

Definition spot_read (s : spot) : Prop :=
  match fst s with Some e => c_content (snd s) = content_of e | None => c_content (snd s) = CNone end.
Lemma filled_read bb na g g' : filled bb na g g' -> Forall spot_read g -> Forall spot_read g'.
Proof.
  intros (ks & _ & ->) H. apply Forall_app. split; [|exact H]. rewrite Forall_forall. intros s Hs. apply in_map_iff in Hs as (k & <- & _). reflexivity.
Qed.
Lemma settled_read ns watch e g g' : settled ns watch e g g' -> Forall spot_read g -> Forall spot_read g'.
Proof. intros [n bb g1 _ _ _ _ H|_] HF; [exact (filled_read _ _ _ _ H HF)|exact HF]. Qed.
Lemma placed_read ns watch r na k es n g n' g' : placed ns watch r na k es n g n' g' -> Forall spot_read g -> Forall spot_read g'.
Proof.
  induction 1 as [|k e es n g i w h g1 n2 g2 _ _ _ _ _ HS _ IH]; intros HF; [exact HF|]. apply IH. apply (settled_read _ _ _ _ _ HS).
  constructor; [reflexivity|exact HF].
Qed.
Lemma lays_read ns watch its l l' : lays ns watch its l l' -> Forall spot_read (l_spots l) -> Forall spot_read (l_spots l').
Proof.
  induction 1 as [|c its r k n g cs m l' _ _ IH|na sec row its r k n g cs n1 g1 g2 l' HP _ HF _ IH]; intros H; cbn [l_spots] in *; [exact H|apply IH, H|].
  apply IH. apply (filled_read _ _ _ _ HF). exact (placed_read _ _ _ _ _ _ _ _ _ _ HP H).
Qed.
Lemma laid_out_read ns watch e l g : laid_out ns watch e l g -> Forall spot_read g.
Proof. intros (HL & bb & _ & HF). apply (filled_read _ _ _ _ HF). apply (lays_read _ _ _ _ _ HL). constructor. Qed.
Lemma pictures_empty ns cells g c : pictures ns cells g -> Forall spot_read g -> In c cells -> shown_empty c -> content_pieces (c_content c) = [].
Proof.
  intros (l & P & F) HG Hin HE. apply (Permutation_in _ (Permutation_sym P)) in Hin.
  destruct (Forall2_in_both _ _ _ F) as [Fl _]. destruct (Fl c Hin) as (s & Hs & S1 & _ & _ & S4).
  rewrite Forall_forall in HG. specialize (HG s Hs). unfold spot_read in HG.
  destruct HE as [HE|[HE|HE]]; [|rewrite HE; reflexivity|rewrite HE; reflexivity].
  destruct (fst s) as [e|]; [|rewrite S4 in HE; discriminate].
  rewrite S4 in HE. rewrite S1, HG. unfold entry_style in HE. cbn in HE. unfold content_of.
  destruct (text_of e) eqn:Et; [|discriminate]. destruct (x_children e) eqn:Ec; [reflexivity|discriminate].
Qed.

(** ** The rows of a Formex tree *)

Definition frow_of (v : view) (row : xnode) : Prop :=
  x_tag row = Some "ROW" /\ x_get row "TYPE" = row_type (v_nature v) /\ Forall2 describes_fcell (v_owned v) (x_children row).
Lemma frows_rows uc rows items : Forall2 (describes_frow uc) rows items ->
  Forall2 frow_of rows (filter (fun e => x_has_tag e "ROW") (List.concat items)).
Proof.
  intros F. induction F as [|v it rows items Hv F IH]; [constructor|]. cbn [List.concat]. rewrite filter_app.
  destruct Hv as (row & Hn & _ & _ & Hty & HC & Hi).
  assert (E : filter (fun e => x_has_tag e "ROW") it = [row]).
  { pose proof (tag_has row "ROW" Hn) as Ht. destruct (dget (v_styles v) "x-ins").
    - destruct Hi as (a & b & ->). cbn [filter x_has_tag]. rewrite Ht. reflexivity.
    - subst it. cbn [filter]. rewrite Ht. reflexivity. }
  rewrite E. cbn [app]. constructor; [|exact IH]. split; [exact Hn|]. split; [exact Hty|].
  clear - HC. induction HC as [|c e l m [Hc _] _ IH]; constructor; assumption.
Qed.
Lemma tbl_rows_spec uc titles ns t cols rows e : describes_tbl uc titles ns t cols rows e -> exists rows', Forall2 frow_of rows' (tbl_rows e) /\
  ((titles = true /\ has_title t /\ (exists first title, rows = first :: rows' /\ tbl_titles e = [title] /\ describes_title first title)) \/
   (~ (titles = true /\ has_title t) /\ rows' = rows /\ tbl_titles e = [])).
Proof.
  intros (_ & _ & _ & _ & corpus & H).
  assert (R : forall rows' pre, x_children e = pre ++ [corpus] -> filter (fun x => x_has_tag x "CORPUS") pre = [] -> describes_corpus uc ns cols rows' corpus -> Forall2 frow_of rows' (tbl_rows e)).
  { intros rows' pre Ech Hpre HC. unfold tbl_rows. pose proof (tag_has corpus "CORPUS" (proj1 HC)) as Ht.
    unfold children_named. cbn [flat_map]. rewrite app_nil_r, Ech, filter_app, Hpre. cbn [filter app]. rewrite Ht. cbn [flat_map]. rewrite app_nil_r.
    destruct HC as (_ & _ & _ & specs & items & Ec & Hs & HF). rewrite Ec, filter_app.
    replace (filter (fun e => x_has_tag e "ROW") specs) with (@nil xnode); [apply (frows_rows uc), HF|].
    destruct uc; [symmetry; apply (specs_rows _ _ _ Hs)|subst; reflexivity]. }
  assert (N : forall rows', describes_corpus uc ns cols rows' corpus -> x_has_tag corpus "TITLE" = false).
  { intros rows' (Hn & _). destruct corpus as [tg a b c d| |]; try reflexivity. injection Hn as ->. reflexivity. }
  assert (P : x_children e = [corpus] -> describes_corpus uc ns cols rows corpus -> Forall2 frow_of rows (tbl_rows e) /\ tbl_titles e = []).
  { intros Ech HC. split; [exact (R rows [] Ech eq_refl HC)|]. unfold tbl_titles, children_named. cbn [flat_map]. rewrite app_nil_r, Ech. cbn [filter]. rewrite (N rows HC). reflexivity. }
  destruct titles.
  - destruct H as [(HT & title & first & others & -> & Ech & (parts & -> & HPa) & HC)|(HT & Ech & HC)].
    + exists others. split; [exact (R others [_] Ech eq_refl HC)|]. left. split; [reflexivity|]. split; [exact HT|]. exists first. eexists. split; [reflexivity|]. split; [|eexists; split; [reflexivity|eassumption]].
      unfold tbl_titles, children_named. cbn [flat_map]. rewrite app_nil_r, Ech. cbn [filter]. rewrite (N others HC). reflexivity.
    + exists rows. destruct (P Ech HC) as [H1 H2]. split; [exact H1|]. right. tauto.
  - destruct H as [Ech HC]. exists rows. destruct (P Ech HC) as [H1 H2]. split; [exact H1|]. right. split; [intros [X _]; discriminate X|]. auto.
Qed.

(** A table has a title if the cell at its first place is over the whole width and centred. *)
Lemma title_cell_at t n m : tiles (table_iter t) n m ->
  (has_title t <-> exists c, In c (table_iter t) /\ covers (c_box c) (Coord 1 1) /\ cx (bmax (c_box c)) - cx (bmin (c_box c)) = n - 1 /\ dget (c_styles c) "align" = Some (SStr "center")).
Proof.
  intros HT. assert (Hne : table_iter t <> []).
  { destruct HT as (Hn & Hm & _ & _ & _ & HX). destruct (HX (Coord 1 1)) as (c & Hc & _); [unfold covers; cbn; lia|]. intros E. rewrite E in Hc. destruct Hc. }
  pose proof (tiled_bounds t n m HT Hne) as HB. split.
  - intros (c & a & b & bb & E & Hc & _ & Hbb & Hw & Ha). pose proof (P_CalsLayout.bounds_fun _ _ _ Hbb HB) as ->. cbn [bmin bmax cx] in Hw.
    exists c. split; [rewrite E; apply in_app_iff; right; left; reflexivity|]. auto.
  - intros (c & Hin & Hc & Hw & Ha). apply in_split in Hin as (a & b & E). exists c, a, b, (MkBox (Coord 1 1) (Coord n m)). split; [exact E|]. split; [exact Hc|]. split; [|split; [exact HB|split; [exact Hw|exact Ha]]].
    intros d Hd Hcd. destruct HT as (_ & _ & _ & HN & _). unfold no_overlap in HN. rewrite E in HN. clear - HN Hd Hc Hcd.
    induction a as [|x a IH]; [destruct Hd|]. cbn [app] in HN. inversion HN as [|y l F HN']; subst. destruct Hd as [<-|Hd]; [|apply IH; assumption].
    rewrite Forall_forall in F. apply (F c); [apply in_app_iff; right; left; reflexivity|]. exists (Coord 1 1). auto.
Qed.

(** ** Rows with the same places *)

Lemma sorted_places (K : cell -> cell -> Prop) l g : (forall a b, K a b -> c_box a = c_box b) ->
  left_to_right Rows l -> left_to_right Rows g ->
  (forall a, In a l -> exists b, In b g /\ K a b) -> (forall b, In b g -> exists a, In a l /\ K a b) -> Forall2 K l g.
Proof.
  intros HK. revert g. induction l as [|a l IH]; intros g Hl Hg H1 H2.
  - destruct g as [|b g]; [constructor|]. destruct (H2 b (or_introl eq_refl)) as (a & [] & _).
  - destruct g as [|b g]; [destruct (H1 a (or_introl eq_refl)) as (b & [] & _)|].
    inversion Hl as [|a' l' Sl Fl]; subst. inversion Hg as [|b' g' Sg Fg]; subst. rewrite Forall_forall in Fl, Fg. cbn [across] in Fl, Fg.
    assert (Hab : K a b).
    { destruct (H1 a (or_introl eq_refl)) as (b1 & [<-|Hb1] & K1); [exact K1|].
      destruct (H2 b (or_introl eq_refl)) as (a1 & [<-|Ha1] & K2); [exact K2|].
      exfalso. specialize (Fl _ Ha1). specialize (Fg _ Hb1). rewrite <- (HK _ _ K1), <- (HK _ _ K2) in Fg. lia. }
    constructor; [exact Hab|]. apply IH; [exact Sl|exact Sg| |].
    + intros x Hx. destruct (H1 x (or_intror Hx)) as (y & [<-|Hy] & Kxy); [|eauto].
      exfalso. specialize (Fl _ Hx). rewrite (HK _ _ Kxy), (HK _ _ Hab) in Fl. lia.
    + intros y Hy. destruct (H2 y (or_intror Hy)) as (x & [<-|Hx] & Kxy); [|eauto].
      exfalso. specialize (Fg _ Hy). rewrite <- (HK _ _ Kxy), <- (HK _ _ Hab) in Fg. lia.
Qed.

Lemma fcell_same (blank : list piece -> Prop) c' c x y : c_box c' = c_box c -> content_pieces (c_content c') = content_pieces (c_content c) ->
  (shown_empty c' -> content_pieces (c_content c') = []) -> (shown_empty c -> blank (content_pieces (c_content c))) ->
  describes_fcell c' x -> describes_fcell c y -> same_fcell blank x y.
Proof.
  intros Hb Hp He Hk (T1 & _ & P1 & E1 & N1) (T2 & _ & P2 & E2 & N2). split; [exact T1|]. split; [exact T2|]. split.
  - rewrite Hb in P1. destruct (c_box c) as [[x1 y1] [x2 y2]]. destruct P1 as (A1 & A2 & A3 & A4 & A5), P2 as (B1 & B2 & B3 & B4 & B5).
    split; [congruence|]. split; [destruct (Z_lt_le_dec x1 x2); [rewrite A2, B2 by assumption|rewrite A3, B3 by assumption]; reflexivity|].
    destruct (Z_lt_le_dec y1 y2); [rewrite A4, B4 by assumption|rewrite A5, B5 by assumption]; reflexivity.
  - exists (content_pieces (c_content c)). split.
    + destruct (empty_dec c') as [Hc'|Hc']; [left; split; [apply E1, Hc'|rewrite <- Hp; apply He, Hc']|right; rewrite (N1 Hc'); exact Hp].
    + destruct (empty_dec c) as [Hc|Hc]; [right; split; [apply E2, Hc|apply Hk, Hc]|left; right; exact (N2 Hc)].
Qed.
Lemma Forall2_join {A B C D} (K : A -> B -> Prop) (R : A -> C -> Prop) (Q : B -> D -> Prop) (S : C -> D -> Prop) l g x y :
  (forall a b c d, In a l -> In b g -> K a b -> R a c -> Q b d -> S c d) -> Forall2 K l g -> Forall2 R l x -> Forall2 Q g y -> Forall2 S x y.
Proof.
  intros H F. revert x y H. induction F as [|a b l g Hab F IH]; intros x y H F1 F2; inversion F1; inversion F2; subst; constructor.
  - eapply H; [left; reflexivity|left; reflexivity|eassumption..].
  - apply IH; [|assumption|assumption]. intros a' b' c' d' Hin Hin'. apply H; right; assumption.
Qed.
Lemma kept_type n : row_type (Some (kept_nature n)) = row_type n.
Proof.
  destruct n as [s|]; [|reflexivity]. unfold row_type, kept_nature. destruct (String.eqb s "header") eqn:E1; [reflexivity|].
  destruct (String.eqb s "footer") eqn:E2; reflexivity.
Qed.

Lemma list_content (c : cell) ns : c_content c = CList ns -> ~ shown_empty c -> forall l, title_cell c l -> flat_map elem_pieces l = content_pieces (c_content c).
Proof.
  intros Ec He l [H _]. rewrite Ec in H. destruct H as [H|(p & ps & -> & ->)]; [contradiction|]. rewrite Ec. unfold elem_pieces. cbn [flat_map x_text x_children otext_pieces content_pieces map app]. rewrite !app_nil_r.
  f_equal. rewrite flat_map_concat_map, flat_map_concat_map, map_map. reflexivity.
Qed.
Lemma text_first s ps : s <> "" -> content_pieces (CText s) = content_pieces (CList (map CNode ps)) -> False.
Proof.
  intros Hs H. destruct s as [|a s]; [apply Hs; reflexivity|]. cbn [content_pieces text_pieces] in H. destruct ps as [|p ps]; cbn in H; discriminate H.
Qed.
Lemma part_same (blank : list piece -> Prop) c' c l' l : content_pieces (c_content c') = content_pieces (c_content c) -> (shown_empty c' \/ exists ns, c_content c' = CList ns) ->
  (forall n, c_content c <> CNode n) ->
  (shown_empty c' -> content_pieces (c_content c') = []) -> (shown_empty c -> blank (content_pieces (c_content c))) ->
  title_cell c' l' -> title_cell c l -> same_part blank l' l.
Proof.
  intros Hp HL Hn He Hk T1 T2. exists (content_pieces (c_content c)). split.
  - destruct (empty_dec c') as [Hc'|Hc']; [left; split; [apply T1, Hc'|rewrite <- Hp; apply He, Hc']|right; rewrite <- Hp; destruct HL as [HL|(ns & Ec')]; [contradiction|exact (list_content c' ns Ec' Hc' l' T1)]].
  - destruct (empty_dec c) as [Hc|Hc]; [right; split; [apply T2, Hc|apply Hk, Hc]|left; right].
    destruct (c_content c) as [|s|z|g|n|s] eqn:Ec.
    + exfalso. apply Hc. right. left. exact Ec.
    + exfalso. assert (Hs : s <> "") by (intros ->; apply Hc; right; right; exact Ec).
      destruct (empty_dec c') as [Hc'|Hc'].
      * rewrite (He Hc') in Hp. destruct s as [|a s]; [apply Hs; reflexivity|discriminate Hp].
      * destruct HL as [HL|(ns & Ec')]; [contradiction|]. destruct T1 as [T1 _]. rewrite Ec' in T1. destruct T1 as [T1|(p & ps & _ & ->)]; [contradiction|]. rewrite Ec' in Hp. exact (text_first s (p :: ps) Hs (eq_sym Hp)).
    + exfalso. destruct T2 as [T2 _]. rewrite Ec in T2. exact (Hc T2).
    + rewrite <- Ec. exact (list_content c g Ec Hc l T2).
    + exfalso. exact (Hn n eq_refl).
    + exfalso. destruct T2 as [T2 _]. rewrite Ec in T2. exact (Hc T2).
Qed.

(** ** A table written in CALS and read again *)

Lemma through_cals o p t n m e t' : well_read t n m -> In "body" (co_sorting o) -> co_ns o = pc_ns p -> no_brace (pc_ns p) -> In (pc_unit p) unit_names ->
  (forall q, exists c, In c (list_ascii_of_string (co_fmt o q)) /\ digit c) ->
  rows_grouped (co_sorting o) t -> plain_contents (co_ns o) (table_iter t) ->
  generate_table_tree o t = Ok e -> parse_table p e = Ok t' ->
  well_read t' n m /\ (exists l, Permutation (table_iter t') l /\ Forall2 (fun c' c => same_cell t c' c /\ cell_styles_kept (c_styles c') (c_styles c)) l (table_iter t)) /\
  (forall r v v', 1 <= r <= m -> reads Rows r t v -> reads Rows r t' v' -> v_nature v' = Some (kept_nature (v_nature v))) /\
  (forall c, In c (table_iter t') -> shown_empty c -> content_pieces (c_content c) = []) /\
  (forall c, In c (table_iter t') -> shown_empty c \/ exists ns, c_content c = CList ns).
Proof.
  intros [HR HO HT HC HW] HB Ens Hb Hu Hf HG HP HE Ep.
  destruct (round_trip o p t n m e) as (t1 & Et & (lk & Pk & Fk) & HC' & HK & _); try assumption.
  assert (t1 = t') by congruence. subst t1. clear Et.
  assert (Hreg : regular (co_ns o) e).
  { destruct (generate_built o t e HR HB HE) as (cols & rows & cs & rs & Ec & Er & HTW & _).
    assert (En : Z.of_nat (List.length cols) = n) by (destruct HC as (vs & Ev & ->); unfold table_views in Ec; congruence).
    rewrite En in HTW. set (D := built o (table_bounding_box t) cs rs) in *.
    assert (HD : forall c x, D c x -> describes_cell (co_ns o) c x) by (intros c x; apply built_describes).
    apply (table_regular (co_ns o) D HD (table_iter t) n (sections_of o rows) e HTW HP); [destruct HT; lia|].
    intros s v c Hs Hv Hc. apply (owned_members t rows c HR Er). apply in_flat_map. exists v. split; [|exact Hc].
    rewrite <- (sections_stay o t rows HR HB Er HG). apply in_concat. exists (snd s). split; [apply in_map, Hs|exact Hv]. }
  rewrite Ens in Hreg. destruct (C55_layout p e t' Hb Hreg Ep) as (l & g & HL & HPi & HCl & _).
  assert (Hsame : Forall2 (fun c' c => same_cell t c' c /\ cell_styles_kept (c_styles c') (c_styles c)) lk (table_iter t)) by (clear - Fk; induction Fk as [|a b l g H F IH]; constructor; [split; apply H|exact IH]).
  assert (El : l_cols l = n) by (exact (view_count_fun _ _ _ _ HCl HC')).
  assert (HTg : tiles (map snd g) n m).
  { assert (B1 : map c_box lk = map c_box (table_iter t)) by (refine (same_boxes _ _ _ Hsame _); intros a b H; apply H).
    destruct HPi as (lp & Pp & Fp).
    assert (B2 : map c_box lp = map c_box (map snd g)).
    { clear - Fp. induction Fp as [|c s lp g H F IH]; [reflexivity|]. cbn [map]. rewrite IH. f_equal. apply H. }
    assert (PB : Permutation (map c_box (map snd g)) (map c_box (table_iter t))).
    { rewrite <- B2, <- B1. eapply perm_trans; [apply Permutation_map, Pp|apply Permutation_map, Pk]. }
    apply (tiles_boxes (table_iter t)); [| |exact HT].
    - intros b. split; intros H; [apply (Permutation_in _ (Permutation_sym PB)), H|apply (Permutation_in _ PB), H].
    - apply (no_overlap_boxes lp); [exact B2|]. apply (no_overlap_shuffle (table_iter t') _ (Permutation_sym Pp)).
      apply (no_overlap_shuffle lk _ (Permutation_sym Pk)). apply (no_overlap_boxes (table_iter t)); [symmetry; exact B1|apply HT]. }
  rewrite <- El in HTg. destruct (cals_well_read p e t' l g m Hb Hreg HL HTg Ep) as [HWR _]. rewrite El in HWR.
  split; [exact HWR|]. split; [exists lk; split; assumption|]. split; [exact HK|].
  split; [intros c Hin; exact (pictures_empty _ _ _ c HPi (laid_out_read _ _ _ _ _ HL) Hin)|].
  intros c Hin. destruct HPi as (lp & Pp & Fp). apply (Permutation_in _ (Permutation_sym Pp)) in Hin. destruct (Forall2_in_both _ _ _ Fp) as [Fl _]. destruct (Fl c Hin) as (s & Hs & (Hc & _)).
  pose proof (laid_out_read _ _ _ _ _ HL) as HG0. rewrite Forall_forall in HG0. specialize (HG0 s Hs). unfold spot_read in HG0.
  destruct (fst s) as [x|]; [right; eexists; rewrite Hc, HG0; reflexivity|left; right; left; rewrite Hc; exact HG0].
Qed.

(** A table built directly in Formex, or built in CALS, read again and built in Formex: the rows are of the same
    types, with the same cells at the same places and with the same contents, except that a cell which is written
    as empty directly has the content it has in the table.  If the titles are looked for, a title is found in both
    cases or in none, with the same content unless this is a bare element (then its children would be shown directly).  The other options of the two Formex builders are
    free. *)
Theorem C94_through_cals : forall (blank : list piece -> Prop) o p o2 o3 k2 k3 t n m e t' e2 e3,
    well_read t n m -> In "body" (co_sorting o) -> co_ns o = pc_ns p -> no_brace (pc_ns p) -> In (pc_unit p) unit_names ->
    (forall q, exists c, In c (list_ascii_of_string (co_fmt o q)) /\ digit c) ->
    rows_grouped (co_sorting o) t -> plain_contents (co_ns o) (table_iter t) ->
    (forall c, In c (table_iter t) -> shown_empty c -> blank (content_pieces (c_content c))) ->
    fo_titles o2 = fo_titles o3 ->
    generate_table_tree o t = Ok e -> parse_table p e = Ok t' -> generate_tbl o2 k2 t' = Ok e2 -> generate_tbl o3 k3 t = Ok e3 ->
    Z.of_nat (List.length (tbl_titles e3) + List.length (tbl_rows e3)) = m /\ List.length (tbl_titles e2) = List.length (tbl_titles e3) /\
    Forall2 (same_frow blank) (tbl_rows e2) (tbl_rows e3) /\
    ((forall c n, In c (table_iter t) -> c_content c <> CNode n) -> Forall2 (same_title blank) (tbl_titles e2) (tbl_titles e3)).
Proof.
  intros blank o p o2 o3 k2 k3 t n m e t' e2 e3 HWR HB Ens Hb Hu Hf HG HP HBl HTi HE Ep E2 E3.
  destruct (through_cals o p t n m e t' HWR HB Ens Hb Hu Hf HG HP HE Ep) as (HWR' & (lk & Pk & Fk) & HK & HEm & HLi).
  destruct HWR as [HR HO HT HC HW], HWR' as [HR' HO' HT' HC' HW'].
  destruct (C48_tree _ _ _ _ HR' E2) as (cols2 & rows2 & _ & Er2 & Hr2 & HD2).
  destruct (C48_tree _ _ _ _ HR E3) as (cols3 & rows3 & _ & Er3 & Hr3 & HD3).
  apply tbl_rows_spec in HD2 as (body2 & HD2 & HX2). apply tbl_rows_spec in HD3 as (body3 & HD3 & HX3).
  assert (L2 : Z.of_nat (List.length rows2) = m) by (destruct HW' as (vs & Ev & ->); unfold table_views in Er2; congruence).
  assert (L3 : Z.of_nat (List.length rows3) = m) by (destruct HW as (vs & Ev & ->); unfold table_views in Er3; congruence).
  assert (HTT : has_title t' <-> has_title t).
  { rewrite (title_cell_at t n m HT), (title_cell_at t' n m HT'). destruct (Forall2_in_both _ _ _ Fk) as [Fl Fr]. split.
    - intros (c' & Hin & H1 & H2 & H3). apply (Permutation_in _ Pk) in Hin. destruct (Fl c' Hin) as (c & Hc & (K1 & _) & (K2 & _)). exists c. rewrite <- K1, <- K2. auto.
    - intros (c & Hin & H1 & H2 & H3). destruct (Fr c Hin) as (c' & Hc' & (K1 & _) & (K2 & _)). exists c'. rewrite K1, K2. split; [apply (Permutation_in _ (Permutation_sym Pk)), Hc'|]. auto. }
  set (K := fun v' v => exists r, 1 <= r <= m /\ reads Rows r t' v' /\ reads Rows r t v).
  assert (HKK : Forall2 K rows2 rows3).
  { assert (X : forall i l3 l2, (forall j v, nth_error l2 j = Some v -> reads Rows (Z.of_nat (i + j) + 1) t' v) ->
        (forall j v, nth_error l3 j = Some v -> reads Rows (Z.of_nat (i + j) + 1) t v) ->
        List.length l2 = List.length l3 -> Z.of_nat (i + List.length l3) <= m -> Forall2 K l2 l3).
    { clear. intros i l3. revert i. induction l3 as [|v l3 IH]; intros i l2 H2 H3 El Hm; destruct l2 as [|v2 l2]; try discriminate El; constructor.
      - exists (Z.of_nat i + 1). cbn [List.length] in Hm. split; [lia|]. split; [specialize (H2 0%nat v2 eq_refl)|specialize (H3 0%nat v eq_refl)]; rewrite Nat.add_0_r in *; assumption.
      - apply (IH (S i)); [| |injection El as El; exact El|cbn [List.length] in Hm; lia].
        + intros j w Hj. replace (S i + j)%nat with (i + S j)%nat by lia. apply H2. exact Hj.
        + intros j w Hj. replace (S i + j)%nat with (i + S j)%nat by lia. apply H3. exact Hj. }
    apply (X 0%nat); [exact Hr2|exact Hr3|lia|cbn; lia]. }
  pose proof (Forall2_len _ _ _ HD3) as L4.
  set (KC := fun c' c => same_cell t c' c /\ cell_styles_kept (c_styles c') (c_styles c)) in *.
  assert (HOwn : forall v' v, K v' v -> Forall2 (fun c' c => KC c' c /\ In c' (table_iter t') /\ In c (table_iter t)) (v_owned v') (v_owned v)).
  { intros v' v (r & Hrm & Hv' & Hv).
    destruct (view_membership Rows r t' v' HR' ltac:(lia) Hv') as (_ & M' & _). destruct (view_membership Rows r t v HR ltac:(lia) Hv) as (_ & M & _).
    destruct (Forall2_in_both _ _ _ Fk) as [Fl Fr].
    apply sorted_places; [intros a b H; apply H|exact (HO' r v' ltac:(lia) Hv')|exact (HO r v ltac:(lia) Hv)| |].
    + intros a Ha. apply M' in Ha as [Ha Hs]. pose proof Ha as Ha0. apply (Permutation_in _ Pk) in Ha. destruct (Fl a Ha) as (b & Hb' & Kab). exists b. split; [|auto].
      apply M. split; [exact Hb'|]. cbn [starts_at] in *. rewrite <- (proj1 (proj1 Kab)). exact Hs.
    + intros b Hb'. apply M in Hb' as [Hb' Hs]. destruct (Fr b Hb') as (a & Ha & Kab). exists a. apply (Permutation_in _ (Permutation_sym Pk)) in Ha. split; [|auto].
      apply M'. split; [exact Ha|]. cbn [starts_at] in *. rewrite (proj1 (proj1 Kab)). exact Hs. }
  assert (HB2 : Z.of_nat (List.length (tbl_titles e3) + List.length (tbl_rows e3)) = m /\ List.length (tbl_titles e2) = List.length (tbl_titles e3) /\ Forall2 K body2 body3 /\
    ((forall c n, In c (table_iter t) -> c_content c <> CNode n) -> Forall2 (same_title blank) (tbl_titles e2) (tbl_titles e3))).
  { destruct HX2 as [(A1 & A2 & f2 & x2 & A3 & A4 & A5)|(A1 & A2 & A3)], HX3 as [(B1 & B2 & f3 & x3 & B3 & B4 & B5)|(B1 & B2 & B3)].
    - rewrite A3, B3 in HKK. rewrite B3 in L3. cbn [List.length] in L3. rewrite A4, B4. cbn [List.length]. split; [rewrite <- L4; lia|]. split; [reflexivity|].
      inversion HKK as [|? ? ? ? HKf HKr]; subst. split; [assumption|]. intros HNo. constructor; [|constructor].
      destruct A5 as (xs & -> & A5), B5 as (ys & -> & B5). split; [reflexivity|]. split; [reflexivity|]. exists xs, ys. split; [reflexivity|]. split; [reflexivity|].
      refine (Forall2_join _ title_cell title_cell (same_part blank) _ _ _ _ _ (HOwn _ _ HKf) A5 B5).
      intros c' c l' l _ _ (((_ & K2 & _) & _) & I1 & I2). apply part_same; [exact K2|exact (HLi c' I1)|intros n0; exact (HNo c n0 I2)|exact (HEm c' I1)|exact (HBl c I2)].
    - exfalso. apply B1. rewrite <- HTi. tauto.
    - exfalso. apply A1. rewrite HTi. tauto.
    - rewrite A3, B3, A2, B2. rewrite B2 in L4. cbn [List.length]. split; [rewrite <- L4; exact L3|]. split; [reflexivity|]. split; [exact HKK|]. intros _. constructor. }
  destruct HB2 as (G1 & G2 & HB2 & HTt). split; [exact G1|]. split; [exact G2|]. split; [|exact HTt].
  refine (Forall2_join K frow_of frow_of (same_frow blank) body2 body3 _ _ _ HB2 HD2 HD3).
  intros v' v x y _ _ HKv (X1 & X2 & X3) (Y1 & Y2 & Y3). split; [exact X1|]. split; [exact Y1|]. pose proof (HOwn _ _ HKv) as Fo. destruct HKv as (r & Hrm & Hv' & Hv).
  split; [rewrite X2, Y2, (HK r v v' Hrm Hv Hv'); apply kept_type|].
  refine (Forall2_join _ describes_fcell describes_fcell (same_fcell blank) (v_owned v') (v_owned v) _ _ _ Fo X3 Y3).
  intros c' c x' y' _ _ (((K1 & K2 & _) & _) & I1 & I2) D1 D2. apply (fcell_same blank c' c); try assumption; [apply HEm, I1|apply HBl, I2].
Qed.

(** ** Word tables *)

(** A cell of a Word table which is written as empty shows nothing. *)
Lemma word_blank ox sect tbl cols trs rows t c : S_Ooxml.word_table tbl cols trs -> Forall2 S_Ooxml.row_reads trs rows -> S_Ooxml.regular rows ->
  ox_parse_table ox sect tbl = Ok t -> In c (table_iter t) -> shown_empty c -> shows_nothing (content_pieces (c_content c)).
Proof.
  intros HW HF HR Et Hin He. destruct He as [He|[He|He]]; [|rewrite He; intros q []|rewrite He; intros q []].
  assert (HD : S_Ooxml.displayed (Z.of_nat (List.length cols)) rows (c_content c) (c_nature c) (c_box c)).
  { apply (T_Ooxml.C49_layout _ _ _ _ _ _ _ HW HF HR Et). exists (c_styles c). destruct c; exact Hin. }
  destruct c as [ct st na b]. cbn [c_content c_nature c_box c_styles] in *. destruct HD as [r row s e l Hrow Hs Hk Hgo (nodes & Hsel & ->)|r row x _ _]; [|intros q []].
  apply (T_OoxmlCell.C56_cells _ _ _ _ _ _ _ HW HF HR Et r row s _ Hrow Hs Hk Hin eq_refl "x-cell-empty") in He; [|cbn; tauto].
  destruct He as [[X _]|[[X _]|[[X _]|[(_ & Ht & Hp & _)|(bo & names & tt0 & _ & X & _)]]]]; try discriminate X; [|exfalso; cbn in X; intuition discriminate].
  intros q Hq. cbn [content_pieces] in Hq. apply in_flat_map in Hq as (k & Hk' & Hq). apply in_map_iff in Hk' as (n & <- & Hn).
  apply (P_Grid.selects_In _ _ _ n Hsel) in Hn as [Hn1 Hn2].
  cbn [content_pieces node_pieces] in Hq. unfold node_pieces in Hq.
  replace (x_tail (x_set_tail n None)) with (@None string) in Hq by (destruct n; reflexivity). destruct Hq as [<-|[]].
  replace (x_set_tail (x_set_tail n None) None) with (x_set_tail n None) by (destruct n; reflexivity).
  exists (x_set_tail n None). split; [reflexivity|]. split; [exact (Ht n Hn1 Hn2)|]. intros d Hd. apply Hp.
  apply (S_OoxmlStyle.below_deep _ n); [exact Hn1|]. clear - Hd.
  inversion Hd as [m Hd' E|c0 m Hc Hd' E]; subst; [apply S_OoxmlStyle.below_child|apply (S_OoxmlStyle.below_deep _ c0); [|exact Hd']]; destruct n; assumption.
Qed.

(** A Word table converted to CALS and then to Formex has the rows and the cells of the one converted to Formex.

    What is missing: the hypotheses of C72_ooxml2cals_partial; the attributes other than the place and the type of
    the row. *)
Theorem C94_word_partial : forall kw1 kw2 kw3 ox sect k2 k3 tbl cols trs rows e1 e2 e3, let ns := cals_space kw1 in
    S_Ooxml.word_table tbl cols trs -> Forall2 S_Ooxml.row_reads trs rows -> S_Ooxml.regular rows -> S_ConvertWord.word_rectangle cols rows ->
    (forall ct na b n, S_Ooxml.displayed (Z.of_nat (List.length cols)) rows ct na b -> In (Node n) (content_pieces ct) -> foreign ns n) ->
    natures_grouped (order_of kw1) (S_ConvertWord.word_nature rows) (Z.of_nat (List.length rows)) ->
    cals_space kw2 = ns -> no_brace ns -> In (unit_of kw2) unit_names -> (forall q, exists c, In c (list_ascii_of_string (kw_fmt kw1 q)) /\ digit c) ->
    kw_titles kw2 = kw_titles kw3 ->
    ooxml2cals kw1 ox sect tbl = Ok e1 -> cals2formex kw2 k2 e1 = Ok e2 -> ooxml2formex kw3 ox sect k3 tbl = Ok e3 ->
    (List.length (tbl_titles e3) + List.length (tbl_rows e3))%nat = List.length rows /\ List.length (tbl_titles e2) = List.length (tbl_titles e3) /\
    Forall2 (same_title shows_nothing) (tbl_titles e2) (tbl_titles e3) /\ Forall2 (same_frow shows_nothing) (tbl_rows e2) (tbl_rows e3).
Proof.
  intros kw1 kw2 kw3 ox sect k2 k3 tbl cols trs rows e1 e2 e3 ns HW HF HR (Hc & Hr & Hwid) HP HG Hns Hb Hu Hf HTi H1 H2 H3.
  unfold ooxml2cals in H1. bind H1 as o Eo. bind H1 as t Et. unfold cals2formex in H2. bind H2 as t' Et'. unfold ooxml2formex in H3. rewrite Et in H3. cbn [rbind] in H3.
  pose proof (word_well_read _ _ _ _ _ _ _ HW HF HR Hwid Hc Hr Et) as HWR.
  pose proof (word_natures _ _ _ _ _ _ _ HW HF HR Et) as HN. pose proof (T_Ooxml.C49_layout _ _ _ _ _ _ _ HW HF HR Et) as HL.
  destruct (builder_of kw1 o Eo) as [Hcn Hs]. rewrite cals_builder_space in Hcn. fold ns in Hcn. destruct (cals_builder_unit kw1 o Eo) as [_ Ef]. rewrite <- Ef in Hf.
  assert (HGt : rows_grouped (co_sorting o) t).
  { intros n q1 q2 u v j k Hn Hp Hq Hu' Hv Hj Hk. rewrite (view_count_fun _ _ _ _ Hn (wr_rows _ _ _ HWR)) in Hq.
    rewrite (HN q1 u ltac:(lia) Hu') in Hj. rewrite (HN q2 v ltac:(lia) Hv) in Hk. rewrite (sorting_order _ _ Hs) in Hj, Hk. exact (HG q1 q2 j k Hp Hq Hj Hk). }
  assert (HPt : plain_contents (co_ns o) (table_iter t)).
  { rewrite Hcn. intros c n Hin Hn. apply (HP (c_content c) (c_nature c) (c_box c)); [|exact Hn]. apply HL. exists (c_styles c). destruct c; exact Hin. }
  destruct (C94_through_cals shows_nothing o (cals_parser kw2) (formex_builder kw2) (formex_builder kw3) k2 k3 t (Z.of_nat (List.length cols)) (Z.of_nat (List.length rows)) e1 t' e2 e3) as (L & LT & F & FT); try assumption.
  - apply (sorting_ok _ _ Hs). cbn; tauto.
  - rewrite cals_parser_space, Hns. exact Hcn.
  - rewrite cals_parser_space, Hns. exact Hb.
  - intros c Hin He. exact (word_blank _ _ _ _ _ _ _ c HW HF HR Et Hin He).
  - split; [lia|]. split; [exact LT|]. split; [|exact F]. apply FT. intros c n0 Hin Hcn0.
    assert (HD : S_Ooxml.displayed (Z.of_nat (List.length cols)) rows (c_content c) (c_nature c) (c_box c)) by (apply HL; exists (c_styles c); destruct c; exact Hin).
    rewrite Hcn0 in HD. inversion HD.
Qed.

(** The contents are not the same when a cell shows nothing for the Word parser: the tick (w:sym) of a form is in
    the Formex table which is converted through CALS and not in the one converted directly. *)
Theorem C94_equal_refuted : exists kw ox tbl cols trs rows e1 e2 e3 r2 r3 x y d,
    S_Ooxml.word_table tbl cols trs /\ Forall2 S_Ooxml.row_reads trs rows /\ S_Ooxml.regular rows /\ S_ConvertWord.word_rectangle cols rows /\ kw_titles kw = false /\
    ooxml2cals kw ox None tbl = Ok e1 /\ cals2formex kw 1 e1 = Ok e2 /\ ooxml2formex kw ox None 1 tbl = Ok e3 /\
    nth_error (tbl_rows e2) 0 = Some r2 /\ nth_error (tbl_rows e3) 0 = Some r3 /\ nth_error (x_children r2) 0 = Some x /\ nth_error (x_children r3) 0 = Some y /\
    marked_empty y /\ S_OoxmlStyle.below d x /\ S_Ooxml.is_word "sym" d.
Proof.
  exists kw_conv, (T_Ooxml.opts None), tick_tbl, (repeat (T_Ooxml.w "gridCol" [("w", "400")] []) 3), tick_trs, tick_rows. do 7 eexists. exists (T_Ooxml.w "sym" [("font", "Wingdings"); ("char", "F0FC")] []).
  split; [exact tick_word|]. split; [exact tick_reads|]. split; [exact tick_regular|].
  split; [split; [discriminate|]; split; [discriminate|]; repeat (apply Forall_cons; [vm_compute; discriminate|]); apply Forall_nil|]. split; [reflexivity|].
  split; [vm_compute; reflexivity|]. split; [vm_compute; reflexivity|]. split; [vm_compute; reflexivity|]. split; [vm_compute; reflexivity|]. split; [vm_compute; reflexivity|].
  split; [vm_compute; reflexivity|]. split; [vm_compute; reflexivity|]. split; [split; reflexivity|].
  split; [eapply S_OoxmlStyle.below_deep; [left; reflexivity|]; eapply S_OoxmlStyle.below_deep; [left; reflexivity|]; apply S_OoxmlStyle.below_child; left; reflexivity|reflexivity].
Qed.

(** The Word table of C49: the hypotheses hold *)
Example C94_word_ex : exists e1 e2 e3, let ox := T_Ooxml.opts (Some T_Ooxml.ex_sheet) in
    S_ConvertWord.word_rectangle ex_cols T_Ooxml.ex_rows /\
    (forall ct na b n, S_Ooxml.displayed (Z.of_nat (List.length ex_cols)) T_Ooxml.ex_rows ct na b -> In (Node n) (content_pieces ct) -> foreign None n) /\
    natures_grouped (order_of kw0) (S_ConvertWord.word_nature T_Ooxml.ex_rows) 3 /\ cals_space kw_conv = cals_space kw0 /\ kw_titles kw_conv = false /\
    ooxml2cals kw0 ox None T_Ooxml.ex_tbl = Ok e1 /\ cals2formex kw_conv 1 e1 = Ok e2 /\ ooxml2formex kw_conv ox None 1 T_Ooxml.ex_tbl = Ok e3 /\
    map (fun row => (x_get row "TYPE", map (fun x => (x_get x "COL", x_get x "COLSPAN", elem_pieces x)) (x_children row))) (tbl_rows e2) =
    [(Some "HEADER", [(Some "1", Some "2", [Node (T_Ooxml.text_p "a")]); (Some "3", None, [Node (T_Ooxml.text_p "b")])]);
     (None, [(Some "1", None, [Node (T_Ooxml.text_p "c")]); (Some "2", None, [Node (T_Ooxml.text_p "d")])]);
     (None, [(Some "1", None, [Node (T_Ooxml.text_p "e")]); (Some "2", None, [Node (XElem "IE" [] None [] None)]); (Some "3", None, [Node (XElem "IE" [] None [] None)])])] /\
    tbl_rows e2 = tbl_rows e3.
Proof.
  do 3 eexists. cbn zeta. split; [split; [discriminate|]; split; [discriminate|]; repeat (apply Forall_cons; [vm_compute; discriminate|]); apply Forall_nil|].
  split; [apply ex_nodes; intros s; constructor; [word_names|]; intros c [<-|[]]; constructor; [word_names|intros ? []]|].
  split; [apply grouped_check; [cbn; tauto|vm_compute; reflexivity]|].
  split; [reflexivity|]. split; [reflexivity|]. split; [vm_compute; reflexivity|]. split; [vm_compute; reflexivity|]. split; [vm_compute; reflexivity|]. split; vm_compute; reflexivity.
Qed.

(** A table whose first row is one centred cell: with the detection of titles, both paths find the title. *)
Definition kw_titled : kwargs := MkKwargs None None None false [] true true None false (fun _ => "0").
Definition titled_tbl : xnode :=
  T_Ooxml.w "tbl" [] [T_Ooxml.grid 3;
    T_Ooxml.tr [] [T_Ooxml.w "tc" [] [T_Ooxml.w "tcPr" [] [T_Ooxml.span "3"];
      T_Ooxml.w "p" [] [T_Ooxml.w "pPr" [] [T_Ooxml.w "jc" [("val", "center")] []]; T_Ooxml.w "r" [] [XElem (S_Ooxml.word "t") [] (Some "Prices") [] None]]]];
    T_Ooxml.tr [] [T_Ooxml.tc [] "a"; T_Ooxml.tc [] "b"; T_Ooxml.tc [] "c"]].
Example C94_titles_ex : exists e1 e2 e3, ooxml2cals kw0 (T_Ooxml.opts None) None titled_tbl = Ok e1 /\
    cals2formex kw_titled 1 e1 = Ok e2 /\ ooxml2formex kw_titled (T_Ooxml.opts None) None 1 titled_tbl = Ok e3 /\
    List.length (tbl_titles e2) = 1%nat /\ List.length (tbl_titles e3) = 1%nat /\ List.length (tbl_rows e3) = 1%nat /\ tbl_rows e2 = tbl_rows e3 /\ tbl_titles e2 = tbl_titles e3.
Proof.
  do 3 eexists. split; [vm_compute; reflexivity|]. split; [vm_compute; reflexivity|]. split; [vm_compute; reflexivity|].
  split; [reflexivity|]. split; [reflexivity|]. split; [reflexivity|]. split; reflexivity.
Qed.
Print Assumptions C94_through_cals.
Print Assumptions C94_word_partial.
Print Assumptions C94_equal_refuted.
