(** * Theorems about Formex tables which are read and written again (C97) *)
From Coq Require Import Permutation.
From Verif Require Import Base M_Geometry M_Xml M_Cell M_Grid M_Table M_Str M_Units M_Builder M_Cals M_CalsParser M_Formex M_FormexParser M_FormexRead M_Ooxml M_Convert.
From Verif Require Import S_Geometry S_Grid S_Table S_Units S_Builder S_Cals S_Int S_CalsParser S_RoundTrip S_Formex S_Attrs S_FormexRead S_FormexTrip S_Axes S_Convert S_Through.
From Verif Require S_Ooxml S_ConvertWord T_Ooxml.
From Verif Require Import P_Table P_TableFacts P_TableMore P_Cals P_Formex P_RoundTrip P_RoundTripMain P_FormexTripRead P_FormexTripMain P_Parsed.
From Verif Require Import T_Table T_Cals T_Formex T_CalsParser T_RoundTrip T_FormexRead T_FormexTrip T_Convert T_ConvertBack T_Options T_Through T_Again.
Open Scope string_scope.
Open Scope list_scope.
Open Scope Z_scope.

(** ** The parser marks no cell as empty by a style *)

Definition unmarked (s : tile) : Prop := fst s "x-cell-empty" = None.
Lemma covered_unmarked bb na g g' : covered bb na g g' -> Forall unmarked g -> Forall unmarked g'.
Proof.
  intros (ks & _ & ->) H. apply Forall_app. split; [|exact H]. rewrite Forall_forall. intros s Hs. apply in_map_iff in Hs as (k & <- & _). reflexivity.
Qed.
Lemma settles_unmarked ns watch e g g' : settles ns watch e g g' -> Forall unmarked g -> Forall unmarked g'.
Proof. intros [e0 n bb g1 _ _ _ _ _ H|_] HF; [exact (covered_unmarked _ _ _ _ H HF)|exact HF]. Qed.
Lemma seated_unmarked ns watch r qs n g n' g' : seated ns watch r qs n g n' g' -> Forall (fun q => q_look q "x-cell-empty" = None) qs -> Forall unmarked g -> Forall unmarked g'.
Proof.
  induction 1 as [|q qs n g i g1 n2 g2 _ _ _ _ HS _ IH]; intros HQ HF; [exact HF|]. inversion HQ; subst. apply IH; [assumption|]. apply (settles_unmarked _ _ _ _ _ HS).
  constructor; [assumption|exact HF].
Qed.
Lemma asks_unmarked ns cns e qs : asks ns cns e qs -> Forall (fun q => q_look q "x-cell-empty" = None) qs.
Proof.
  intros [qs' _ F|a b _ _ _].
  - induction F as [|x q l qs'' [w h _] F IH]; constructor; [reflexivity|exact IH].
  - apply Forall_app. split; [|constructor; [reflexivity|constructor]]. rewrite Forall_forall. intros q Hq. apply repeat_spec in Hq. subst q. reflexivity.
Qed.
Lemma flays_unmarked ns cns embed watch its l l' : flays ns cns embed watch its l l' -> Forall unmarked (f_tiles l) -> Forall unmarked (f_tiles l').
Proof.
  induction 1 as [|c its r k n g cs m l' _ _ IH|blks e its r k n g cs qs n1 g1 g2 l' HA HS _ HC _ IH|e its r k n g cs bb n1 g1 l' _ HS _ IH]; intros H; cbn [f_tiles] in *; [exact H|apply IH, H| |].
  - apply IH. apply (covered_unmarked _ _ _ _ HC). exact (seated_unmarked _ _ _ _ _ _ _ _ HS (asks_unmarked _ _ _ _ HA) H).
  - apply IH. refine (seated_unmarked _ _ _ _ _ _ _ _ HS _ H). constructor; [reflexivity|constructor].
Qed.
Lemma flaid_unmarked ns cns embed watch b before e l g : flaid_out ns cns embed watch b before e l g -> Forall unmarked g.
Proof. intros (HL & bb & _ & HC). apply (covered_unmarked _ _ _ _ HC). apply (flays_unmarked _ _ _ _ _ _ _ HL). constructor. Qed.
Lemma mosaic_empty cells g c : mosaic cells g -> Forall unmarked g -> In c cells -> shown_empty c -> content_pieces (c_content c) = [].
Proof.
  intros (l & P & F) HG Hin [HE|[HE|HE]]; [|rewrite HE; reflexivity|rewrite HE; reflexivity].
  apply (Permutation_in _ (Permutation_sym P)) in Hin. destruct (Forall2_in_both _ _ _ F) as [Fl _]. destruct (Fl c Hin) as (s & Hs & _ & _ & _ & S4).
  rewrite Forall_forall in HG. specialize (HG s Hs). unfold unmarked in HG. rewrite S4, HG in HE. discriminate HE.
Qed.

(** ** The tree which is read *)

Lemma tbl_proper o cns k t n m e corpus : treachable t -> (fo_use_cals o = true -> co_ns (fo_cals o) = cns) -> (fo_titles o = true -> ~ has_title t) ->
  tiles (table_iter t) n m -> view_count Cols t n -> plain_nodes cns (table_iter t) ->
  generate_tbl o k t = Ok e -> x_children e = [corpus] -> proper_corpus None cns corpus.
Proof.
  intros HR Ens Hti HT HCn HP HE Ech. destruct (tbl_built o k t e HR Hti HE) as (rows & n' & corpus' & cs & rs & Er & Hn' & Ech' & HC & _).
  assert (corpus' = corpus) as -> by congruence. pose proof (view_count_fun _ _ _ _ Hn' HCn) as ->.
  destruct HC as (C1 & C2 & C3 & (specs & items & Esp & Hsp & Hit) & _).
  apply (shape_proper cns t n (fun _ _ => True) (fun _ _ c x => In c (table_iter t) -> readable_cell cns c x) (fun v row c x H => H) corpus specs items rows).
  - split; [exact C1|]. split; [exact Esp|]. destruct (fo_use_cals o); [right; rewrite <- (Ens eq_refl); exact Hsp|left; exact Hsp].
  - clear - Hit HR HT HP Ens. induction Hit as [|v its rows items (row & Hrow & Har & _) F IH]; constructor; [|exact IH]. exists row. split.
    + split; [apply Hrow|]. split; [exact I|]. destruct Hrow as (_ & _ & _ & _ & HFc & _). induction HFc as [|c x l xs Hx F' IH']; constructor; [|exact IH'].
      intros Hc. exact (fcell_readable o cns t n m HR HT HP Ens cs rs v c x Hc Hx).
    + unfold around in Har. destruct (dget (v_styles v) "x-ins"); [right|left]; exact Har.
  - intros v c Hv Hc. apply (owned_members t rows c HR Er). apply in_flat_map. exists v. auto.
Qed.

Lemma again_same c' c x y : c_box c' = c_box c -> fcontent_kept c' c -> (shown_empty c' -> content_pieces (c_content c') = []) ->
  describes_fcell c' x -> describes_fcell c y -> same_fcell (fun _ => False) x y.
Proof.
  intros Hb (K1 & K2) He (T1 & _ & P1 & E1 & N1) (T2 & _ & P2 & E2 & N2). split; [exact T1|]. split; [exact T2|]. split.
  - rewrite Hb in P1. destruct (c_box c) as [[x1 y1] [x2 y2]]. destruct P1 as (A1 & A2 & A3 & A4 & A5), P2 as (B1 & B2 & B3 & B4 & B5).
    split; [congruence|]. split; [destruct (Z_lt_le_dec x1 x2); [rewrite A2, B2 by assumption|rewrite A3, B3 by assumption]; reflexivity|].
    destruct (Z_lt_le_dec y1 y2); [rewrite A4, B4 by assumption|rewrite A5, B5 by assumption]; reflexivity.
  - destruct (empty_dec c) as [Hc|Hc].
    + exists []. split; [|left; left; split; [apply E2, Hc|reflexivity]]. left. split; [|reflexivity]. apply E1. right. right. exact (K1 Hc).
    + exists (content_pieces (c_content c)). split; [|left; right; exact (N2 Hc)].
      destruct (empty_dec c') as [Hc'|Hc']; [left; split; [apply E1, Hc'|rewrite <- (K2 Hc); apply He, Hc']|right; rewrite (N1 Hc'); exact (K2 Hc)].
Qed.

(** What is read from the tree of the writer *)
Lemma through_formex o p k t n m e corpus t' : well_read t n m -> pf_ns p = None -> (fo_use_cals o = true -> co_ns (fo_cals o) = pf_cals_ns p) ->
  (fo_titles o = true -> ~ has_title t) -> plain_nodes (pf_cals_ns p) (table_iter t) ->
  generate_tbl o k t = Ok e -> x_children e = [corpus] -> parse_formex p (Some e) 0 [] corpus = Ok t' ->
  well_read t' n m /\ (exists l, Permutation (table_iter t') l /\ Forall2 (fcell_kept (fo_use_cals o) t t' n m) l (table_iter t)) /\
  (forall r v v', 1 <= r <= m -> reads Rows r t v -> reads Rows r t' v' -> v_nature v' = Some (header_or_body (v_nature v))) /\
  (forall c', In c' (table_iter t') -> shown_empty c' -> content_pieces (c_content c') = []).
Proof.
  intros HWR Epns Ens Hti HP HE Ech Ep. destruct HWR as [HR HO HT HC HW].
  destruct (C68_round_trip_partial o p k t n m e HR Epns Ens Hti HT HC HW HO HP HE) as (corpus1 & t1 & Ech1 & Ep1 & (lk & Pk & Fk) & HC1 & HK & _).
  assert (corpus1 = corpus) as -> by congruence. assert (t1 = t') as -> by congruence. clear Ech1 Ep1.
  pose proof (tbl_proper o (pf_cals_ns p) k t n m e corpus HR Ens Hti HT HC HP HE Ech) as Hprop. rewrite <- Epns in Hprop.
  destruct (C70_formex _ _ _ _ _ _ Ep) as (HR' & _ & HO').
  destruct (C62_layout _ _ _ _ _ _ Hprop Ep) as (l1 & g1 & HL1 & HM & HC1' & _). pose proof (view_count_fun _ _ _ _ HC1' HC1) as El.
  assert (T1 : tiles (table_iter t') n m).
  { refine (tiles_alike (fcell_kept (fo_use_cals o) t t' n m) (fun c => c) lk (table_iter t') (table_iter t) _ _ (Permutation_sym Pk) Fk _ _); [intros c a HX; apply HX|rewrite map_id; exact HT]. }
  split; [|split; [exists lk; split; assumption|]]; [|split].
  - destruct HM as (cs1 & Pc1 & Fc1).
    assert (Tc : tiles cs1 n m).
    { refine (tiles_alike eq (fun c => c) (table_iter t') cs1 (table_iter t') _ _ (Permutation_sym Pc1) _ _ _); [clear; induction (table_iter t'); constructor; auto|intros; congruence|rewrite map_id; exact T1]. }
    assert (Tg : tiles (map snd g1) (f_cols l1) m).
    { rewrite El. refine (tiles_alike (fun a b => c_box a = c_box b) (fun c => c) (map snd g1) (map snd g1) cs1 _ _ (Permutation_refl _) _ _ _); [|intros c a HX; exact HX|rewrite map_id; exact Tc].
      clear - Fc1. induction Fc1 as [|c s l g HX F IH]; cbn; constructor; [symmetry; apply HX|exact IH]. }
    rewrite <- El. apply (formex_well_read _ _ _ _ _ _ _ _ _ Hprop HL1 Tg Ep).
  - intros r v v' Hr Hv Hv'. exact (proj1 (HK r v v' Hr Hv Hv')).
  - intros c' Hin. exact (mosaic_empty _ _ c' HM (flaid_unmarked _ _ _ _ _ _ _ _ _ HL1) Hin).
Qed.

(** A table is written in Formex, read and written again, perhaps with other options: the second tree has the same
    rows with the same cells.  (The finished document has no footer in CORPUS: see C57 and C69.) *)
Theorem C97_again : forall o p o' k k' t n m e corpus t' e',
    well_read t n m -> pf_ns p = None -> (fo_use_cals o = true -> co_ns (fo_cals o) = pf_cals_ns p) ->
    (fo_titles o = true -> ~ has_title t) -> fo_titles o' = false -> plain_nodes (pf_cals_ns p) (table_iter t) ->
    (forall r v, 1 <= r <= m -> reads Rows r t v -> v_nature v <> Some "footer") ->
    generate_tbl o k t = Ok e -> x_children e = [corpus] -> parse_formex p (Some e) 0 [] corpus = Ok t' -> generate_tbl o' k' t' = Ok e' ->
    Z.of_nat (List.length (tbl_rows e)) = m /\ tbl_titles e' = [] /\ Forall2 (same_frow (fun _ => False)) (tbl_rows e') (tbl_rows e).
Proof.
  intros o p o' k k' t n m e corpus t' e' HWR Epns Ens Hti Hti' HP HFo HE Ech Ep E'.
  destruct (through_formex o p k t n m e corpus t' HWR Epns Ens Hti HP HE Ech Ep) as (HWR' & (lk & Pk & Fk) & HK & HEm).
  destruct HWR as [HR HO HT HC HW], HWR' as [HR' HO' _ _ HW'].
  destruct (C48_tree _ _ _ _ HR' E') as (cols2 & rows2 & _ & Er2 & Hr2 & HD2). destruct (C48_tree _ _ _ _ HR HE) as (cols3 & rows3 & _ & Er3 & Hr3 & HD3).
  apply tbl_rows_spec in HD2 as (body2 & HD2 & HX2). apply tbl_rows_spec in HD3 as (body3 & HD3 & HX3).
  assert (L2 : Z.of_nat (List.length rows2) = m) by (destruct HW' as (vs & Ev & ->); unfold table_views in Er2; congruence).
  assert (L3 : Z.of_nat (List.length rows3) = m) by (destruct HW as (vs & Ev & ->); unfold table_views in Er3; congruence).
  destruct HX2 as [(A1 & _)|(_ & -> & A3)]; [congruence|]. destruct HX3 as [(B1 & B2 & _)|(_ & -> & B3)]; [destruct (Hti B1 B2)|].
  split; [rewrite <- L3; f_equal; symmetry; exact (Forall2_len _ _ _ HD3)|]. split; [exact A3|].
  refine (Forall2_join (paired t' t m) frow_of frow_of (same_frow _) rows2 rows3 _ _ _ (rows_paired _ _ _ _ _ Hr2 Hr3 L2 L3) HD2 HD3).
  intros v' v x y _ _ (r & Hrm & Hv' & Hv) (X1 & X2 & X3) (Y1 & Y2 & Y3). split; [exact X1|]. split; [exact Y1|]. split.
  - rewrite X2, Y2, (HK r v v' Hrm Hv Hv'). specialize (HFo r v Hrm Hv). unfold header_or_body, row_type. destruct (v_nature v) as [s|]; [|reflexivity].
    destruct (String.eqb_spec s "header") as [->|_]; [reflexivity|]. destruct (String.eqb_spec s "footer") as [->|_]; [congruence|reflexivity].
  - destruct (view_membership Rows r t' v' HR' ltac:(lia) Hv') as (_ & M' & _). destruct (view_membership Rows r t v HR ltac:(lia) Hv) as (_ & M & _).
    destruct (Forall2_in_both _ _ _ Fk) as [Fl Fr].
    refine (Forall2_join (fcell_kept (fo_use_cals o) t t' n m) describes_fcell describes_fcell (same_fcell _) (v_owned v') (v_owned v) _ _ _ _ X3 Y3).
    + intros c' c x' y' Hin Hin' (K1 & K2 & _). apply again_same; [exact K1|exact K2|]. apply HEm, M', Hin.
    + apply sorted_places; [intros a b H; apply H|exact (HO' r v' ltac:(lia) Hv')|exact (HO r v ltac:(lia) Hv)| |].
      * intros a Ha. apply M' in Ha as [Ha Hs]. apply (Permutation_in _ Pk) in Ha. destruct (Fl a Ha) as (b & Hb' & Kab). exists b. split; [|exact Kab].
        apply M. split; [exact Hb'|]. cbn [starts_at] in *. rewrite <- (proj1 Kab). exact Hs.
      * intros b Hb'. apply M in Hb' as [Hb' Hs]. destruct (Fr b Hb') as (a & Ha & Kab). exists a. split; [|exact Kab].
        apply M'. split; [apply (Permutation_in _ (Permutation_sym Pk)), Ha|]. cbn [starts_at] in *. rewrite (proj1 Kab). exact Hs.
Qed.

(** A footer is read as a body (C68), so the hypothesis about footers is needed. *)
Theorem C97_footer_refuted : exists t e corpus t' e', treachable t /\ tiles (table_iter t) 1 1 /\
    generate_tbl fplain 1 t = Ok e /\ x_children e = [corpus] /\ parse_formex of0 (Some e) 0 [] corpus = Ok t' /\ generate_tbl fplain 1 t' = Ok e' /\
    map (fun x => x_get x "TYPE") (tbl_rows e) = [Some "__GR.NOTES__"] /\ map (fun x => x_get x "TYPE") (tbl_rows e') = [None].
Proof.
  exists (one_cell (CText "x") (Some "footer")). do 4 eexists. split; [apply et_reachable|]. split; [one_tile|].
  split; [vm_compute; reflexivity|]. split; [reflexivity|]. split; [vm_compute; reflexivity|]. split; [vm_compute; reflexivity|]. split; vm_compute; reflexivity.
Qed.

(** A Word table converted to Formex, and the result read with the options [p] and written again with [o'] *)
Theorem C97_word : forall kw ox sect k tbl cols trs rows e p corpus t' o' k' e',
    S_Ooxml.word_table tbl cols trs -> Forall2 S_Ooxml.row_reads trs rows -> S_Ooxml.regular rows -> S_ConvertWord.word_rectangle cols rows ->
    (forall ct na b n, S_Ooxml.displayed (Z.of_nat (List.length cols)) rows ct na b -> In (Node n) (content_pieces ct) -> stranger None (pf_cals_ns p) n /\ x_tag n <> Some "IE") ->
    pf_ns p = None -> (kw_use_cals kw = true -> formex_cals_space kw = pf_cals_ns p) -> kw_titles kw = false -> fo_titles o' = false ->
    ooxml2formex kw ox sect k tbl = Ok e -> x_children e = [corpus] -> parse_formex p (Some e) 0 [] corpus = Ok t' -> generate_tbl o' k' t' = Ok e' ->
    List.length (tbl_rows e) = List.length rows /\ Forall2 (same_frow (fun _ => False)) (tbl_rows e') (tbl_rows e).
Proof.
  intros kw ox sect k tbl cols trs rows e p corpus t' o' k' e' HW HF HR (Hc & Hr & Hwid) HP Epns Ens Hti Hti' H1 Ech Ep E'.
  unfold ooxml2formex in H1. bind H1 as t Et.
  pose proof (word_well_read _ _ _ _ _ _ _ HW HF HR Hwid Hc Hr Et) as HWR.
  pose proof (word_natures _ _ _ _ _ _ _ HW HF HR Et) as HN. pose proof (T_Ooxml.C49_layout _ _ _ _ _ _ _ HW HF HR Et) as HL.
  destruct (C97_again (formex_builder kw) p o' k k' t (Z.of_nat (List.length cols)) (Z.of_nat (List.length rows)) e corpus t' e') as (L & _ & F); try assumption.
  - intros Hu. rewrite formex_builder_space. apply Ens, Hu.
  - intros X. cbn in X. congruence.
  - intros c n Hin Hn. apply (HP (c_content c) (c_nature c) (c_box c)); [|exact Hn]. apply HL. exists (c_styles c). destruct c; exact Hin.
  - intros r v Hrm Hv. rewrite (HN r v Hrm Hv). unfold S_ConvertWord.word_nature. destruct (nth_error rows (Z.to_nat (r - 1))) as [row|] eqn:En; [|discriminate].
    apply nth_error_In in En. destruct (proj2 (Forall2_in_both _ _ _ HF) row En) as (tr & _ & _ & [[_ X]|[_ X]]); cbn; rewrite X; discriminate.
  - split; [lia|exact F].
Qed.

(** The table of C68: the hypotheses hold, and the rows which are written again are the same but for the attributes of CALS. *)
Example C97_example : exists e corpus t' e', well_read t_ex 3 3 /\ plain_nodes (Some "urn:cals") (table_iter t_ex) /\
    (forall r v, 1 <= r <= 3 -> reads Rows r t_ex v -> v_nature v <> Some "footer") /\
    generate_tbl fcals 1 t_ex = Ok e /\ x_children e = [corpus] /\ parse_formex of_cals (Some e) 0 [] corpus = Ok t' /\ generate_tbl fplain 2 t' = Ok e' /\
    map (fun row => (x_get row "TYPE", map (fun x => (x_get x "COL", x_get x "COLSPAN", x_get x "ROWSPAN", elem_pieces x)) (x_children row))) (tbl_rows e') =
    map (fun row => (x_get row "TYPE", map (fun x => (x_get x "COL", x_get x "COLSPAN", x_get x "ROWSPAN", elem_pieces x)) (x_children row))) (tbl_rows e) /\
    map (fun row => (x_get row "TYPE", map (fun x => (x_get x "COL", x_get x "COLSPAN", x_get x "ROWSPAN")) (x_children row))) (tbl_rows e') =
    [(Some "HEADER", [(Some "1", Some "3", None)]); (None, [(Some "1", None, Some "2"); (Some "2", None, None); (Some "3", None, None)]); (None, [(Some "2", Some "2", None)])].
Proof.
  do 4 eexists. split; [destruct t_ex_counts; constructor; auto using t_ex_reachable, t_ex_ordered, t_ex_tiles|]. split; [exact t_ex_plain_nodes|]. split.
  { intros r v Hr Hv. assert (r = 1 \/ r = 2 \/ r = 3) as [->|[->| ->]] by lia; vm_compute in Hv; injection Hv as <-; discriminate. }
  split; [vm_compute; reflexivity|]. split; [reflexivity|]. split; [vm_compute; reflexivity|]. split; [vm_compute; reflexivity|]. split; vm_compute; reflexivity.
Qed.
(** The Word table of C49 *)
Example C97_word_ex : exists e corpus t' e', let ox := T_Ooxml.opts (Some T_Ooxml.ex_sheet) in
    (forall ct na b n, S_Ooxml.displayed (Z.of_nat (List.length ex_cols)) T_Ooxml.ex_rows ct na b -> In (Node n) (content_pieces ct) -> stranger None (Some CALS_NS) n /\ x_tag n <> Some "IE") /\
    formex_cals_space kw_conv = pf_cals_ns of_conv /\ kw_titles kw_conv = false /\
    ooxml2formex kw_conv ox None 1 T_Ooxml.ex_tbl = Ok e /\ x_children e = [corpus] /\ parse_formex of_conv (Some e) 0 [] corpus = Ok t' /\
    generate_tbl fplain 1 t' = Ok e' /\ List.length (tbl_rows e') = 3%nat /\ map (fun x => map elem_pieces (x_children x)) (tbl_rows e') = map (fun x => map elem_pieces (x_children x)) (tbl_rows e).
Proof.
  do 4 eexists. cbn zeta. split; [apply ex_nodes; intros s; split; [stranger_tac|discriminate]|].
  split; [reflexivity|]. split; [reflexivity|]. split; [vm_compute; reflexivity|]. split; [reflexivity|]. split; [vm_compute; reflexivity|]. split; [vm_compute; reflexivity|]. split; vm_compute; reflexivity.
Qed.
Print Assumptions C97_again.
Print Assumptions C97_footer_refuted.
Print Assumptions C97_word.
