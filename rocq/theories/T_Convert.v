(** * Theorems about the conversion of tables (C70, C71) *)
From Coq Require Import QArith.
From Verif Require Import Base M_Geometry M_Xml M_Cell M_Grid M_Table M_Str M_Units M_Builder M_Cals M_CalsParser M_Formex M_FormexParser M_FormexRead M_Ooxml M_Convert.
From Verif Require Import S_Geometry S_Grid S_Table S_Units S_Builder S_Cals S_Int S_CalsParser S_RoundTrip S_Formex S_FormexRead S_Convert.
From Verif Require S_Ooxml.
From Verif Require Import P_Table P_TableFacts P_TableMore P_Cals P_Formex P_CalsParser P_CalsTable P_Fit.
From Verif Require Import T_Table T_Cals T_Formex T_CalsParser T_FormexRead.
From Verif Require T_Ooxml.
Open Scope string_scope.
Open Scope list_scope.
Open Scope Z_scope.

(** ** C70: the tables made by the parsers *)

(** Whatever the element given to a parser, a table it returns lists each cell once in the row where
    the cell starts (and once in each row the cell covers), from left to right. *)
Theorem C70_cals : forall o e t, parse_table o e = Ok t -> treachable t /\ views_exact Rows t /\ rows_ordered t.
Proof.
  intros o e t E. destruct (cals_closed _ treachable_closed o e t E) as (_ & R). split; [exact R|].
  destruct (cals_closed _ fit_closed o e t E) as (_ & F). split; [apply fit_exact, F|apply fit_ordered, F].
Qed.
Theorem C70_formex : forall o parent blks before e t, parse_formex o parent blks before e = Ok t ->
    treachable t /\ views_exact Rows t /\ rows_ordered t.
Proof.
  intros o parent blks before e t E. destruct (formex_closed _ treachable_closed o parent blks before e t E) as (_ & R). split; [exact R|].
  destruct (formex_closed _ fit_closed o parent blks before e t E) as (_ & F). split; [apply fit_exact, F|apply fit_ordered, F].
Qed.
Theorem C70_word : forall o sect e t, ox_parse_table o sect e = Ok t -> treachable t /\ views_exact Rows t /\ rows_ordered t.
Proof.
  intros o sect e t E. destruct (word_closed _ treachable_closed o sect e t E) as (_ & R). split; [exact R|].
  destruct (word_closed _ fit_closed o sect e t E) as (_ & F). split; [apply fit_exact, F|apply fit_ordered, F].
Qed.

(** An example for each of them *)
Example C70_cals_ex : exists t v, parse_table o0 doc_full = Ok t /\ reads Rows 2 t v /\
    map c_box (v_owned v) = [MkBox (Coord 1 2) (Coord 1 3); MkBox (Coord 2 2) (Coord 2 2); MkBox (Coord 3 2) (Coord 3 2)].
Proof. eexists. eexists. split; [vm_compute; reflexivity|]. split; [vm_compute; reflexivity|]. vm_compute. reflexivity. Qed.
Example C70_formex_ex : exists t v, parse_formex of0 (Some tbl_full) 0 notes_full corpus_full = Ok t /\ reads Rows 4 t v /\
    map c_box (v_owned v) = [MkBox (Coord 2 4) (Coord 2 4); MkBox (Coord 3 4) (Coord 3 4)] /\ List.length (v_caught v) = 3%nat.
Proof. eexists. eexists. split; [vm_compute; reflexivity|]. split; [vm_compute; reflexivity|]. split; vm_compute; reflexivity. Qed.
Example C70_word_ex : exists t v, ox_parse_table (T_Ooxml.opts (Some T_Ooxml.ex_sheet)) None T_Ooxml.ex_tbl = Ok t /\ reads Rows 2 t v /\
    map c_box (v_owned v) = [MkBox (Coord 1 2) (Coord 1 2); MkBox (Coord 2 2) (Coord 2 2)] /\ List.length (v_caught v) = 3%nat.
Proof. eexists. eexists. split; [vm_compute; reflexivity|]. split; [vm_compute; reflexivity|]. split; vm_compute; reflexivity. Qed.

(** ** C71: each cell is written once *)

Lemma perm_Forall2 {A B} (R : A -> B -> Prop) l m : Permutation l m -> forall g, Forall2 R l g -> exists g', Permutation g g' /\ Forall2 R m g'.
Proof.
  induction 1 as [|x l m H IH|x y l|l m k H1 IH1 H2 IH2]; intros g F.
  - inversion F; subst. exists []. split; constructor.
  - inversion F as [|? b ? g0 HR F']; subst. destruct (IH g0 F') as (g' & HP & F2). exists (b :: g'). split; [constructor; exact HP|constructor; assumption].
  - inversion F as [|? b ? g0 HR F']; subst. inversion F' as [|? b' ? g1 HR' F'']; subst. exists (b' :: b :: g1). split; [constructor|]. constructor; [assumption|]. constructor; assumption.
  - destruct (IH1 g F) as (g' & P1 & F1). destruct (IH2 g' F1) as (g'' & P2 & F2). exists g''. split; [etransitivity; eassumption|exact F2].
Qed.
Lemma join_Forall2 {A B C} (R : A -> B -> Prop) (S : A -> C -> Prop) l g x :
  Forall2 R l g -> Forall2 S l x -> Forall2 (fun b c => exists a, R a b /\ S a c) g x.
Proof.
  intros F. revert x. induction F as [|a b l g H F IH]; intros x G; inversion G; subst; constructor; eauto.
Qed.
Lemma written_once {A} (R : cell -> A -> Prop) (D : cell -> xnode -> Prop) cells g l xs all :
  Permutation l all -> Forall2 R l g -> Permutation cells all -> Forall2 D cells xs ->
  exists g', Permutation g g' /\ Forall2 (fun s x => exists c, R c s /\ D c x) g' xs.
Proof.
  intros P1 F P2 G. destruct (perm_Forall2 R l cells (Permutation_trans P1 (Permutation_sym P2)) g F) as (g' & P3 & F').
  exists g'. split; [exact P3|]. eapply join_Forall2; eassumption.
Qed.

Lemma titled_once A (R : cell -> A -> Prop) o k t e l g :
  treachable t -> views_exact Rows t -> generate_tbl o k t = Ok e -> Permutation l (table_iter t) -> Forall2 R l g ->
  exists title g', Permutation g (title ++ g') /\
    (title = [] \/ fo_titles o = true /\ exists te, In te (x_children e) /\ x_tag te = Some "TITLE") /\
    Forall2 (fun s x => exists c, R c s /\ describes_fcell c x) g' (tbl_cells e).
Proof.
  intros HR HX H HP HF. destruct (C48_titles _ _ _ _ HR HX H) as (tc & cells & P & F & HT).
  destruct (perm_Forall2 R l (tc ++ cells) (Permutation_trans HP (Permutation_sym P)) g HF) as (g0 & P0 & F0).
  apply Forall2_app_inv_l in F0 as (g1 & g2 & F1 & F2 & ->). exists g1, g2. split; [exact P0|]. split; [|eapply join_Forall2; eassumption].
  destruct tc as [|c0 tc]; [left; inversion F1; reflexivity|right]. destruct HT as (H1 & _ & te & rest & parts & E & E' & _); [discriminate|].
  split; [exact H1|]. exists te. rewrite E. split; [left; reflexivity|rewrite E'; reflexivity].
Qed.

(** The options which the parsers and the builders use *)
Lemma or_nothing_not_empty v : or_nothing v = not_empty v.
Proof. destruct v as [s|]; [|reflexivity]. cbn. destruct (String.eqb_spec s "") as [->|H]; [reflexivity|]. destruct s; [contradiction|reflexivity]. Qed.
Lemma or_nothing_space v : or_nothing (kw_or v None) = space_of v None.
Proof. destruct v as [v|]; [apply or_nothing_not_empty|reflexivity]. Qed.
Lemma sorting_order kw l : cals_sorting (kw_sorting kw) = Ok l -> l = order_of kw.
Proof. unfold cals_sorting, order_of. destruct (forallb _ _); [|discriminate]. intros [= <-]. destruct (kw_sorting kw); reflexivity. Qed.
Lemma cals_builder_space kw : or_nothing (kw_or (kw_cals_ns kw) None) = cals_space kw.
Proof. apply or_nothing_space. Qed.
Lemma cals_parser_space kw : pc_ns (cals_parser kw) = cals_space kw.
Proof. apply or_nothing_space. Qed.
Lemma formex_parser_space kw : pf_ns (formex_parser kw) = formex_space kw.
Proof. apply or_nothing_not_empty. Qed.
Lemma formex_parser_cals kw : pf_cals_ns (formex_parser kw) = cals_space kw.
Proof. apply or_nothing_space. Qed.
Lemma formex_builder_space kw : co_ns (fo_cals (formex_builder kw)) = formex_cals_space kw.
Proof. cbn. unfold formex_cals_space, space_of. destruct (kw_cals_ns kw) as [v|]; [apply or_nothing_not_empty|reflexivity]. Qed.

(** CALS to Formex: the CELL elements are those of the spots of the CALS table (its entries and its
    holes), one for each, at the same column, with the same spans and content.  The spots of [title]
    are in the TITLE: there is none unless titles are looked for. *)
Theorem C71_cals2formex : forall kw k e e', let ns := cals_space kw in
    no_brace ns -> regular ns e -> cals2formex kw k e = Ok e' ->
    exists l g title g', laid_out ns true e l g /\ x_get e' "COLS" = Some (py_str_int (l_cols l)) /\ Permutation g (title ++ g') /\
      (title = [] \/ kw_titles kw = true /\ exists te, In te (x_children e') /\ x_tag te = Some "TITLE") /\
      Forall2 (fun s x => exists c, shows ns c s /\ describes_fcell c x) g' (tbl_cells e').
Proof.
  intros kw k e e'. rewrite <- cals_parser_space. intros ns Hb Hreg H. unfold cals2formex in H. bind H as t Et.
  destruct (C70_cals _ _ _ Et) as (HR & HX & _). destruct (C55_layout _ _ _ Hb Hreg Et) as (l & g & HL & (cs & HP & HF) & HC & _).
  destruct (C48_tree _ _ _ _ HR H) as (cols & rows & HC' & _ & _ & HD).
  destruct (titled_once _ _ (formex_builder kw) k t e' cs g HR HX H HP HF) as (title & g' & P & T & F).
  exists l, g, title, g'. split; [exact HL|]. split; [|auto].
  rewrite (view_count_fun _ _ _ _ HC HC'). apply HD.
Qed.
(** CALS to CALS *)
Theorem C71_cals2cals : forall p o sorting e t e', no_brace (pc_ns p) -> regular (pc_ns p) e ->
    cals_sorting sorting = Ok (co_sorting o) -> parse_table p e = Ok t -> generate_table_tree o t = Ok e' ->
    exists l g g', laid_out (pc_ns p) true e l g /\ Permutation g g' /\
      Forall2 (fun s x => exists c, shows (pc_ns p) c s /\ describes_cell (co_ns o) c x) g' (entries (co_ns o) e').
Proof.
  intros p o sorting e t e' Hb Hreg Hs Et H.
  destruct (C70_cals _ _ _ Et) as (HR & HX & _). destruct (C55_layout _ _ _ Hb Hreg Et) as (l & g & HL & (cs & HP & HF) & HC & _).
  destruct (C39_cells_partial _ _ _ _ HR Hs HX H) as (cells & HP' & HF').
  destruct (written_once _ _ _ _ _ _ _ HP HF HP' HF') as (g' & P & F). exists l, g, g'. auto.
Qed.
Lemma builder_of kw o : cals_builder kw = Ok o -> co_ns o = or_nothing (kw_or (kw_cals_ns kw) None) /\ cals_sorting (kw_sorting kw) = Ok (co_sorting o).
Proof.
  unfold cals_builder. intros E.
  destruct (or_nothing (kw_prefix kw)), (or_nothing (kw_or (kw_cals_ns kw) None)); try discriminate; bind E as so Es; injection E as <-; auto.
Qed.
(** Formex to CALS *)
Theorem C71_formex2cals : forall kw parent blks before e e', let ns := formex_space kw in let cns := cals_space kw in
    proper_corpus ns cns e -> formex2cals kw parent blks before e = Ok e' ->
    exists l g g', flaid_out ns cns (kw_embed kw) true blks before e l g /\ Permutation g g' /\
      Forall2 (fun s x => exists c, displays c s /\ describes_cell cns c x) g' (entries cns e').
Proof.
  intros kw parent blks before e e'. rewrite <- formex_parser_space, <- formex_parser_cals. intros ns cns Hp H. unfold formex2cals in H. bind H as o Eo. bind H as t Et.
  destruct (C70_formex _ _ _ _ _ _ Et) as (HR & HX & _). destruct (C62_layout _ _ _ _ _ _ Hp Et) as (l & g & HL & (cs & HP & HF) & _).
  destruct (builder_of kw o Eo) as [Hns Hs]. change (or_nothing (kw_or (kw_cals_ns kw) None)) with cns in Hns. destruct (C39_cells_partial _ _ _ _ HR Hs HX H) as (cells & HP' & HF'). rewrite Hns in HF'.
  destruct (written_once _ _ _ _ _ _ _ HP HF HP' HF') as (g' & P & F). exists l, g, g'. auto.
Qed.

(** Word: a region or an empty cell for each element, and conversely; no two of them have a common
    coordinate. *)
Definition regions_of (cols : Z) (rows : list S_Ooxml.wrow) (cells : list cell) : Prop :=
  no_overlap cells /\
  forall ct na b, (exists st, In (MkCell ct st na b) cells) <-> S_Ooxml.displayed cols rows ct na b.
Lemma no_overlap_perm l m : Permutation l m -> no_overlap l -> no_overlap m.
Proof.
  unfold no_overlap. induction 1 as [|x l m H IH|x y l|l m k H1 IH1 H2 IH2]; intros F; [exact F| | |auto].
  - inversion F as [|? ? Hx F']; subst. constructor; [|apply IH, F']. rewrite Forall_forall in *. intros b Hb. apply Hx. apply (Permutation_in b (Permutation_sym H)), Hb.
  - inversion F as [|? ? Hy F']; subst. inversion F' as [|? ? Hx F'']; subst. inversion Hy as [|? ? Hxy Hy']; subst.
    constructor; [|constructor; assumption]. constructor; [|exact Hx]. intros (k & K1 & K2). apply Hxy. exists k. auto.
Qed.
Lemma regions_cells ox sect tbl cols trs rows t cells :
  S_Ooxml.word_table tbl cols trs -> Forall2 S_Ooxml.row_reads trs rows -> S_Ooxml.regular rows -> ox_parse_table ox sect tbl = Ok t ->
  Permutation cells (table_iter t) -> regions_of (Z.of_nat (List.length cols)) rows cells.
Proof.
  intros HW HF HR E P. split.
  - apply (no_overlap_perm _ _ (Permutation_sym P)). eapply T_Ooxml.C49_no_overlap; eassumption.
  - intros ct na b. rewrite <- (T_Ooxml.C49_layout _ _ _ _ _ _ _ HW HF HR E ct na b). split; intros (st & H); exists st; [apply (Permutation_in _ P), H|apply (Permutation_in _ (Permutation_sym P)), H].
Qed.
Theorem C71_ooxml2cals : forall kw ox sect tbl cols trs rows e',
    S_Ooxml.word_table tbl cols trs -> Forall2 S_Ooxml.row_reads trs rows -> S_Ooxml.regular rows ->
    ooxml2cals kw ox sect tbl = Ok e' ->
    exists cells, regions_of (Z.of_nat (List.length cols)) rows cells /\ Forall2 (describes_cell (cals_space kw)) cells (entries (cals_space kw) e').
Proof.
  intros kw ox sect tbl cols trs rows e' HW HF HR H. unfold ooxml2cals in H. bind H as o Eo. bind H as t Et.
  destruct (C70_word _ _ _ _ Et) as (HT & HX & _). destruct (builder_of kw o Eo) as [Hns Hs].
  destruct (C39_cells_partial _ _ _ _ HT Hs HX H) as (cells & HP' & HF'). rewrite Hns, or_nothing_space in HF'. exists cells.
  split; [eapply regions_cells; eassumption|exact HF'].
Qed.
Theorem C71_ooxml2formex : forall kw ox sect k tbl cols trs rows e',
    S_Ooxml.word_table tbl cols trs -> Forall2 S_Ooxml.row_reads trs rows -> S_Ooxml.regular rows ->
    ooxml2formex kw ox sect k tbl = Ok e' ->
    exists title cells, regions_of (Z.of_nat (List.length cols)) rows (title ++ cells) /\ Forall2 describes_fcell cells (tbl_cells e') /\
      (title = [] \/ kw_titles kw = true /\ exists te, In te (x_children e') /\ x_tag te = Some "TITLE").
Proof.
  intros kw ox sect k tbl cols trs rows e' HW HF HR H. unfold ooxml2formex in H. bind H as t Et.
  destruct (C70_word _ _ _ _ Et) as (HT & HX & _). destruct (C48_titles _ _ _ _ HT HX H) as (tc & cells & P & F & HTi).
  exists tc, cells. split; [eapply regions_cells; eassumption|]. split; [exact F|].
  destruct tc as [|c0 tc]; [left; reflexivity|right]. destruct HTi as (H1 & _ & te & rest & parts & E & E' & _); [discriminate|].
  split; [exact H1|]. exists te. rewrite E. split; [left; reflexivity|rewrite E'; reflexivity].
Qed.

(** Examples: the tables of C55, C62 and C49 are converted. *)
Definition kw0 : kwargs := MkKwargs None None None false [] false false None false (fun _ => "0").
Definition kw_cals : kwargs := MkKwargs (Some (Some "cals")) (Some "c") (Some "pt") true ["body"; "header"; "footer"] true true None true (fun _ => "0").
Example C71_cals2formex_ex : exists e', cals2formex kw0 1 doc_full = Ok e' /\ x_get e' "COLS" = Some "3" /\
    map (fun x => (x_get x "COL", x_get x "COLSPAN", x_get x "ROWSPAN")) (tbl_cells e') =
    [(Some "1", Some "2", None); (Some "3", None, None); (Some "1", None, Some "2"); (Some "2", None, None); (Some "3", None, None);
     (Some "2", None, None); (Some "3", None, None)].
Proof. eexists. split; [vm_compute; reflexivity|]. split; vm_compute; reflexivity. Qed.
Example C71_cals2cals_ex : exists t e', parse_table o0 doc_full = Ok t /\ generate_table_tree plain t = Ok e' /\
    List.length (entries None e') = 7%nat /\ cals_sorting [] = Ok (co_sorting plain).
Proof. eexists. eexists. split; [vm_compute; reflexivity|]. split; [vm_compute; reflexivity|]. split; vm_compute; reflexivity. Qed.
Example C71_formex2cals_ex : exists e', formex2cals kw_cals (Some tbl_full) 0 notes_full corpus_full = Ok e' /\
    proper_corpus (pf_ns (formex_parser kw_cals)) (pf_cals_ns (formex_parser kw_cals)) corpus_full /\
    List.length (entries (Some "cals") e') = 10%nat /\
    formex2cals kw0 (Some tbl_full) 0 notes_full corpus_full <> formex2cals kw_cals (Some tbl_full) 0 notes_full corpus_full.
Proof. eexists. split; [vm_compute; reflexivity|]. split; [exact corpus_full_proper|]. split; [vm_compute; reflexivity|]. vm_compute. discriminate. Qed.
Example C71_ooxml2cals_ex : exists e', ooxml2cals kw0 (T_Ooxml.opts (Some T_Ooxml.ex_sheet)) None T_Ooxml.ex_tbl = Ok e' /\
    map (fun x => (attribute None x "namest", attribute None x "nameend", attribute None x "morerows")) (entries None e') =
    [(Some "c1", Some "c2", None); (None, None, Some "1"); (None, None, None); (None, None, None); (None, None, None); (None, None, None); (None, None, None)].
Proof. eexists. split; vm_compute; reflexivity. Qed.
Example C71_ooxml2formex_ex : exists e', ooxml2formex kw_cals (T_Ooxml.opts (Some T_Ooxml.ex_sheet)) None 1 T_Ooxml.ex_tbl = Ok e' /\
    map (fun x => (x_get x "COL", x_get x "{cals}namest", x_get x "ROWSPAN")) (tbl_cells e') =
    [(Some "1", Some "c1", None); (Some "3", None, Some "2"); (Some "1", None, None); (Some "2", None, None); (Some "1", None, None); (Some "2", None, None); (Some "3", None, None)].
Proof. eexists. split; vm_compute; reflexivity. Qed.
Print Assumptions C70_cals.
Print Assumptions C70_formex.
Print Assumptions C70_word.
Print Assumptions C71_cals2formex.
Print Assumptions C71_cals2cals.
Print Assumptions C71_formex2cals.
Print Assumptions C71_ooxml2cals.
Print Assumptions C71_ooxml2formex.
