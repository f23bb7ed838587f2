(** * Theorems about writing a table as Formex and reading it back (C68) *)
From Verif Require Import Base M_Geometry M_Xml M_Cell M_Grid M_Table M_Str M_Units M_Builder M_Cals M_CalsParser M_Formex M_FormexParser M_FormexRead.
From Verif Require Import S_Geometry S_Grid S_Table S_Units S_Builder S_Cals S_Int S_CalsParser S_RoundTrip S_Formex S_Attrs S_FormexRead S_FormexTrip S_Axes.
From Verif Require Import P_Table P_TableFacts P_TableMore P_Cals P_RoundTripMain P_FormexTripMain.
From Verif Require Import T_Table T_Cals T_Formex T_CalsParser T_RoundTrip T_FormexRead.
Open Scope string_scope.
Open Scope list_scope.
Open Scope Z_scope.

(** Full statement: for each table whose cells tile an area, the tree of the builder can be read and has the same
    cells at the same place with the same content, nature and styles.

    What holds: this is so if the rows list their cells from left to right, if there are no more rows and columns
    than the cells cover, if no row is written as TITLE and if the contents have no element of a table and no IE.
    The nature of a cell is the one of its type or of its row; there are only headers and body rows.  The styles are
    kept as far as the attributes of CALS are written, those of the rows and of the columns too. *)
Theorem C68_round_trip_partial : forall o p k t n m e,
    treachable t -> pf_ns p = None -> (fo_use_cals o = true -> co_ns (fo_cals o) = pf_cals_ns p) ->
    (fo_titles o = true -> ~ has_title t) ->
    tiles (table_iter t) n m -> view_count Cols t n -> view_count Rows t m -> rows_ordered t ->
    plain_nodes (pf_cals_ns p) (table_iter t) ->
    generate_tbl o k t = Ok e ->
    exists corpus t', x_children e = [corpus] /\ parse_formex p (Some e) 0 [] corpus = Ok t' /\
      (exists l, Permutation (table_iter t') l /\ Forall2 (fcell_kept (fo_use_cals o) t t' n m) l (table_iter t)) /\
      view_count Cols t' n /\
      (forall r v v', 1 <= r <= m -> reads Rows r t v -> reads Rows r t' v' -> frow_kept (fo_use_cals o) t' v' v) /\
      ftable_kept (fo_use_cals o) t' t /\
      (forall j v v', 1 <= j <= n -> reads Cols j t v -> reads Cols j t' v' ->
         fcolumn_kept (fo_use_cals o) (co_unit (fo_cals o)) (co_fmt (fo_cals o)) t' v' v).
Proof.
  intros o p k t n m e HR Epns Ens Hti HT HC HW HO HP HE. exact (fround_trip o p k t n m e HR Epns Ens Hti HT HC HW HO HP HE).
Qed.

(** When the natures of the cells are headers and bodies, the cells are the same. *)
Theorem C68_same_cells_partial : forall o p k t n m e,
    treachable t -> pf_ns p = None -> (fo_use_cals o = true -> co_ns (fo_cals o) = pf_cals_ns p) ->
    (fo_titles o = true -> ~ has_title t) ->
    tiles (table_iter t) n m -> view_count Cols t n -> view_count Rows t m -> rows_ordered t ->
    plain_nodes (pf_cals_ns p) (table_iter t) ->
    (forall c, In c (table_iter t) -> In (c_nature c) [Some "header"; Some "body"] /\ (fo_use_cals o = true -> dget (c_styles c) "cellstyle" = None)) ->
    generate_tbl o k t = Ok e ->
    exists corpus t', x_children e = [corpus] /\ parse_formex p (Some e) 0 [] corpus = Ok t' /\
      exists l, Permutation (table_iter t') l /\
        Forall2 (fun c' c => c_box c' = c_box c /\ fcontent_kept c' c /\ c_nature c' = c_nature c) l (table_iter t).
Proof.
  intros o p k t n m e HR Epns Ens Hti HT HC HW HO HP HN HE.
  destruct (C68_round_trip_partial o p k t n m e HR Epns Ens Hti HT HC HW HO HP HE) as (corpus & t' & Ec & Et & (l & P & F) & _).
  exists corpus, t'. split; [exact Ec|]. split; [exact Et|]. exists l. split; [exact P|].
  revert HN. clear - F. revert F. generalize (table_iter t) as L. intros L F HN.
  induction F as [|c' c l L HK F IH]; constructor; [|apply IH; intros x Hx; apply HN; right; exact Hx].
  destruct HK as (E1 & E2 & (v & type & _ & Hty & En & _) & _). split; [exact E1|]. split; [exact E2|]. rewrite En.
  destruct (HN c (or_introl eq_refl)) as [Hin Hcs]. unfold cell_type in Hty.
  replace (if fo_use_cals o then dget (c_styles c) "cellstyle" else None) with (@None sval) in Hty by (destruct (fo_use_cals o); [symmetry; auto|reflexivity]).
  destruct Hin as [E|[E|[]]]; rewrite <- E in *; cbv match in Hty.
  - destruct (v_nature v) as [s|].
    + destruct (String.eqb_spec "header" s) as [Es|_]; [rewrite <- Es; subst type; reflexivity|].
      destruct Hty as [[_ ->]|[[Hx _]|[Hx _]]]; [reflexivity|discriminate Hx|discriminate Hx].
    + destruct Hty as [[_ ->]|[[Hx _]|[Hx _]]]; [reflexivity|discriminate Hx|discriminate Hx].
  - destruct (v_nature v) as [s|].
    + destruct (String.eqb_spec "body" s) as [Es|_]; [rewrite <- Es; subst type; reflexivity|].
      destruct Hty as [[Hx _]|[[_ ->]|[Hx _]]]; [discriminate Hx|reflexivity|discriminate Hx].
    + destruct Hty as [[Hx _]|[[_ ->]|[Hx _]]]; [discriminate Hx|reflexivity|discriminate Hx].
Qed.

(** *** The other cases *)

Ltac one_tile := vm_compute table_iter; split; [lia|]; split; [lia|]; split; [constructor; [unfold valid; cbn; lia|constructor]|];
  split; [constructor; [constructor|constructor]|]; split; [intros c [<-|[]] k; cbn; auto|];
  intros k Hk; eexists; split; [left; reflexivity|exact Hk].

Definition one_cell (ct : content) (na : nature) : table :=
  trun et_start [TReadViews Rows; TSetNature Rows 1 na; TInsert Rows 1 ct None na 1 1].
(** A footer is not read as such. *)
Theorem C68_footer_refuted : exists t e corpus t', treachable t /\ tiles (table_iter t) 1 1 /\
    generate_tbl fplain 1 t = Ok e /\ x_children e = [corpus] /\ parse_formex of0 (Some e) 0 [] corpus = Ok t' /\
    map c_nature (table_iter t) = [Some "footer"] /\ map c_nature (table_iter t') = [Some "body"].
Proof.
  exists (one_cell (CText "x") (Some "footer")). do 3 eexists. split; [apply et_reachable|]. split; [one_tile|].
  split; [vm_compute; reflexivity|]. split; [reflexivity|]. split; [vm_compute; reflexivity|]. split; vm_compute; reflexivity.
Qed.
(** An IE in a content is not read. *)
Theorem C68_ie_refuted : exists t e corpus t', treachable t /\ tiles (table_iter t) 1 1 /\
    generate_tbl fplain 1 t = Ok e /\ x_children e = [corpus] /\ parse_formex of0 (Some e) 0 [] corpus = Ok t' /\
    map c_content (table_iter t) = [CList [CNode (XElem "IE" [] None [] None)]] /\
    map c_content (table_iter t') = [CText ""].
Proof.
  exists (one_cell (CList [CNode (XElem "IE" [] None [] None)]) (Some "body")). do 3 eexists. split; [apply et_reachable|]. split; [one_tile|].
  split; [vm_compute; reflexivity|]. split; [reflexivity|]. split; [vm_compute; reflexivity|]. split; vm_compute; reflexivity.
Qed.
(** A header which was read cannot be written again with the attributes of CALS. *)
Theorem C68_again_refuted : exists t e corpus t', treachable t /\ tiles (table_iter t) 1 1 /\
    generate_tbl fcals 1 t = Ok e /\ x_children e = [corpus] /\ parse_formex (MkPFmxOpts None (Some "urn:cals") false) (Some e) 0 [] corpus = Ok t' /\
    generate_tbl fcals 1 t' = Err ETypeError.
Proof.
  exists (one_cell (CText "x") (Some "header")). do 3 eexists. split; [apply et_reachable|]. split; [one_tile|].
  split; [vm_compute; reflexivity|]. split; [reflexivity|]. split; vm_compute; reflexivity.
Qed.
(** A table whose first row is written as a title loses the row. *)
Theorem C68_title_refuted : exists t e title corpus t', treachable t /\ tiles (table_iter t) 2 2 /\
    generate_tbl ftitles 1 t = Ok e /\ x_children e = [title; corpus] /\ parse_formex of0 (Some e) 0 [title] corpus = Ok t' /\
    texts t = [(MkBox (Coord 1 1) (Coord 2 1), CText "Title"); (MkBox (Coord 1 2) (Coord 1 2), CText "a"); (MkBox (Coord 2 2) (Coord 2 2), CText "b")] /\
    texts t' = [(MkBox (Coord 1 1) (Coord 1 1), CList [CText "a"]); (MkBox (Coord 2 1) (Coord 2 1), CList [CText "b"])].
Proof.
  exists et_title. do 4 eexists. split; [apply et_reachable|]. split.
  - vm_compute table_iter. split; [lia|]. split; [lia|]. split; [repeat (constructor; [unfold valid; cbn; lia|]); constructor|].
    split.
    { repeat (constructor; [repeat (constructor; [intros (k & H1 & H2); unfold covers in *; cbn in *; lia|]); constructor|]). constructor. }
    split; [intros c Hc k; cbn in Hc; destruct Hc as [<-|[<-|[<-|[]]]]; unfold covers; cbn; lia|].
    intros [x y] Hk. unfold covers in *. cbn in Hk.
    assert (HY : y = 1 \/ (x = 1 /\ y = 2) \/ (x = 2 /\ y = 2)) by lia. destruct HY as [H|[H|H]]; first [pick 0%nat|pick 1%nat|pick 2%nat].
  - split; [vm_compute; reflexivity|]. split; [reflexivity|]. split; [vm_compute; reflexivity|]. split; vm_compute; reflexivity.
Qed.

(** *** Example: a header and a body, a cell on two columns and one on two rows, styles *)
Definition of_cals : pfmx_opts := MkPFmxOpts None (Some "urn:cals") false.
Example t_ex_plain_nodes : plain_nodes (Some "urn:cals") (table_iter t_ex).
Proof.
  intros c n Hc Hn. vm_compute in Hc.
  assert (HN : n = XElem "p" [] None [] None).
  { repeat (destruct Hc as [Hc|Hc]; [subst c; cbn in Hn; repeat (destruct Hn as [Hn|Hn]; [congruence|]); destruct Hn|]). destruct Hc. }
  subst n. split; [stranger_tac|discriminate].
Qed.
Example C68_example : exists e corpus t', generate_tbl fcals 1 t_ex = Ok e /\ x_children e = [corpus] /\
    parse_formex of_cals (Some e) 0 [] corpus = Ok t' /\ ftable_kept true t' t_ex /\
    map c_box (table_iter t') = [MkBox (Coord 1 1) (Coord 3 1); MkBox (Coord 1 2) (Coord 1 3); MkBox (Coord 2 2) (Coord 2 2);
                                 MkBox (Coord 3 2) (Coord 3 2); MkBox (Coord 2 3) (Coord 3 3)] /\
    map c_nature (table_iter t') = [Some "header"; Some "body"; Some "body"; Some "body"; Some "body"] /\
    map (fun c => dget (c_styles c) "align") (table_iter t') = [Some (SStr "center"); None; None; None; None] /\
    map (fun c => dget (c_styles c) "cellstyle") (table_iter t') = [Some SNone; None; None; None; None] /\
    t_nature t' = Some "wide".
Proof.
  assert (HX : exists e, generate_tbl fcals 1 t_ex = Ok e) by (eexists; vm_compute; reflexivity). destruct HX as (e & Ee).
  pose proof t_ex_counts as [HC HW].
  destruct (C68_round_trip_partial fcals of_cals 1 t_ex 3 3 e t_ex_reachable eq_refl ltac:(intros _; reflexivity) ltac:(discriminate) t_ex_tiles HC HW t_ex_ordered t_ex_plain_nodes Ee)
    as (corpus & t' & Ec & Et & _ & _ & _ & HK & _).
  exists e, corpus, t'. split; [exact Ee|]. split; [exact Ec|]. split; [exact Et|]. split; [exact HK|]. clear HK.
  vm_compute in Ee. injection Ee as <-. injection Ec as <-. vm_compute in Et. injection Et as <-.
  repeat (split; [vm_compute; reflexivity|]). vm_compute; reflexivity.
Qed.
(** ... and without the attributes of CALS *)
Example C68_plain_example : exists e corpus t', generate_tbl fplain 1 t_ex = Ok e /\ x_children e = [corpus] /\
    parse_formex of_cals (Some e) 0 [] corpus = Ok t' /\ ftable_kept false t' t_ex /\
    map c_box (table_iter t') = map c_box (table_iter t_ex) /\
    map c_content (table_iter t') = [CList [CText "title"]; CList [CText "a"; CNode (XElem "p" [] None [] None)]; CList [CText "b"]; CList [CText "c"]; CList [CText "d"]].
Proof.
  assert (HX : exists e, generate_tbl fplain 1 t_ex = Ok e) by (eexists; vm_compute; reflexivity). destruct HX as (e & Ee).
  pose proof t_ex_counts as [HC HW].
  destruct (C68_round_trip_partial fplain of_cals 1 t_ex 3 3 e t_ex_reachable eq_refl ltac:(discriminate) ltac:(discriminate) t_ex_tiles HC HW t_ex_ordered t_ex_plain_nodes Ee)
    as (corpus & t' & Ec & Et & _ & _ & _ & HK & _).
  exists e, corpus, t'. split; [exact Ee|]. split; [exact Ec|]. split; [exact Et|]. split; [exact HK|]. clear HK.
  vm_compute in Ee. injection Ee as <-. injection Ec as <-. vm_compute in Et. injection Et as <-. split; vm_compute; reflexivity.
Qed.
Example C68_same_cells_example : forall c, In c (table_iter (one_cell (CText "x") (Some "header"))) ->
    In (c_nature c) [Some "header"; Some "body"] /\ (fo_use_cals fcals = true -> dget (c_styles c) "cellstyle" = None).
Proof. intros c Hc. vm_compute in Hc. destruct Hc as [<-|[]]. split; [left; reflexivity|reflexivity]. Qed.

Print Assumptions C68_round_trip_partial.
Print Assumptions C68_same_cells_partial.
Print Assumptions C68_footer_refuted.
Print Assumptions C68_ie_refuted.
Print Assumptions C68_again_refuted.
Print Assumptions C68_title_refuted.
