(** * Theorems about converted tables which are read again (C72) *)
From Coq Require Import QArith.
From Verif Require Import Base M_Geometry M_Xml M_Cell M_Grid M_Table M_Str M_Units M_Builder M_Cals M_CalsParser M_Formex M_FormexParser M_FormexRead M_Ooxml M_Convert.
From Verif Require Import S_Geometry S_Grid S_Table S_Units S_Builder S_Cals S_Int S_CalsParser S_RoundTrip S_Formex S_FormexRead S_FormexTrip S_Attrs S_Axes S_Convert.
From Verif Require S_Ooxml.
From Verif Require Import P_Table P_TableFacts P_TableMore P_Cals P_Formex P_CalsParser P_CalsTable P_RoundTripAttrs P_FormexTripMain P_RoundTripMain P_Fit P_Height P_Parsed P_Rect P_CalsMore P_FormexMore.
From Verif Require Import T_Table T_Cals T_Formex T_CalsParser T_FormexRead T_RoundTrip T_FormexTrip T_Convert.
From Verif Require S_OoxmlStyle S_ConvertWord T_Ooxml T_OoxmlCell.
Open Scope string_scope.
Open Scope list_scope.
Open Scope Z_scope.

(** ** CALS to Formex *)

Lemma spot_styles ns c e : has_styles (c_styles c) (entry_style ns e) -> forall k, dget (c_styles c) k = text_look (entry_style ns e k).
Proof. intros H k. rewrite H. destruct (entry_style ns e k); reflexivity. Qed.
Lemma text_not_empty v : kept_text (text_look (not_empty v)) = text_look (not_empty v).
Proof. destruct v as [[|a s]|]; reflexivity. Qed.
Lemma one_in_cases values v s : one_in values v = Some s -> In s values.
Proof.
  unfold one_in. destruct v as [x|]; [|discriminate]. destruct (existsb (String.eqb x) values) eqn:E; [|discriminate]. intros [= <-].
  apply existsb_exists in E as (y & Hy & Ey). apply String.eqb_eq in Ey. subst. exact Hy.
Qed.
Lemma valign_kept v : kept_valign (text_look (valign_of v)) = text_look (valign_of v).
Proof.
  destruct (valign_of v) as [s|] eqn:E; [|reflexivity]. apply one_in_cases in E. destruct E as [<-|[<-|[<-|[]]]]; reflexivity.
Qed.
Lemma separator_cases v s : separator_line v = Some s -> s = "none" \/ s = "solid 1pt black".
Proof.
  unfold separator_line. destruct v as [x|]; [|discriminate]. destruct (String.eqb x "0"); [intros [= <-]; auto|]. destruct (String.eqb x "1"); [intros [= <-]; auto|discriminate].
Qed.
Lemma separator_of st style v s : dget st style = text_look (separator_line v) -> separator_line v = Some s -> exists w, line_of st style w /\ kept_line w = SStr s.
Proof.
  intros E Es. rewrite Es in E. cbn in E. destruct (line_in st style) as [L1 L2]. destruct (separator_cases v s Es) as [->| ->].
  - exists "none". split; [apply L2, E|reflexivity].
  - exists "black". split; [apply L1, E|reflexivity].
Qed.
Lemma spot_pieces ns c s : shows ns c s -> content_pieces (c_content c) = content_pieces (c_content (snd s)).
Proof. intros (E & _). rewrite E. reflexivity. Qed.
(** A spot which is written as empty has no content. *)
Lemma spot_empty ns watch its l l' : lays ns watch its l l' ->
  (forall s e, In s (l_spots l) -> fst s = Some e -> c_content (snd s) = content_of e) -> (forall s e, In s (l_spots l') -> fst s = Some e -> c_content (snd s) = content_of e).
Proof.
  intros HL. induction HL as [l|c its r k n g cs m l' Hm H IH|na sec row its r k n g cs n1 g1 g2 l' Hp Hn Hf H IH]; intros Hs; [exact Hs|apply IH; exact Hs|].
  apply IH. cbn [l_spots] in *. clear - Hp Hf Hs.
  assert (HF : forall bb na g g', filled bb na g g' -> (forall s e, In s g -> fst s = Some e -> c_content (snd s) = content_of e) ->
    forall s e, In s g' -> fst s = Some e -> c_content (snd s) = content_of e).
  { intros bb na' g0 g' (ks & _ & ->) H s e Hin. apply in_app_iff in Hin as [Hin|Hin]; [|apply H, Hin]. apply in_map_iff in Hin as (k0 & <- & _). discriminate. }
  apply (HF _ _ _ _ Hf). clear Hf. induction Hp as [|k0 e es n0 g0 i w h g1 n2 g2' H1 H2 H3 H4 H5 H6 H7 IH]; [exact Hs|]. apply IH.
  assert (Hc : forall s e0, In s ((Some e, bare (content_of e) (Some na) (seat Rows (r + 1) i w h)) :: g0) -> fst s = Some e0 -> c_content (snd s) = content_of e0).
  { intros s e0 [<-|Hin]; [intros [= <-]; reflexivity|apply Hs, Hin]. }
  destruct H6 as [n1' bb g' _ _ _ _ Hf|_]; [apply (HF _ _ _ _ Hf), Hc|exact Hc].
Qed.
Lemma laid_content ns watch e l g : laid_out ns watch e l g -> forall s x, In s g -> fst s = Some x -> c_content (snd s) = content_of x.
Proof.
  intros (HL & bb & _ & (ks & _ & ->)) s x Hin. apply in_app_iff in Hin as [Hin|Hin].
  - apply in_map_iff in Hin as (k & <- & _). discriminate.
  - apply (spot_empty _ _ _ _ _ HL); [intros ? ? []|exact Hin].
Qed.
Lemma empty_spot ns c s : shows ns c s -> (forall x, fst s = Some x -> c_content (snd s) = content_of x) -> shown_empty c -> content_pieces (c_content (snd s)) = [].
Proof.
  intros (E1 & _ & _ & E4) Hx [H|[H|H]]; [|rewrite <- E1, H; reflexivity|rewrite <- E1, H; reflexivity]. destruct (fst s) as [x|]; [|rewrite E4 in H; discriminate H].
  rewrite (Hx x eq_refl). rewrite E4 in H. unfold content_of. unfold entry_style in H. cbn in H. destruct (text_of x) as [|a l]; [|discriminate H].
  destruct (x_children x); [reflexivity|discriminate H].
Qed.

Lemma frame_back ns e st st' : (forall s, table_frame ns e s (dget st (side_style s))) ->
  (forall f, In f six_frames -> (forall s, frame_shows f s <-> drawn st s) -> forall s, drawn st' s <-> drawn st s) -> frame_again (attribute ns e "frame") st'.
Proof.
  intros HF HK. unfold frame_again. set (f := match not_empty (attribute ns e "frame") with Some f => f | None => "none" end).
  assert (HX : In f six_frames /\ forall s, frame_shows f s <-> drawn st s).
  { unfold table_frame in HF. subst f. destruct (not_empty (attribute ns e "frame")) as [f|].
    - split; [exact (proj1 (HF TopSide))|]. intros s. specialize (HF s). destruct HF as (Hf & H1 & H2). symmetry. exact (drawn_frame st f s _ Hf eq_refl H1 H2).
    - split; [left; reflexivity|]. intros s. specialize (HF s). split.
      + intros [H|H]; [discriminate H|]. destruct s; [destruct H as [H|H]|destruct H as [H|H]| |]; discriminate H.
      + intros (w & (v & a & b & E & _) & _). rewrite HF in E. discriminate E. }
  destruct HX as [H1 H2]. intros s. rewrite (HK f H1 H2 s). symmetry. apply H2.
Qed.
Lemma table_back ns unit fmt e t t' : table_attributes ns unit fmt e t -> table_kept t' t -> table_again ns e t'.
Proof.
  intros (A1 & _ & A3 & A4) (K1 & K2 & K3 & K4 & K5 & K6 & _).
  assert (A : forall k, ~ In k ["width"; "border-top"; "border-bottom"; "border-left"; "border-right"] -> dget (t_styles t) k = text_look (table_style ns e k)).
  { intros k Hk. rewrite (A3 k Hk). destruct (table_style ns e k); reflexivity. }
  clear A3. split; [exact (frame_back ns e _ _ A1 K1)|]. split; [|split].
  - intros k [<-|[<-|[<-|[]]]].
    + rewrite K3. apply A. cbn. intuition discriminate.
    + rewrite K4, A by (cbn; intuition discriminate). unfold table_style. cbn [String.eqb Ascii.eqb Bool.eqb]. unfold renamed.
      destruct (attribute ns e "pgwide") as [s|]; [|reflexivity]. cbn [find fst snd option_map]. destruct (String.eqb s "0"); [reflexivity|]. destruct (String.eqb s "1"); reflexivity.
    + rewrite K5, A by (cbn; intuition discriminate). apply text_not_empty.
  - intros k v Hk E. assert (HL : exists w, line_of (t_styles t) k w /\ kept_line w = SStr v).
    { assert (Ek : dget (t_styles t) k = Some (SStr v)) by (rewrite A, E; [reflexivity|destruct Hk as [<-|[<-|[]]]; cbn; intuition discriminate]).
      assert (Hv : v = "none" \/ v = "solid 1pt black").
      { assert (HG : forall l d x, (forall y, d = Some y -> y = "none" \/ y = "solid 1pt black") -> (forall o y, In o l -> o = Some y -> y = "none" \/ y = "solid 1pt black") ->
          fold_left (fun d v => or_else v d) l d = Some x -> x = "none" \/ x = "solid 1pt black").
        { induction l as [|o l IH]; intros d x Hd Hl Ex; [exact (Hd x Ex)|]. cbn [fold_left] in Ex. apply (IH _ x) in Ex; [exact Ex| |intros o' y Ho; apply Hl; right; exact Ho].
          intros y Ey. destruct o as [z|]; [apply (Hl (Some z) y (or_introl eq_refl) Ey)|exact (Hd y Ey)]. }
        assert (ES : exists name, table_separator ns e name = Some v).
        { destruct Hk as [<-|[<-|[]]]; unfold table_style in E; cbn [String.eqb Ascii.eqb Bool.eqb] in E; eauto. }
        destruct ES as (name & ES). unfold table_separator, last_given in ES. apply (HG _ None v) in ES; [exact ES|discriminate|].
        intros o y Ho Ey. apply in_map_iff in Ho as (n & <- & _). exact (separator_cases _ _ Ey). }
      destruct (line_in (t_styles t) k) as [L1 L2]. destruct Hv as [->| ->]; [exists "none"|exists "black"]; split; auto. }
    destruct HL as (w & HL & <-). apply (K6 k w); [exact Hk|exact HL].
  - exists (t_nature t). split; [exact A4|exact K2].
Qed.

Lemma spot_back ns use_cals t t' n m c' c s : shows ns c s -> (forall x, fst s = Some x -> c_content (snd s) = content_of x) ->
  fcell_kept use_cals t t' n m c' c -> spot_again use_cals ns n m t' c' s.
Proof.
  intros HS Hx (E1 & (E2 & E3) & _ & E4). pose proof HS as (S1 & S2 & S3 & S4). split; [congruence|]. split.
  - assert (HD : shown_empty c \/ ~ shown_empty c).
    { unfold shown_empty. destruct (dget (c_styles c) "x-cell-empty") as [[v|v|u v|]|]; [destruct (String.eqb_spec v "true"); [subst; tauto|]|..];
        (destruct (c_content c) as [|v0| | | |]; [tauto|destruct (String.eqb_spec v0 ""); [subst; tauto|]|..]; right; intros [H|[H|H]]; try discriminate H; injection H; congruence). }
    destruct HD as [HD|HD]; [rewrite (E2 HD), (empty_spot ns c s HS Hx HD); reflexivity|rewrite (E3 HD), S1; reflexivity].
  - destruct use_cals; [|exact E4]. destruct E4 as (A & V & B & L1 & L2 & _). destruct (fst s) as [x|].
    + pose proof (spot_styles ns c x S4) as S. split.
      * intros k [<-|[<-|[<-|[]]]].
        -- rewrite A. apply S.
        -- rewrite V, S. apply valign_kept.
        -- rewrite B, S. apply text_not_empty.
      * split; intros v Hv Ev.
        -- destruct (separator_of (c_styles c) "border-right" _ v (S "border-right") Ev) as (w & Hw & <-). rewrite E1 in Hv. exact (L1 Hv w Hw).
        -- destruct (separator_of (c_styles c) "border-bottom" _ v (S "border-bottom") Ev) as (w & Hw & <-). rewrite E1 in Hv. exact (L2 Hv w Hw).
    + rewrite S4 in *. intros k [<-|[<-|[<-|[]]]]; [exact A|exact V|exact B].
Qed.
Lemma row_back ns use_cals rows r t' v v' : row_attributes ns rows r v -> frow_kept use_cals t' v' v -> row_again use_cals ns rows r v'.
Proof.
  intros HA (HN & HK). unfold row_attributes in HA. unfold row_again, nature_at, with_parts. rewrite nth_error_map.
  destruct (nth_error rows (Z.to_nat (r - 1))) as [[[na sec] row]|]; cbn [option_map fst snd]; destruct HA as [En Es]; rewrite En in *; (split; [exact HN|]);
    (destruct use_cals; [|intros k Hk; rewrite HK; destruct (String.eqb_spec k "rowstyle"); [congruence|reflexivity]]); destruct HK as (V & B & _).
  - assert (S : forall k, dget (v_styles v) k = text_look (row_style ns sec row k)) by (intros k; rewrite Es; destruct (row_style ns sec row k); reflexivity).
    intros k [<-|[<-|[]]].
    + rewrite V, S. unfold row_style. cbn [String.eqb Ascii.eqb Bool.eqb]. destruct (valign_of (attribute ns row "valign")) as [a|] eqn:Ea; cbn [or_else].
      * rewrite <- Ea. apply valign_kept.
      * apply valign_kept.
    + rewrite B, S. apply text_not_empty.
  - rewrite Es in *. intros k [<-|[<-|[]]]; [exact V|exact B].
Qed.
Lemma Forall2_in_l {A B} (R : A -> B -> Prop) l g : Forall2 R l g -> forall a, In a l -> exists b, In b g /\ R a b.
Proof.
  intros F. induction F as [|a b l g H F IH]; intros x Hx; [destruct Hx|]. destruct Hx as [<-|Hx]; [exists b; split; [left; reflexivity|exact H]|].
  destruct (IH x Hx) as (y & Hy & HR). exists y. split; [right; exact Hy|exact HR].
Qed.
Lemma Forall2_in_r {A B} (R : A -> B -> Prop) l g : Forall2 R l g -> Forall2 (fun a b => R a b /\ In b g) l g.
Proof.
  intros F. assert (K : forall g', (forall b, In b g -> In b g') -> Forall2 (fun a b => R a b /\ In b g') l g); [|apply K; auto].
  induction F as [|a b l g H F IH]; intros g' Hg; constructor; [split; [exact H|apply Hg; left; reflexivity]|apply IH; intros x Hx; apply Hg; right; exact Hx].
Qed.

Lemma builder_unit kw : co_unit (fo_cals (formex_builder kw)) = unit_of kw.
Proof. unfold unit_of. cbn. destruct (kw_unit kw); reflexivity. Qed.
Lemma cals_builder_unit kw o : cals_builder kw = Ok o -> co_unit o = unit_of kw /\ co_fmt o = kw_fmt kw.
Proof.
  intros Eo. unfold cals_builder in Eo. unfold unit_of. destruct (or_nothing (kw_prefix kw)), (or_nothing (kw_or (kw_cals_ns kw) None)); try discriminate; bind Eo as so Es; injection Eo as <-;
    (split; [cbn; destruct (kw_unit kw); reflexivity|reflexivity]).
Qed.

(** A CALS table converted to Formex and read again has the spots of the CALS table: the same places and
    contents, and the rows have the same natures (a footer becomes a body row: C72_footer_refuted).
    With the CALS attributes the alignments, the backgrounds, the lines and the attributes of the table are the same.

    What is missing: the layout must be a rectangle (see C72_cals_rectangle) and the contents must have no element of
    a Formex table; the titles are not looked for. *)
Theorem C72_cals2formex_partial : forall kw p k e l g m e', let ns := cals_space kw in
    no_brace ns -> regular ns e -> laid_out ns true e l g -> tiles (map snd g) (l_cols l) m ->
    plain_nodes (pf_cals_ns p) (map snd g) -> pf_ns p = None ->
    (kw_use_cals kw = true -> formex_cals_space kw = pf_cals_ns p) -> kw_titles kw = false ->
    cals2formex kw k e = Ok e' ->
    exists corpus t', x_children e' = [corpus] /\ parse_formex p (Some e') 0 [] corpus = Ok t' /\
      (exists cs, Permutation cs (table_iter t') /\ Forall2 (spot_again (kw_use_cals kw) ns (l_cols l) m t') cs g) /\
      view_count Cols t' (l_cols l) /\
      (forall r v, 1 <= r <= m -> reads Rows r t' v -> row_again (kw_use_cals kw) ns (row_items (items ns e)) r v) /\
      (kw_use_cals kw = true -> table_again ns e t') /\
      (forall j v, 1 <= j <= l_cols l -> reads Cols j t' v ->
         exists v0, column_attributes (l_styles l) j v0 /\ fcolumn_kept (kw_use_cals kw) (unit_of kw) (kw_fmt kw) t' v v0).
Proof.
  intros kw p k e l g m e'. rewrite <- cals_parser_space, <- formex_builder_space. intros ns Hb Hreg HL HT HP Hpn Hns Hti H. unfold cals2formex in H. bind H as t Et.
  destruct (cals_well_read _ _ _ _ _ m Hb Hreg HL HT Et) as [[HR HO HTt HC HW] (cs & Pc & Fc)].
  destruct (C55_layout _ _ _ Hb Hreg Et) as (l0 & g0 & HL0 & _ & _ & HRows & HCols). destruct (C55_one_layout _ _ _ _ _ _ _ HL HL0) as [<- <-].
  pose proof (C54_table_attributes _ _ _ Hreg Et) as HA.
  assert (HPt : plain_nodes (pf_cals_ns p) (table_iter t)).
  { intros c n Hc Hn. apply (Permutation_in _ (Permutation_sym Pc)) in Hc. destruct (Forall2_in_l _ _ _ Fc c Hc) as (s & Hs & HX).
    apply (HP (snd s) n); [apply in_map, Hs|]. rewrite <- (spot_pieces _ _ _ HX). exact Hn. }
  destruct (C68_round_trip_partial (formex_builder kw) p k t (l_cols l) m e' HR Hpn Hns ltac:(cbn; congruence) HTt HC HW HO HPt H)
    as (corpus & t' & Ec & Ep & (lk & Pk & Fk) & HC' & HK & HTK & HCK).
  exists corpus, t'. split; [exact Ec|]. split; [exact Ep|]. split; [|split; [exact HC'|split; [|split]]].
  - destruct (Forall2_perm_r _ _ _ cs Fk (Permutation_sym Pc)) as (lk' & Pk' & Fk').
    exists lk'. split; [etransitivity; [apply Permutation_sym, Pk'|apply Permutation_sym, Pk]|].
    pose proof (Forall2_in_r _ _ _ Fc) as Fc'. pose proof (laid_content _ _ _ _ _ HL) as HX. clear - Fk' Fc' HX.
    revert lk' Fk'. induction Fc' as [|c s l0 g0 [H1 H2] F IH]; intros lk Fk; inversion Fk; subst; constructor; [|apply IH; assumption].
    eapply spot_back; [exact H1|intros y; apply HX, H2|eassumption].
  - intros r v Hr Hv. destruct (reads_exists Rows r t HR ltac:(lia)) as (v0 & Hv0). exact (row_back _ _ _ _ _ _ _ (HRows r v0 ltac:(lia) Hv0) (HK r v0 v Hr Hv0 Hv)).
  - intros Hu. change (fo_use_cals (formex_builder kw)) with (kw_use_cals kw) in HTK. rewrite Hu in HTK. exact (table_back _ _ _ _ _ _ HA HTK).
  - intros j v Hj Hv. destruct (reads_exists Cols j t HR ltac:(lia)) as (v0 & Hv0). exists v0. split; [exact (HCols j v0 ltac:(lia) Hv0)|].
    pose proof (HCK j v0 v Hj Hv0 Hv) as HX. rewrite builder_unit in HX. exact HX.
Qed.

(** ** Formex to CALS *)

Lemma grouped_rows sorting t m natures : treachable t -> view_count Rows t m -> (forall r v, 1 <= r -> reads Rows r t v -> v_nature v = natures r) ->
  natures_grouped sorting natures m -> rows_grouped sorting t.
Proof.
  intros HR HW HN HG n p q u v j k Hn Hp Hq Hu Hv Hj Hk. rewrite (view_count_fun _ _ _ _ Hn HW) in Hq.
  rewrite (HN p u ltac:(lia) Hu) in Hj. rewrite (HN q v ltac:(lia) Hv) in Hk. exact (HG p q j k Hp Hq Hj Hk).
Qed.
Lemma ftable_back ns cns parent e t t' : ftable_attributes ns cns parent e t -> table_kept t' t -> ftable_again ns cns parent e t'.
Proof.
  intros (A1 & A & A3) (K1 & K2 & K3 & K4 & K5 & K6 & _).
  split; [exact (frame_back cns e _ _ A1 K1)|]. split; [|split].
  - intros k [<-|[<-|[<-|[]]]].
    + rewrite K3. apply A. cbn. intuition discriminate.
    + rewrite K4, A by (cbn; intuition discriminate). unfold ftable_style. cbn [String.eqb Ascii.eqb Bool.eqb]. unfold renamed.
      destruct (attribute cns e "pgwide") as [s|]; [|reflexivity]. cbn [find fst snd option_map]. destruct (String.eqb s "0"); [reflexivity|]. destruct (String.eqb s "1"); reflexivity.
    + rewrite K5, A by (cbn; intuition discriminate). apply text_not_empty.
  - intros k v Hk E. assert (HL : exists w, line_of (t_styles t) k w /\ kept_line w = SStr v).
    { destruct Hk as [<-|[<-|[]]]; unfold ftable_style in E; cbn [String.eqb Ascii.eqb Bool.eqb] in E;
        (eapply separator_of; [|exact E]; rewrite A by (cbn; intuition discriminate); reflexivity). }
    destruct HL as (w & HL & <-). apply (K6 k w); [exact Hk|exact HL].
  - rewrite K2, A3. reflexivity.
Qed.

(** A Formex table converted to CALS and read again has the cells of the Formex table, at the same places, with the
    same contents, natures and styles; the attributes of the table are the same.

    What is missing: the layout must be a rectangle (see C72_formex_rectangle); the rows must be in the order of the sections; the contents
    must have no CALS element.  The lines of the cells are lost (C72_lines_refuted). *)
Theorem C72_formex2cals_partial : forall kw p parent blks before e l g m e', let ns := formex_space kw in let cns := cals_space kw in
    let rows := frow_items ns cns (fitems ns cns blks before e) in
    proper_corpus ns cns e -> flaid_out ns cns (kw_embed kw) true blks before e l g -> tiles (map snd g) (f_cols l) m ->
    plain_contents cns (map snd g) -> natures_grouped (order_of kw) (nature_at rows) m ->
    pc_ns p = cns -> no_brace cns -> In (pc_unit p) unit_names -> (forall q, exists c, In c (list_ascii_of_string (kw_fmt kw q)) /\ digit c) ->
    formex2cals kw parent blks before e = Ok e' ->
    exists t', parse_table p e' = Ok t' /\
      (exists cs, Permutation cs (table_iter t') /\ Forall2 (tile_again rows) cs g) /\
      view_count Cols t' (f_cols l) /\
      (forall r v, 1 <= r <= m -> reads Rows r t' v -> v_nature v = Some (kept_nature (nature_at rows r))) /\
      ftable_again ns cns parent e t' /\
      (forall j v, 1 <= j <= f_cols l -> reads Cols j t' v ->
         exists v0, column_described (f_looks l) j v0 /\ column_kept (unit_of kw) (kw_fmt kw) t' v v0) /\
      (forall r v, 1 <= r <= m -> reads Rows r t' v -> exists v0, row_described rows r v0 /\ row_kept (fun _ => None) t' v v0).
Proof.
  intros kw p parent blks before e l g m e'. rewrite <- formex_parser_space, <- formex_parser_cals. intros ns cns rows Hreg HL HT HP HG Hpn Hb Hu Hf H. unfold formex2cals in H. bind H as o Eo. bind H as t Et.
  destruct (formex_well_read _ _ _ _ _ _ _ _ m Hreg HL HT Et) as [[HR HO HTt HC HW] (cs & Pc & Fc)].
  destruct (C62_layout _ _ _ _ _ _ Hreg Et) as (l0 & g0 & HL0 & _ & _ & HRows & HCols). destruct (C62_one_layout _ _ _ _ _ _ _ _ _ _ _ HL HL0) as [<- <-].
  pose proof (C64_table_attributes _ _ _ _ _ _ (proj1 Hreg) Et) as HA.
  destruct (builder_of kw o Eo) as [Hns Hs]. change (or_nothing (kw_or (kw_cals_ns kw) None)) with cns in Hns.
  assert (HRn : forall r v, 1 <= r -> reads Rows r t v -> v_nature v = nature_at rows r).
  { intros r v Hr Hv. specialize (HRows r v Hr Hv). unfold row_described in HRows. unfold nature_at.
    change (frow_items (pf_ns (formex_parser kw)) (pf_cals_ns (formex_parser kw)) (fitems (pf_ns (formex_parser kw)) (pf_cals_ns (formex_parser kw)) blks before e)) with rows in HRows.
    destruct (nth_error rows (Z.to_nat (r - 1))) as [[na lk]|]; exact (proj1 HRows). }
  assert (HPt : plain_contents (co_ns o) (table_iter t)).
  { rewrite Hns. intros c n Hc Hn. apply (Permutation_in _ (Permutation_sym Pc)) in Hc. destruct (Forall2_in_l _ _ _ Fc c Hc) as (s & Hs' & HX).
    apply (HP (snd s) n); [apply in_map, Hs'|]. rewrite <- (proj1 HX). exact Hn. }
  assert (Ef : co_fmt o = kw_fmt kw).
  { unfold cals_builder in Eo. destruct (or_nothing (kw_prefix kw)), (or_nothing (kw_or (kw_cals_ns kw) None)); try discriminate; bind Eo as so Es; injection Eo as <-; reflexivity. }
  rewrite <- Ef in Hf. rewrite <- Hpn in Hns, Hb.
  destruct (C42_round_trip_partial o p (kw_sorting kw) t (f_cols l) m e' HR Hs Hns Hb Hu Hf HTt HC HW HO
              (grouped_rows _ _ _ _ HR HW HRn (eq_ind_r (fun l => natures_grouped l _ _) HG (sorting_order _ _ Hs))) HPt H) as (t' & Ep & (lk & Pk & Fk) & HC' & HK & HTK & HCK & HRK).
  destruct (cals_builder_unit kw o Eo) as [Eu Efm]. rewrite Eu, Efm in HCK.
  exists t'. split; [exact Ep|]. split; [|split; [exact HC'|split; [|split; [|split]]]].
  - destruct (Forall2_perm_r _ _ _ cs Fk (Permutation_sym Pc)) as (lk' & Pk' & Fk').
    exists lk'. split; [etransitivity; [apply Permutation_sym, Pk'|apply Permutation_sym, Pk]|].
    assert (Hy : forall s, In s g -> 1 <= cy (bmin (c_box (snd s)))).
    { intros s Hin. destruct HT as (_ & _ & HV & _). unfold all_valid in HV. rewrite Forall_forall in HV. specialize (HV (snd s) (in_map snd _ _ Hin)). unfold valid in HV. lia. }
    pose proof (Forall2_in_r _ _ _ Fc) as Fc'. clear - Fk' Fc' HRn Hy.
    revert lk' Fk'. induction Fc' as [|c s l0 g0 [H1 H2] F IH]; intros lk Fk; inversion Fk as [|c' c0 l1 l2 HK HF']; subst; constructor; [|apply IH; assumption].
    destruct HK as [(K1 & K2 & v & Hv & K3) [(A & V & B & S) _]]. destruct H1 as (D1 & D2 & D3 & D4).
    split; [congruence|]. split; [congruence|]. split.
    { rewrite K3, <- D3. rewrite (HRn (cy (bmin (c_box c))) v ltac:(rewrite D3; apply Hy, H2) Hv). reflexivity. }
    rewrite A, V, B, S, !(D4 _). auto.
  - intros r v Hr Hv. destruct (reads_exists Rows r t HR ltac:(lia)) as (v0 & Hv0). rewrite (HK r v0 v Hr Hv0 Hv), (HRn r v0 ltac:(lia) Hv0). reflexivity.
  - exact (ftable_back _ _ _ _ _ _ HA HTK).
  - intros j v Hj Hv. destruct (reads_exists Cols j t HR ltac:(lia)) as (v0 & Hv0). exists v0. split; [exact (HCols j v0 ltac:(lia) Hv0)|exact (HCK j v0 v Hj Hv0 Hv)].
  - intros r v Hr Hv. destruct (reads_exists Rows r t HR ltac:(lia)) as (v0 & Hv0). exists v0. split; [exact (HRows r v0 ltac:(lia) Hv0)|exact (HRK r v0 v Hr Hv0 Hv)].
Qed.

(** ** Word *)

Lemma word_natures o sect tbl cols trs rows t : S_Ooxml.word_table tbl cols trs -> Forall2 S_Ooxml.row_reads trs rows -> S_Ooxml.regular rows -> ox_parse_table o sect tbl = Ok t ->
  forall r v, 1 <= r <= Z.of_nat (List.length rows) -> reads Rows r t v -> v_nature v = S_ConvertWord.word_nature rows r.
Proof.
  intros HW HF HR E r v Hr Hv. unfold S_ConvertWord.word_nature. destruct (nth_error rows (Z.to_nat (r - 1))) as [row|] eqn:En.
  - cbn. apply (T_Ooxml.C49_rows _ _ _ _ _ _ _ HW HF HR E r row v); [split; [lia|exact En]|exact Hv].
  - apply nth_error_None in En. lia.
Qed.
Lemma displayed_nature n rows ct na b : S_Ooxml.displayed n rows ct na b -> na = S_ConvertWord.word_nature rows (cy (bmin b)).
Proof. unfold S_ConvertWord.word_nature. intros [r row c e l [_ Hr] _ _ _ _|r row x [_ Hr] _]; cbn [bmin cy]; rewrite Hr; reflexivity. Qed.
Lemma displayed_plain n rows ct na b : S_Ooxml.displayed n rows ct na b -> ct = CNone \/ exists l, ct = CList l.
Proof. intros [r row c e l _ _ _ _ _|r row x _ _]; eauto. Qed.
Lemma Forall2_in_both {A B} (R : A -> B -> Prop) l g : Forall2 R l g ->
  (forall a, In a l -> exists b, In b g /\ R a b) /\ (forall b, In b g -> exists a, In a l /\ R a b).
Proof.
  intros F. split; [apply Forall2_in_l, F|]. induction F as [|a b l g H F IH]; intros x Hx; [destruct Hx|].
  destruct Hx as [<-|Hx]; [exists a; split; [left; reflexivity|exact H]|]. destruct (IH x Hx) as (y & Hy & HR). exists y. split; [right; exact Hy|exact HR].
Qed.
Lemma same_boxes (K : cell -> cell -> Prop) l g : Forall2 K l g -> (forall a b, K a b -> c_box a = c_box b) -> map c_box l = map c_box g.
Proof. intros F HK. induction F as [|a b l g H F IH]; cbn; [reflexivity|]. rewrite IH, (HK a b H). reflexivity. Qed.

(** The regions of a Word table converted to CALS and read again: the same areas, contents and natures.

    What is missing: no row may be wider than the grid (C49_ragged_refuted); the header rows must come in the
    order of the sections; the paragraphs must have no CALS element; the styles are not considered. *)
Theorem C72_ooxml2cals_partial : forall kw p ox sect tbl cols trs rows e', let ns := cals_space kw in
    S_Ooxml.word_table tbl cols trs -> Forall2 S_Ooxml.row_reads trs rows -> S_Ooxml.regular rows -> S_ConvertWord.word_rectangle cols rows ->
    (forall ct na b n, S_Ooxml.displayed (Z.of_nat (List.length cols)) rows ct na b -> In (Node n) (content_pieces ct) -> foreign ns n) ->
    natures_grouped (order_of kw) (S_ConvertWord.word_nature rows) (Z.of_nat (List.length rows)) ->
    pc_ns p = ns -> no_brace ns -> In (pc_unit p) unit_names -> (forall q, exists c, In c (list_ascii_of_string (kw_fmt kw q)) /\ digit c) ->
    ooxml2cals kw ox sect tbl = Ok e' ->
    exists t', parse_table p e' = Ok t' /\
      S_ConvertWord.regions_again cols rows (table_iter t') S_ConvertWord.same_content (fun na c => c_nature c = na) /\
      view_count Cols t' (Z.of_nat (List.length cols)) /\
      (forall r row v, S_Ooxml.row_at rows r row -> reads Rows r t' v -> v_nature v = Some (S_Ooxml.wr_nature row)) /\
      (forall j n v, 1 <= j -> nth_error cols (Z.to_nat (j - 1)) = Some n -> reads Cols j t' v ->
         exists w q w', dget (x_attrs n) (S_Ooxml.word "w") = Some w /\ ox_float ox w = Ok q /\
           width_as (unit_of kw) (kw_fmt kw) (Some (SStr (String.append (ox_fixed ox (q / 20)%Q) "pt"))) w' /\
           dget (v_styles v) "width" = option_map SStr w').
Proof.
  intros kw p ox sect tbl cols trs rows e'. rewrite <- cals_builder_space. intros ns HW HF HR (Hc & Hr & Hwid) HP HG Hpn Hb Hu Hf H. unfold ooxml2cals in H. bind H as o Eo. bind H as t Et.
  destruct (word_well_read _ _ _ _ _ _ _ HW HF HR Hwid Hc Hr Et) as [HRe HO HTt HC HRw].
  pose proof (word_natures _ _ _ _ _ _ _ HW HF HR Et) as HN. pose proof (T_Ooxml.C49_layout _ _ _ _ _ _ _ HW HF HR Et) as HL.
  destruct (builder_of kw o Eo) as [Hns Hs]. fold ns in Hns.
  assert (HD : forall c, In c (table_iter t) -> S_Ooxml.displayed (Z.of_nat (List.length cols)) rows (c_content c) (c_nature c) (c_box c)).
  { intros c Hin. apply HL. exists (c_styles c). destruct c; exact Hin. }
  assert (HPt : plain_contents (co_ns o) (table_iter t)).
  { rewrite Hns. intros c n Hin Hn. exact (HP _ _ _ n (HD c Hin) Hn). }
  assert (HGt : rows_grouped (co_sorting o) t).
  { intros n q1 q2 u v j k Hn Hp Hq Hu' Hv Hj Hk. rewrite (view_count_fun _ _ _ _ Hn HRw) in Hq.
    rewrite (HN q1 u ltac:(lia) Hu') in Hj. rewrite (HN q2 v ltac:(lia) Hv) in Hk. rewrite (sorting_order _ _ Hs) in Hj, Hk. exact (HG q1 q2 j k Hp Hq Hj Hk). }
  assert (Ef : co_fmt o = kw_fmt kw).
  { unfold cals_builder in Eo. destruct (or_nothing (kw_prefix kw)), (or_nothing (kw_or (kw_cals_ns kw) None)); try discriminate; bind Eo as so Es; injection Eo as <-; reflexivity. }
  assert (Hnat : forall row, In row rows -> S_Ooxml.wr_nature row = "header" \/ S_Ooxml.wr_nature row = "body").
  { clear - HF. induction HF as [|tr row trs rows H F IH]; [intros ? []|]. intros x [<-|Hx]; [destruct H as [_ [[_ H]|[_ H]]]; auto|apply IH, Hx]. }
  assert (Hkn : forall r, 1 <= r <= Z.of_nat (List.length rows) -> Some (kept_nature (S_ConvertWord.word_nature rows r)) = S_ConvertWord.word_nature rows r).
  { intros r Hr'. unfold S_ConvertWord.word_nature. destruct (nth_error rows (Z.to_nat (r - 1))) as [row|] eqn:En; [|apply nth_error_None in En; lia].
    cbn. destruct (Hnat row (nth_error_In _ _ En)) as [-> | ->]; reflexivity. }
  rewrite <- Ef in Hf. rewrite <- Hpn in Hns, Hb.
  destruct (C42_round_trip_partial o p (kw_sorting kw) t _ _ e' HRe Hs Hns Hb Hu Hf HTt HC HRw HO HGt HPt H) as (t' & Ep & (lk & Pk & Fk) & HC' & HK & HTK & HCK & _).
  destruct (cals_builder_unit kw o Eo) as [Eu Efm]. rewrite Eu, Efm in HCK.
  exists t'. split; [exact Ep|]. split; [|split; [exact HC'|split]].
  - assert (Hrows : forall c, In c (table_iter t) -> 1 <= cy (bmin (c_box c)) <= Z.of_nat (List.length rows)).
    { intros c Hin. destruct HTt as (_ & _ & HV & _ & HSub & _). unfold all_valid in HV. rewrite Forall_forall in HV. specialize (HV c Hin). unfold valid in HV.
      pose proof (HSub c Hin (bmin (c_box c))) as H1. unfold covers in H1. cbn [bmin bmax cx cy] in H1. lia. }
    destruct (Forall2_in_both _ _ _ Fk) as [Fl Fr]. split; [|split].
    + apply (no_overlap_shuffle lk _ (Permutation_sym Pk)). apply (no_overlap_boxes (table_iter t)); [|apply HTt]. symmetry. refine (same_boxes _ _ _ Fk _). intros a b [X _]. apply X.
    + intros ct na b Hdis. pose proof Hdis as Hdis'. apply HL in Hdis as (st & Hin). destruct (Fr _ Hin) as (c' & Hc' & (K1 & K2 & v & Hv & K3) & _). cbn [c_box c_content] in *.
      exists c'. split; [apply (Permutation_in _ (Permutation_sym Pk)), Hc'|]. split; [exact K1|]. split; [exact K2|]. specialize (Hrows _ Hin). cbn [c_box] in Hrows.
      rewrite K3, (HN _ v Hrows Hv), (displayed_nature _ _ _ _ _ Hdis'). apply Hkn, Hrows.
    + intros c' Hc'. apply (Permutation_in _ Pk) in Hc'. destruct (Fl c' Hc') as (c & Hin & (K1 & _) & _). exists (c_content c), (c_nature c). rewrite K1. exact (HD c Hin).
  - intros r row v [Hr1 Hrow] Hv. assert (Hlt : (Z.to_nat (r - 1) < List.length rows)%nat) by (apply nth_error_Some; congruence).
    destruct (reads_exists Rows r t HRe ltac:(lia)) as (v0 & Hv0). rewrite (HK r v0 v ltac:(lia) Hv0 Hv), (HN r v0 ltac:(lia) Hv0), Hkn by lia.
    unfold S_ConvertWord.word_nature. rewrite Hrow. reflexivity.
  - intros j n v Hj Hn Hv. assert (Hlt : (Z.to_nat (j - 1) < List.length cols)%nat) by (apply nth_error_Some; congruence).
    destruct (reads_exists Cols j t HRe ltac:(lia)) as (v0 & Hv0).
    destruct (T_Ooxml.C49_columns _ _ _ _ _ _ _ HW HF HR Et j n v0 Hj Hn Hv0) as (w & q & E1 & E2 & E3). exists w, q.
    pose proof (HCK j v0 v ltac:(lia) Hv0 Hv) as HX. destruct HX as (_ & (w' & HX & E4) & _).
    rewrite E3 in HX. exists w'. auto.
Qed.

Lemma empty_dec c : shown_empty c \/ ~ shown_empty c.
Proof.
  unfold shown_empty. destruct (dget (c_styles c) "x-cell-empty") as [[v|v|u v|]|]; [destruct (String.eqb_spec v "true"); [subst; tauto|]|..];
    (destruct (c_content c) as [|v0| | | |]; [tauto|destruct (String.eqb_spec v0 ""); [subst; tauto|]|..]; right; intros [H|[H|H]]; try discriminate H; injection H; congruence).
Qed.
(** The same for Formex, where a cell without text and picture has no content.  Without the CALS attributes the natures
    of the cells are the same, and the natures of the rows always are. *)
Theorem C72_ooxml2formex_partial : forall kw p ox sect k tbl cols trs rows e',
    S_Ooxml.word_table tbl cols trs -> Forall2 S_Ooxml.row_reads trs rows -> S_Ooxml.regular rows -> S_ConvertWord.word_rectangle cols rows ->
    (forall ct na b n, S_Ooxml.displayed (Z.of_nat (List.length cols)) rows ct na b -> In (Node n) (content_pieces ct) -> stranger None (pf_cals_ns p) n /\ x_tag n <> Some "IE") ->
    pf_ns p = None -> (kw_use_cals kw = true -> formex_cals_space kw = pf_cals_ns p) -> kw_titles kw = false ->
    ooxml2formex kw ox sect k tbl = Ok e' ->
    exists corpus t', x_children e' = [corpus] /\ parse_formex p (Some e') 0 [] corpus = Ok t' /\
      S_ConvertWord.regions_again cols rows (table_iter t') (S_ConvertWord.content_or_blank rows) (fun na c => kw_use_cals kw = false -> c_nature c = na) /\
      view_count Cols t' (Z.of_nat (List.length cols)) /\
      (forall r row v, S_Ooxml.row_at rows r row -> reads Rows r t' v -> v_nature v = Some (S_Ooxml.wr_nature row)) /\
      (kw_use_cals kw = true -> forall j n v, 1 <= j -> nth_error cols (Z.to_nat (j - 1)) = Some n -> reads Cols j t' v ->
         exists w q w', dget (x_attrs n) (S_Ooxml.word "w") = Some w /\ ox_float ox w = Ok q /\
           width_as (unit_of kw) (kw_fmt kw) (Some (SStr (String.append (ox_fixed ox (q / 20)%Q) "pt"))) w' /\
           dget (v_styles v) "width" = option_map SStr w').
Proof.
  intros kw p ox sect k tbl cols trs rows e'. rewrite <- formex_builder_space. intros HW HF HR (Hc & Hr & Hwid) HP Hpn Hns Hti H. unfold ooxml2formex in H. bind H as t Et.
  destruct (word_well_read _ _ _ _ _ _ _ HW HF HR Hwid Hc Hr Et) as [HRe HO HTt HC HRw].
  pose proof (word_natures _ _ _ _ _ _ _ HW HF HR Et) as HN. pose proof (T_Ooxml.C49_layout _ _ _ _ _ _ _ HW HF HR Et) as HL.
  assert (HD : forall c, In c (table_iter t) -> S_Ooxml.displayed (Z.of_nat (List.length cols)) rows (c_content c) (c_nature c) (c_box c)).
  { intros c Hin. apply HL. exists (c_styles c). destruct c; exact Hin. }
  assert (HPt : plain_nodes (pf_cals_ns p) (table_iter t)).
  { intros c n Hin Hn. exact (HP _ _ _ n (HD c Hin) Hn). }
  assert (Hnat : forall row, In row rows -> S_Ooxml.wr_nature row = "header" \/ S_Ooxml.wr_nature row = "body").
  { clear - HF. induction HF as [|tr row trs rows H F IH]; [intros ? []|]. intros x [<-|Hx]; [destruct H as [_ [[_ H]|[_ H]]]; auto|apply IH, Hx]. }
  assert (Hkn : forall r, 1 <= r <= Z.of_nat (List.length rows) -> Some (header_or_body (S_ConvertWord.word_nature rows r)) = S_ConvertWord.word_nature rows r).
  { intros r Hr'. unfold S_ConvertWord.word_nature. destruct (nth_error rows (Z.to_nat (r - 1))) as [row|] eqn:En; [|apply nth_error_None in En; lia].
    cbn. destruct (Hnat row (nth_error_In _ _ En)) as [-> | ->]; reflexivity. }
  destruct (C68_round_trip_partial (formex_builder kw) p k t _ _ e' HRe Hpn Hns ltac:(cbn; congruence) HTt HC HRw HO HPt H)
    as (corpus & t' & Ec & Ep & (lk & Pk & Fk) & HC' & HK & _ & HCK).
  exists corpus, t'. split; [exact Ec|]. split; [exact Ep|]. split; [|split; [exact HC'|split]].
  - assert (Hrows : forall c, In c (table_iter t) -> 1 <= cy (bmin (c_box c)) <= Z.of_nat (List.length rows)).
    { intros c Hin. destruct HTt as (_ & _ & HV & _ & HSub & _). unfold all_valid in HV. rewrite Forall_forall in HV. specialize (HV c Hin). unfold valid in HV.
      pose proof (HSub c Hin (bmin (c_box c))) as H1. unfold covers in H1. cbn [bmin bmax cx cy] in H1. lia. }
    destruct (Forall2_in_both _ _ _ Fk) as [Fl Fr]. split; [|split].
    + apply (no_overlap_shuffle lk _ (Permutation_sym Pk)). apply (no_overlap_boxes (table_iter t)); [|apply HTt]. symmetry. refine (same_boxes _ _ _ Fk _). intros a b X. apply X.
    + intros ct na b Hdis. pose proof Hdis as Hdis'. apply HL in Hdis as (st & Hin). destruct (Fr _ Hin) as (c' & Hc' & K1 & (K2 & K3) & (v & type & Hv & Hty & K4 & _) & _).
      exists c'. split; [apply (Permutation_in _ (Permutation_sym Pk)), Hc'|]. split; [exact K1|]. specialize (Hrows _ Hin). split.
      * split.
        -- intros (tc & (r & row & c & Hrow & Hsl & Hcon & Eb & Etc) & Htl & Hpl). rewrite K1 in Eb. cbn [c_box] in Eb. rewrite K2; [reflexivity|]. left.
           apply (T_OoxmlCell.C56_cells _ _ _ _ _ _ _ HW HF HR Et r row c _ Hrow Hsl Hcon Hin Eb "x-cell-empty"); [cbn; tauto|].
           rewrite Etc. right. right. right. left. auto.
        -- intros Hnb. destruct (empty_dec (MkCell ct st na b)) as [He|He]; [|exact (K3 He)]. rewrite (K2 He).
           destruct He as [He|[He|He]]; [|cbn [c_content] in He; rewrite He; reflexivity|cbn [c_content] in He; rewrite He; reflexivity].
           exfalso. apply Hnb. destruct Hdis' as [r row c e l Hrow Hsl Hcon Hgo Hpar|r row x Hrow Hx].
           ++ apply (T_OoxmlCell.C56_cells _ _ _ _ _ _ _ HW HF HR Et r row c _ Hrow Hsl Hcon Hin eq_refl "x-cell-empty") in He; [|cbn; tauto].
              exists (S_Ooxml.sl_cell c). split; [exists r, row, c; rewrite K1; auto|].
              destruct He as [[X _]|[[X _]|[[X _]|[(_ & X & Y & _)|(bo & names & tt0 & _ & X & _)]]]]; try discriminate X; [auto|]. exfalso. cbn in X. intuition discriminate.
           ++ destruct (T_OoxmlCell.C56_completed _ _ _ _ _ _ _ HW HF HR Et r row _ Hrow Hin eq_refl) as [_ Es]; [cbn; lia|]. cbn [c_styles] in *. rewrite Es in He. discriminate He.
      * intros Hu. rewrite K4. change (fo_use_cals (formex_builder kw)) with (kw_use_cals kw) in Hty. rewrite Hu in Hty. unfold cell_type in Hty.
        rewrite (HN _ v Hrows Hv) in *. pose proof (displayed_nature _ _ _ _ _ Hdis') as En. cbn [c_box c_nature] in *. rewrite <- (Hkn _ Hrows) in En.
        rewrite <- (Hkn _ Hrows) in Hty. rewrite En in Hty |- *.
        assert (Ety : type = None). { destruct (header_or_body (S_ConvertWord.word_nature rows (cy (bmin b)))) as [|a s]; [exact Hty|]. rewrite String.eqb_refl in Hty. exact Hty. }
        rewrite Ety. reflexivity.
    + intros c' Hc'. apply (Permutation_in _ Pk) in Hc'. destruct (Fl c' Hc') as (c & Hin & K1 & _). exists (c_content c), (c_nature c). rewrite K1. exact (HD c Hin).
  - intros r row v [Hr1 Hrow] Hv. assert (Hlt : (Z.to_nat (r - 1) < List.length rows)%nat) by (apply nth_error_Some; congruence).
    destruct (reads_exists Rows r t HRe ltac:(lia)) as (v0 & Hv0). rewrite (proj1 (HK r v0 v ltac:(lia) Hv0 Hv)), (HN r v0 ltac:(lia) Hv0), Hkn by lia.
    unfold S_ConvertWord.word_nature. rewrite Hrow. reflexivity.
  - intros HU j n v Hj Hn Hv. assert (Hlt : (Z.to_nat (j - 1) < List.length cols)%nat) by (apply nth_error_Some; congruence).
    destruct (reads_exists Cols j t HRe ltac:(lia)) as (v0 & Hv0).
    destruct (T_Ooxml.C49_columns _ _ _ _ _ _ _ HW HF HR Et j n v0 Hj Hn Hv0) as (w & q & E1 & E2 & E3). exists w, q.
    pose proof (HCK j v0 v ltac:(lia) Hv0 Hv) as HX. rewrite builder_unit in HX. change (fo_use_cals (formex_builder kw)) with (kw_use_cals kw) in HX. rewrite HU in HX. destruct HX as (_ & (w' & HX & E4) & _).
    rewrite E3 in HX. exists w'. auto.
Qed.

(** ** Rectangles *)

(** When the columns are before the rows a layout without overlap is a rectangle ... *)
Theorem C72_cals_rectangle : forall ns watch e l g, laid_out ns watch e l g -> columns_first (items ns e) -> no_overlap (map snd g) ->
    exists m, tiles (map snd g) (l_cols l) m.
Proof. exact cals_tiles. Qed.
Theorem C72_formex_rectangle : forall ns cns em watch blks before e l g, flaid_out ns cns em watch blks before e l g ->
    fcolumns_first (fitems ns cns blks before e) -> no_overlap (map snd g) -> exists m, tiles (map snd g) (f_cols l) m.
Proof. exact formex_tiles. Qed.
(** ... in particular when no cell spans rows. *)
Theorem C72_cals_flat : forall o e t l g, no_brace (pc_ns o) -> regular (pc_ns o) e -> parse_table o e = Ok t -> laid_out (pc_ns o) true e l g ->
    columns_first (items (pc_ns o) e) -> (forall en, In en (entries_of (pc_ns o) (items (pc_ns o) e)) -> attribute (pc_ns o) en "morerows" = None) ->
    exists m, tiles (map snd g) (l_cols l) m.
Proof.
  intros o e t l g Hb Hreg E HL HC HF. apply (cals_tiles _ _ _ _ _ HL HC). pose proof (C41_no_overlap_partial o e t Hb Hreg E (or_introl HF)) as HN.
  destruct (C55_layout _ _ _ Hb Hreg E) as (l0 & g0 & HL0 & (cs & HP & HX) & _). destruct (C55_one_layout _ _ _ _ _ _ _ HL HL0) as [<- <-].
  refine (no_overlap_boxes cs _ _ (no_overlap_shuffle _ _ (Permutation_sym HP) HN)). clear - HX.
  induction HX as [|c s cs g H F IH]; cbn; [reflexivity|]. rewrite IH. destruct H as (_ & _ & -> & _). reflexivity.
Qed.
Theorem C72_formex_flat : forall o parent blks before e t l g, proper_corpus (pf_ns o) (pf_cals_ns o) e -> parse_formex o parent blks before e = Ok t ->
    flaid_out (pf_ns o) (pf_cals_ns o) (pf_embed o) true blks before e l g -> fcolumns_first (fitems (pf_ns o) (pf_cals_ns o) blks before e) ->
    (forall b row c, In (FLine b row) (fitems (pf_ns o) (pf_cals_ns o) blks before e) -> In c (of_name (pf_ns o) "CELL" (x_children row)) ->
       attribute (pf_ns o) c "ROWSPAN" = None /\ attribute (pf_cals_ns o) c "morerows" = None) ->
    exists m, tiles (map snd g) (f_cols l) m.
Proof.
  intros o parent blks before e t l g Hreg E HL HC HF. apply (formex_tiles _ _ _ _ _ _ _ _ _ HL HC). pose proof (C63_no_overlap_partial o parent blks before e t Hreg E HF) as HN.
  destruct (C62_layout _ _ _ _ _ _ Hreg E) as (l0 & g0 & HL0 & (cs & HP & HX) & _). destruct (C62_one_layout _ _ _ _ _ _ _ _ _ _ _ HL HL0) as [<- <-].
  refine (no_overlap_boxes cs _ _ (no_overlap_shuffle _ _ (Permutation_sym HP) HN)). clear - HX.
  induction HX as [|c s cs g H F IH]; cbn; [reflexivity|]. rewrite IH. destruct H as (_ & _ & -> & _). reflexivity.
Qed.
(** A column which is declared after the rows makes the table wider than its cells. *)
Definition doc_late : xnode :=
  el "table" [] [el "tgroup" [] [el "tbody" [] [el "row" [] [el "entry" [] []]]; el "colspec" [("colnum", "3")] []]].
Theorem C72_rectangle_refuted : exists e t l g, regular None e /\ parse_table o0 e = Ok t /\ laid_out None true e l g /\ no_overlap (map snd g) /\
    l_cols l = 3 /\ forall n m, tiles (map snd g) n m -> n = 1 /\ m = 1.
Proof.
  assert (HR : regular None doc_late) by T_CalsParser.regular_tac.
  assert (HX : exists t, parse_table o0 doc_late = Ok t) by (eexists; vm_compute; reflexivity). destruct HX as (t & Et).
  destruct (C55_layout o0 doc_late t ltac:(intros u H; discriminate) HR Et) as (l & g & HL & (cs & HP & HX) & HC & _).
  assert (HT : tiles (map snd g) 1 1).
  { refine (tiles_back (shows None) snd cs _ g 1 1 HP HX _ _); [intros c s H; apply H|]. apply tilesb_tiles. clear - Et. vm_compute in Et. injection Et as <-. reflexivity. }
  exists doc_late, t, l, g. split; [exact HR|]. split; [exact Et|]. split; [exact HL|]. split; [apply HT|]. split.
  - eapply view_count_fun; [exact HC|]. clear - Et. vm_compute in Et; injection Et as <-. eexists; split; vm_compute; reflexivity.
  - intros n m (Hn & Hm & _ & _ & HS & HV). destruct HT as (_ & _ & _ & _ & HS1 & _).
    destruct (HV (Coord n m)) as (c & Hc & Hcov); [unfold covers; cbn; lia|]. specialize (HS1 c Hc _ Hcov). unfold covers in HS1. cbn in HS1. lia.
Qed.

(** ** Examples *)

Definition entry_ (attrs : dict string) (s : string) : xnode := say "entry" attrs s.
Definition doc_conv : xnode :=
  el "table" [("frame", "topbot"); ("tabstyle", "my table")] [
    el "tgroup" [("colsep", "1")] [
      el "colspec" [("colnum", "1"); ("colwidth", "20mm")] []; el "colspec" [("colnum", "2"); ("align", "char")] [];
      el "thead" [("valign", "top")] [
        el "row" [] [entry_ [("namest", "c1"); ("nameend", "c2"); ("align", "center"); ("colsep", "0")] "a"; entry_ [("rowsep", "0")] "b"]];
      el "tbody" [] [
        el "row" [("bgcolor", "red")] [entry_ [("morerows", "1")] "c"; el "entry" [] []];
        el "row" [] [entry_ [("colsep", "0")] "d"; entry_ [] "e"]]]].
Definition kw_conv : kwargs := MkKwargs None None None false [] true false None false (fun _ => "0").
Definition of_conv : pfmx_opts := MkPFmxOpts None (Some CALS_NS) false.
Ltac no_node H := vm_compute in H; repeat (destruct H as [H|H]; [discriminate H|]); destruct H.
Lemma plain_back ns cs cells g (K : xnode -> Prop) : Permutation cs cells -> Forall2 (shows ns) cs g ->
  (forall c n, In c cells -> In (Node n) (content_pieces (c_content c)) -> K n) ->
  forall c n, In c (map snd g) -> In (Node n) (content_pieces (c_content c)) -> K n.
Proof.
  intros HP HX HK c n Hc Hn. apply in_map_iff in Hc as (s & <- & Hs). destruct (proj2 (Forall2_in_both _ _ _ HX) s Hs) as (d & Hd & H).
  apply (HK d n); [apply (Permutation_in _ HP), Hd|]. rewrite (spot_pieces _ _ _ H). exact Hn.
Qed.
Example C72_cals2formex_ex : exists l g e' corpus t', let ns := cals_space kw_conv in
    no_brace ns /\ regular ns doc_conv /\ laid_out ns true doc_conv l g /\ tiles (map snd g) (l_cols l) 3 /\ columns_first (items ns doc_conv) /\
    plain_nodes (pf_cals_ns of_conv) (map snd g) /\ formex_cals_space kw_conv = pf_cals_ns of_conv /\
    cals2formex kw_conv 1 doc_conv = Ok e' /\ x_children e' = [corpus] /\ parse_formex of_conv (Some e') 0 [] corpus = Ok t' /\
    map (fun c => (c_box c, content_pieces (c_content c))) (table_iter t') =
      [(MkBox (Coord 1 1) (Coord 2 1), [Char "a"%char]); (MkBox (Coord 3 1) (Coord 3 1), [Char "b"%char]); (MkBox (Coord 1 2) (Coord 1 3), [Char "c"%char]);
       (MkBox (Coord 2 2) (Coord 2 2), []); (MkBox (Coord 3 2) (Coord 3 2), []); (MkBox (Coord 2 3) (Coord 2 3), [Char "d"%char]); (MkBox (Coord 3 3) (Coord 3 3), [Char "e"%char])].
Proof.
  assert (HR : regular None doc_conv) by T_CalsParser.regular_tac.
  assert (HX : exists t, parse_table (cals_parser kw_conv) doc_conv = Ok t) by (eexists; vm_compute; reflexivity). destruct HX as (t & Et).
  destruct (C55_layout (cals_parser kw_conv) doc_conv t ltac:(intros u H; discriminate) HR Et) as (l & g & HL & (cs & HP & HX) & HC & _).
  assert (En : l_cols l = 3).
  { eapply view_count_fun; [exact HC|]. clear - Et. vm_compute in Et; injection Et as <-. eexists; split; vm_compute; reflexivity. }
  exists l, g. do 3 eexists. cbn zeta. split; [intros u H; discriminate|]. split; [exact HR|]. split; [exact HL|]. split.
  { rewrite En. refine (tiles_back (shows None) snd cs _ g 3 3 HP HX _ _); [intros c s H; apply H|]. apply tilesb_tiles. clear - Et. vm_compute in Et. injection Et as <-. reflexivity. }
  split.
  { eexists (firstn 2 (items None doc_conv)), (skipn 2 (items None doc_conv)). split; [reflexivity|]. split; [reflexivity|].
    intros c Hc. vm_compute in Hc. repeat (destruct Hc as [Hc|Hc]; [discriminate Hc|]). destruct Hc. }
  split.
  { unfold plain_nodes. refine (plain_back _ _ _ _ _ HP HX _). clear - Et. vm_compute in Et. injection Et as <-. intros c n Hc Hn. vm_compute in Hc.
    repeat (destruct Hc as [<-|Hc]; [exfalso; no_node Hn|]). destruct Hc. }
  split; [reflexivity|]. split; [vm_compute; reflexivity|]. split; [reflexivity|]. split; vm_compute; reflexivity.
Qed.
Lemma grouped_check sorting natures (m : Z) : In "body" sorting ->
  forallb (fun p => forallb (fun q => (q <? p) || (sorting_key sorting (natures p) <=? sorting_key sorting (natures q))) (zrange 1 (m + 1))) (zrange 1 (m + 1)) = true ->
  natures_grouped sorting natures m.
Proof.
  intros Hb H p q j k Hp Hq Hj Hk. apply sorting_key_spec in Hj; [|exact Hb]. apply sorting_key_spec in Hk; [|exact Hb].
  rewrite forallb_forall in H. specialize (H p ltac:(apply P_Geometry.in_zrange; lia)). rewrite forallb_forall in H. specialize (H q ltac:(apply P_Geometry.in_zrange; lia)).
  apply orb_true_iff in H as [H|H]; [apply Z.ltb_lt in H; lia|apply Z.leb_le in H; lia].
Qed.
Definition kw_back : kwargs := MkKwargs (Some (Some "cals")) (Some "c") (Some "pt") true ["header"; "body"; "footer"] true false None false (fun _ => "0").
Definition pc_back : pcals_opts := MkPCalsOpts (Some "cals") "pt" (fun _ => "0").
Example C72_formex2cals_ex : exists l g e' t', let ns := formex_space kw_back in let cns := cals_space kw_back in
    proper_corpus ns cns corpus_full /\ flaid_out ns cns false true 0 notes_full corpus_full l g /\ tiles (map snd g) (f_cols l) 5 /\
    fcolumns_first (fitems ns cns 0 notes_full corpus_full) /\ plain_contents cns (map snd g) /\
    natures_grouped (kw_sorting kw_back) (nature_at (frow_items ns cns (fitems ns cns 0 notes_full corpus_full))) 5 /\ no_brace cns /\
    formex2cals kw_back (Some tbl_full) 0 notes_full corpus_full = Ok e' /\ parse_table pc_back e' = Ok t' /\
    map (fun c => (c_box c, content_pieces (c_content c), c_nature c)) (table_iter t') =
      [(MkBox (Coord 1 1) (Coord 2 1), [Char "a"%char], Some "header"); (MkBox (Coord 3 1) (Coord 3 1), [Char "b"%char], Some "header");
       (MkBox (Coord 1 2) (Coord 2 2), [Char "t"%char], Some "body"); (MkBox (Coord 3 2) (Coord 3 2), [], Some "body");
       (MkBox (Coord 1 3) (Coord 1 4), [Char "c"%char], Some "body"); (MkBox (Coord 2 3) (Coord 2 3), [], Some "body"); (MkBox (Coord 3 3) (Coord 3 3), [], Some "body");
       (MkBox (Coord 2 4) (Coord 2 4), [Char "d"%char], Some "body"); (MkBox (Coord 3 4) (Coord 3 4), [], Some "body");
       (MkBox (Coord 1 5) (Coord 3 5), [], Some "footer")].
Proof.
  pose proof corpus_full_proper as HR.
  assert (HX : exists t, parse_formex (formex_parser kw_back) (Some tbl_full) 0 notes_full corpus_full = Ok t) by (eexists; vm_compute; reflexivity). destruct HX as (t & Et).
  destruct (C62_layout (formex_parser kw_back) (Some tbl_full) 0 notes_full corpus_full t HR Et) as (l & g & HL & (cs & HP & HX) & HC & _).
  assert (En : f_cols l = 3).
  { eapply view_count_fun; [exact HC|]. clear - Et. vm_compute in Et; injection Et as <-. eexists; split; vm_compute; reflexivity. }
  exists l, g. do 2 eexists. cbn zeta. split; [exact HR|]. split; [exact HL|]. split.
  { rewrite En. refine (tiles_back displays snd cs _ g 3 5 HP HX _ _); [intros c s H; apply H|]. apply tilesb_tiles. clear - Et. vm_compute in Et. injection Et as <-. reflexivity. }
  split.
  { eexists (firstn 2 (fitems None (Some "cals") 0 notes_full corpus_full)), (skipn 2 (fitems None (Some "cals") 0 notes_full corpus_full)). split; [reflexivity|]. split.
    - intros i Hi. vm_compute in Hi. destruct Hi as [<-|[<-|[]]]; eauto.
    - intros c Hc. vm_compute in Hc. repeat (destruct Hc as [Hc|Hc]; [discriminate Hc|]). destruct Hc. }
  split.
  { intros c n Hc Hn. exfalso. apply in_map_iff in Hc as (s & <- & Hs). destruct (proj2 (Forall2_in_both _ _ _ HX) s Hs) as (d & Hd & H).
    apply (Permutation_in _ HP) in Hd. rewrite <- (proj1 H) in Hn. clear - Et Hd Hn. vm_compute in Et. injection Et as <-. vm_compute in Hd.
    repeat (destruct Hd as [<-|Hd]; [no_node Hn|]). destruct Hd. }
  split; [apply grouped_check; [cbn; tauto|vm_compute; reflexivity]|]. split; [intros u [= <-] H; vm_compute in H; repeat (destruct H as [H|H]; [discriminate H|]); destruct H|].
  split; [vm_compute; reflexivity|]. split; vm_compute; reflexivity.
Qed.
(** The Word table of C49 *)
Definition ex_cols : list xnode := repeat (T_Ooxml.w "gridCol" [("w", "400")] []) 3.
Lemma ex_nodes (K : xnode -> Prop) : (forall s, K (T_Ooxml.text_p s)) -> forall ct na b n,
  S_Ooxml.displayed (Z.of_nat (List.length ex_cols)) T_Ooxml.ex_rows ct na b -> In (Node n) (content_pieces ct) -> K n.
Proof.
  intros HK ct na b n HD Hn.
  assert (HX : exists t, ox_parse_table (T_Ooxml.opts (Some T_Ooxml.ex_sheet)) None T_Ooxml.ex_tbl = Ok t) by (eexists; vm_compute; reflexivity). destruct HX as (t & Et).
  apply (T_Ooxml.C49_layout _ _ _ _ _ _ _ T_Ooxml.ex_word T_Ooxml.ex_reads T_Ooxml.ex_regular Et) in HD as (st & Hc). clear - HK Et Hc Hn.
  vm_compute in Et. injection Et as <-. vm_compute in Hc.
  repeat (destruct Hc as [[= <- _ _ _]|Hc]; [vm_compute in Hn; repeat (destruct Hn as [[= <-]|Hn]; [apply HK|]); destruct Hn|]). destruct Hc.
Qed.
Ltac word_names := let name := fresh in let Hin := fresh in let Hna := fresh in
  intros (name & Hin & Hna); cbn [cals_names fmx_names In] in Hin; repeat (destruct Hin as [<-|Hin]; [discriminate Hna|]); destruct Hin.
Example C72_ooxml2cals_ex : exists e' t', let ox := T_Ooxml.opts (Some T_Ooxml.ex_sheet) in
    S_Ooxml.word_table T_Ooxml.ex_tbl ex_cols T_Ooxml.ex_trs /\ Forall2 S_Ooxml.row_reads T_Ooxml.ex_trs T_Ooxml.ex_rows /\ S_Ooxml.regular T_Ooxml.ex_rows /\
    S_ConvertWord.word_rectangle ex_cols T_Ooxml.ex_rows /\
    (forall ct na b n, S_Ooxml.displayed (Z.of_nat (List.length ex_cols)) T_Ooxml.ex_rows ct na b -> In (Node n) (content_pieces ct) -> foreign None n) /\
    natures_grouped (order_of kw0) (S_ConvertWord.word_nature T_Ooxml.ex_rows) 3 /\
    ooxml2cals kw0 ox None T_Ooxml.ex_tbl = Ok e' /\ parse_table o0 e' = Ok t' /\
    map (fun c => (c_box c, content_pieces (c_content c), c_nature c)) (table_iter t') =
      [(MkBox (Coord 1 1) (Coord 2 1), [Node (T_Ooxml.text_p "a")], Some "header"); (MkBox (Coord 3 1) (Coord 3 2), [Node (T_Ooxml.text_p "b")], Some "header");
       (MkBox (Coord 1 2) (Coord 1 2), [Node (T_Ooxml.text_p "c")], Some "body"); (MkBox (Coord 2 2) (Coord 2 2), [Node (T_Ooxml.text_p "d")], Some "body");
       (MkBox (Coord 1 3) (Coord 1 3), [Node (T_Ooxml.text_p "e")], Some "body"); (MkBox (Coord 2 3) (Coord 2 3), [], Some "body"); (MkBox (Coord 3 3) (Coord 3 3), [], Some "body")].
Proof.
  do 2 eexists. cbn zeta. split; [exact T_Ooxml.ex_word|]. split; [exact T_Ooxml.ex_reads|]. split; [exact T_Ooxml.ex_regular|].
  split; [split; [discriminate|]; split; [discriminate|]; repeat (apply Forall_cons; [vm_compute; discriminate|]); apply Forall_nil|].
  split; [apply ex_nodes; intros s; constructor; [word_names|]; intros c [<-|[]]; constructor; [word_names|intros ? []]|].
  split; [apply grouped_check; [cbn; tauto|vm_compute; reflexivity]|].
  split; [vm_compute; reflexivity|]. split; vm_compute; reflexivity.
Qed.
Example C72_ooxml2formex_ex : exists e' corpus t', let ox := T_Ooxml.opts (Some T_Ooxml.ex_sheet) in
    S_ConvertWord.word_rectangle ex_cols T_Ooxml.ex_rows /\
    (forall ct na b n, S_Ooxml.displayed (Z.of_nat (List.length ex_cols)) T_Ooxml.ex_rows ct na b -> In (Node n) (content_pieces ct) ->
       stranger None (pf_cals_ns of_conv) n /\ x_tag n <> Some "IE") /\
    ooxml2formex kw_conv ox None 1 T_Ooxml.ex_tbl = Ok e' /\ x_children e' = [corpus] /\ parse_formex of_conv (Some e') 0 [] corpus = Ok t' /\
    map (fun c => (c_box c, content_pieces (c_content c))) (table_iter t') =
      [(MkBox (Coord 1 1) (Coord 2 1), [Node (T_Ooxml.text_p "a")]); (MkBox (Coord 3 1) (Coord 3 2), [Node (T_Ooxml.text_p "b")]);
       (MkBox (Coord 1 2) (Coord 1 2), [Node (T_Ooxml.text_p "c")]); (MkBox (Coord 2 2) (Coord 2 2), [Node (T_Ooxml.text_p "d")]);
       (MkBox (Coord 1 3) (Coord 1 3), [Node (T_Ooxml.text_p "e")]); (MkBox (Coord 2 3) (Coord 2 3), []); (MkBox (Coord 3 3) (Coord 3 3), [])].
Proof.
  do 3 eexists. cbn zeta. split; [split; [discriminate|]; split; [discriminate|]; repeat (apply Forall_cons; [vm_compute; discriminate|]); apply Forall_nil|].
  split; [apply ex_nodes; intros s; split; [|discriminate]; constructor; [no_elem|]; intros c [<-|[]]; constructor; [no_elem|intros ? []]|].
  split; [vm_compute; reflexivity|]. split; [reflexivity|]. split; vm_compute; reflexivity.
Qed.

(** ** What is lost *)

(** The line which a cell of a Formex table has at its right is lost in CALS: the parser and the builder do not
    give the same name to it.  Neither the entry nor the table has a line. *)
Definition corpus_line : xnode := fel "CORPUS" [] [fel "ROW" [] [say "CELL" [("{cals}colsep", "1")] "a"; say "CELL" [] "b"]].
Theorem C72_lines_refuted : exists kw p e e' t t' c c', formex2cals kw None 0 [] e = Ok e' /\
    parse_formex (formex_parser kw) None 0 [] e = Ok t /\ parse_table p e' = Ok t' /\ pc_ns p = pf_cals_ns (formex_parser kw) /\
    In c (table_iter t) /\ dget (c_styles c) "x-cell-border-right" = Some (SStr "solid 1pt black") /\
    In c' (table_iter t') /\ c_box c' = c_box c /\ c_content c' = c_content c /\
    forall k v, In k ["border-right"; "x-cell-border-right"] -> dget (c_styles c') k = Some (SStr v) \/ dget (t_styles t') k = Some (SStr v) -> v <> "solid 1pt black".
Proof.
  exists kw_back, pc_back, corpus_line. do 5 eexists. split; [vm_compute; reflexivity|]. split; [vm_compute; reflexivity|]. split; [vm_compute; reflexivity|].
  split; [reflexivity|]. split; [left; reflexivity|]. split; [vm_compute; reflexivity|]. split; [left; reflexivity|]. split; [reflexivity|]. split; [reflexivity|].
  intros k v [<-|[<-|[]]] H; vm_compute in H; destruct H as [H|H]; try discriminate H; injection H as <-; discriminate.
Qed.
(** A footer becomes an ordinary row. *)
Theorem C72_footer_refuted : exists e e' corpus t', regular None e /\ cals2formex kw0 1 e = Ok e' /\ x_children e' = [corpus] /\
    parse_formex of_conv (Some e') 0 [] corpus = Ok t' /\ map (fun x => fst (fst x)) (row_items (items None e)) = ["footer"; "body"] /\
    map c_nature (table_iter t') = [Some "body"; Some "body"].
Proof.
  exists (el "table" [] [el "tgroup" [] [el "tfoot" [] [el "row" [] [entry_ [] "a"]]; el "tbody" [] [el "row" [] [entry_ [] "b"]]]]). do 3 eexists.
  split; [T_CalsParser.regular_tac|]. split; [vm_compute; reflexivity|]. split; [reflexivity|]. split; [vm_compute; reflexivity|]. split; vm_compute; reflexivity.
Qed.
(** The CALS attributes which cals2formex writes by default are not read by a Formex parser with the same options:
    the default name spaces of the builder and of the parser are not the same. *)
Theorem C72_namespace_refuted : exists kw e e' corpus t t' c c', kw_cals_ns kw = None /\ kw_use_cals kw = true /\ regular None e /\ cals2formex kw 1 e = Ok e' /\ x_children e' = [corpus] /\
    parse_formex of_conv (Some e') 0 [] corpus = Ok t /\ parse_formex (formex_parser kw) (Some e') 0 [] corpus = Ok t' /\
    table_iter t = [c] /\ dget (c_styles c) "align" = Some (SStr "center") /\ table_iter t' = [c'] /\ dget (c_styles c') "align" = None.
Proof.
  exists kw_conv, (el "table" [] [el "tgroup" [] [el "tbody" [] [el "row" [] [entry_ [("align", "center")] "a"]]]]). do 6 eexists.
  split; [reflexivity|]. split; [reflexivity|]. split; [T_CalsParser.regular_tac|]. split; [vm_compute; reflexivity|]. split; [reflexivity|].
  split; [vm_compute; reflexivity|]. split; [vm_compute; reflexivity|]. split; [vm_compute; reflexivity|]. split; [vm_compute; reflexivity|]. split; vm_compute; reflexivity.
Qed.

Print Assumptions C72_cals2formex_partial.
Print Assumptions C72_formex2cals_partial.
Print Assumptions C72_ooxml2cals_partial.
Print Assumptions C72_ooxml2formex_partial.
Print Assumptions C72_cals_rectangle.
Print Assumptions C72_formex_rectangle.
Print Assumptions C72_cals_flat.
Print Assumptions C72_formex_flat.
Print Assumptions C72_rectangle_refuted.
Print Assumptions C72_lines_refuted.
Print Assumptions C72_footer_refuted.
Print Assumptions C72_namespace_refuted.
