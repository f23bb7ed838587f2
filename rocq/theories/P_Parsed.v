(** * The tables made by the parsers: the number of rows *)
From Coq Require Import QArith.
From Verif Require Import Base M_Geometry M_Xml M_Cell M_Grid M_Table M_Str M_Units M_Cals M_CalsParser M_FormexParser M_FormexRead M_Ooxml.
From Verif Require Import S_Geometry S_Grid S_Table S_Units S_Cals S_Int S_CalsParser S_RoundTrip S_FormexRead.
From Verif Require Import P_Geometry P_Grid P_GridFacts P_Table P_TableStep P_TableFacts P_TableRefine P_TableMore P_Cals P_CalsParser P_CalsLayout P_CalsSim P_CalsTable P_Reading P_FormexSim P_FormexMore P_RoundTripMain P_Fit P_Height.
From Verif Require Import T_CalsParser T_FormexRead.
From Verif Require S_Ooxml P_OoxmlLayout T_Ooxml.
Open Scope list_scope.
Open Scope Z_scope.

(** ** The last row has a cell *)
Lemma filled_all bb na g g' k : filled bb na g g' -> covers bb k -> exists s, In s g' /\ covers (c_box (snd s)) k.
Proof.
  intros (ks & Hsel & ->) Hk. apply area_in in Hk. destruct (freeb (map snd g) k) eqn:Ef.
  - apply freeb_free in Ef. exists (None, bare CNone na (MkBox k k)). split; [|unfold covers; cbn; lia]. apply in_app_iff. left.
    apply in_map_iff. exists k. split; [reflexivity|]. apply (selects_In _ _ _ _ Hsel). auto.
  - destruct (Exists_dec (fun s => covers (c_box (snd s)) k) g) as [Hy|Hn].
    + intros s. unfold covers. destruct (Z_le_dec (cx (bmin (c_box (snd s)))) (cx k)), (Z_le_dec (cx k) (cx (bmax (c_box (snd s))))),
        (Z_le_dec (cy (bmin (c_box (snd s)))) (cy k)), (Z_le_dec (cy k) (cy (bmax (c_box (snd s))))); (left; lia) || (right; lia).
    + apply Exists_exists in Hy as (s & Hs & Hc). exists s. split; [apply in_app_iff; right; exact Hs|exact Hc].
    + exfalso. assert (freeb (map snd g) k = true); [|congruence]. apply freeb_free. intros d Hd Hcov. apply Hn, Exists_exists.
      apply in_map_iff in Hd as (s & <- & Hs). eauto.
Qed.
Lemma lays_last ns watch its l l' : lays ns watch its l l' ->
  (1 <= l_row l -> exists s, In s (l_spots l) /\ covers (c_box (snd s)) (Coord 1 (l_row l))) ->
  (1 <= l_row l' -> exists s, In s (l_spots l') /\ covers (c_box (snd s)) (Coord 1 (l_row l'))).
Proof.
  intros HL. induction HL as [l|c its r k n g cs m l' Hm H IH|na sec row its r k n g cs n1 g1 g2 l' Hp Hn Hf H IH]; intros Hs; [exact Hs|apply IH; exact Hs|].
  apply IH. intros _. cbn [l_row l_spots]. apply (filled_all _ _ _ _ _ Hf). unfold covers. cbn. lia.
Qed.
Lemma settles_grows ns watch e g g' : settles ns watch e g g' -> grows g g'.
Proof. intros [e0 n bb g1 _ _ _ _ _ Hc|_]; [apply (covered_grows _ _ _ _ Hc)|intros s Hs; exact Hs]. Qed.
Lemma flays_last ns cns em watch its l l' : flays ns cns em watch its l l' -> 0 <= f_row l ->
  (1 <= f_row l -> exists s x, In s (f_tiles l) /\ covers (c_box (snd s)) (Coord x (f_row l))) ->
  (1 <= f_row l' -> exists s x, In s (f_tiles l') /\ covers (c_box (snd s)) (Coord x (f_row l'))).
Proof.
  intros HL. induction HL as [l|c its r k n g cs m l' Hm H IH|b e its r k n g cs qs n1 g1 g2 l' Ha Hp Hn Hf H IH|e its r k n g cs bb n1 g1 l' Hb Hp H IH];
    intros H0 Hs; cbn [f_row f_tiles] in *; [exact Hs|apply IH; [exact H0|exact Hs]| |].
  - apply IH; [lia|]. intros _. destruct (covered_all _ _ _ _ (Coord 1 (r + 1)) Hf) as (s & Hin & Hcov); [unfold covers; cbn; lia|]. eauto.
  - apply IH; [lia|]. intros _. apply seated_inv in Hp as (i & g2 & Hw & Hh & Hfree & _ & Hset & Hrest). inversion Hrest; subst.
    eexists. exists i. split; [apply (settles_grows _ _ _ _ _ Hset); left; reflexivity|]. cbn [snd bare c_box]. unfold covers, seat. cbn in *. lia.
Qed.

(** ** The counts *)
Lemma tiles_boxes cells cells' n m : (forall b, In b (map c_box cells) <-> In b (map c_box cells')) -> no_overlap cells' -> tiles cells n m -> tiles cells' n m.
Proof.
  intros HB HN (Hn & Hm & HV & _ & HS & HC). split; [exact Hn|]. split; [exact Hm|].
  assert (Hto : forall c, In c cells' -> exists d, In d cells /\ c_box d = c_box c).
  { intros c Hc. assert (Hin : In (c_box c) (map c_box cells')) by (apply in_map, Hc). apply HB in Hin. apply in_map_iff in Hin as (d & E & Hd). eauto. }
  split.
  { unfold all_valid in *. rewrite Forall_forall in *. intros c Hc. destruct (Hto c Hc) as (d & Hd & <-). apply HV, Hd. }
  split; [exact HN|]. split.
  - intros c Hc. destruct (Hto c Hc) as (d & Hd & <-). apply HS, Hd.
  - intros k Hk. destruct (HC k Hk) as (c & Hc & Hcov). assert (Hin : In (c_box c) (map c_box cells)) by (apply in_map, Hc).
    apply HB in Hin. apply in_map_iff in Hin as (d & E & Hd). exists d. split; [exact Hd|]. rewrite E. exact Hcov.
Qed.
Lemma no_overlap_boxes cells cells' : map c_box cells = map c_box cells' -> no_overlap cells -> no_overlap cells'.
Proof.
  unfold no_overlap. revert cells'. induction cells as [|c l IH]; intros [|c' l'] E F; try discriminate; [constructor|].
  cbn in E. injection E as E1 E2. inversion F as [|? ? Hc F']; subst. constructor; [|apply IH; assumption].
  rewrite Forall_forall in *. intros d' Hd'. assert (Hin : In (c_box d') (map c_box l)) by (rewrite E2; apply in_map, Hd').
  apply in_map_iff in Hin as (d & Ed & Hd). specialize (Hc d Hd). rewrite Ed, E1 in Hc. exact Hc.
Qed.
Lemma no_overlap_shuffle l m : Permutation l m -> no_overlap l -> no_overlap m.
Proof.
  unfold no_overlap. induction 1 as [|x l m H IH|x y l|l m k H1 IH1 H2 IH2]; intros F; [exact F| | |auto].
  - inversion F as [|? ? Hx F']; subst. constructor; [|apply IH, F']. rewrite Forall_forall in *. intros b Hb. apply Hx. apply (Permutation_in b (Permutation_sym H)), Hb.
  - inversion F as [|? ? Hy F']; subst. inversion F' as [|? ? Hx F'']; subst. inversion Hy as [|? ? Hxy Hy']; subst.
    constructor; [|constructor; assumption]. constructor; [|exact Hx]. intros (k & K1 & K2). apply Hxy. exists k. auto.
Qed.
(** Tiles in another order, with the same boxes *)
Lemma tiles_alike {A} (R : cell -> A -> Prop) (f : A -> cell) l cells g n m :
  Permutation l cells -> Forall2 R l g -> (forall c a, R c a -> c_box c = c_box (f a)) -> tiles (map f g) n m -> tiles cells n m.
Proof.
  intros HP HF HR HT. assert (E : map c_box (map f g) = map c_box l).
  { clear - HF HR. induction HF as [|c a l g H F IH]; cbn; [reflexivity|]. rewrite IH, (HR c a H). reflexivity. }
  apply (tiles_boxes (map f g)); [|apply (no_overlap_shuffle l _ HP), (no_overlap_boxes _ _ E), HT|exact HT].
  intros b. rewrite E. split; intros H; [apply (Permutation_in _ (Permutation_map c_box HP)), H|apply (Permutation_in _ (Permutation_map c_box (Permutation_sym HP))), H].
Qed.
Lemma tiles_rows t n m k : treachable t -> rowcap k t -> k <= m -> tiles (table_iter t) n m -> view_count Rows t m.
Proof.
  intros HR HC Hk (Hn & Hm & HV & _ & HS & HX). unfold all_valid in HV. rewrite Forall_forall in HV. apply (rowcap_count k); auto; [lia| |].
  - intros c Hc. specialize (HS c Hc (bmax (c_box c))). specialize (HV c Hc). unfold covers, valid in *. cbn in HS. lia.
  - right. destruct (HX (Coord 1 m)) as (c & Hc & Hcov); [unfold covers; cbn; lia|]. exists c. split; [exact Hc|].
    specialize (HS c Hc (bmax (c_box c))). specialize (HV c Hc). unfold covers, valid in *. cbn in *. lia.
Qed.

(** ** The three parsers *)
Record well_read (t : table) (n m : Z) : Prop := {
  wr_reach : treachable t; wr_ordered : rows_ordered t; wr_tiles : tiles (table_iter t) n m;
  wr_cols : view_count Cols t n; wr_rows : view_count Rows t m }.
Lemma cals_well_read o e t l g m : no_brace (pc_ns o) -> regular (pc_ns o) e -> laid_out (pc_ns o) true e l g ->
  tiles (map snd g) (l_cols l) m -> parse_table o e = Ok t -> well_read t (l_cols l) m /\ pictures (pc_ns o) (table_iter t) g.
Proof.
  intros Hb Hreg HL HT E. pose proof (parse_table_sim o Hb e Hreg) as H. rewrite E in H. destruct H as (l' & g' & HL' & HA & He).
  destruct (C55_one_layout _ _ _ _ _ _ _ HL HL') as [<- <-]. destruct (cals_rowcap _ _ _ _ He) as (HR & HC & H0).
  pose proof (ag_cells _ _ _ _ _ _ HA) as HP. split; [|exact HP]. destruct HP as (cs & HP & HF).
  assert (HT' : tiles (table_iter t) (l_cols l) m) by (refine (tiles_alike (shows (pc_ns o)) snd cs _ g _ _ HP HF _ HT); intros c s H; apply H).
  destruct (cals_closed _ fit_closed o e t E) as (_ & F). split; [exact HR|apply fit_ordered, F|exact HT'|apply colcount_count, HA|].
  refine (tiles_rows _ _ _ _ HR HC _ HT'). destruct HL as (HL & bb & _ & Hfill).
  destruct (Z_le_gt_dec (l_row l) 0) as [Hz|Hz]; [destruct HT as (_ & Hm & _); lia|].
  destruct (lays_last _ _ _ _ _ HL) as (s & Hs & Hcov); [cbn; lia|lia|].
  assert (Hin : In (snd s) (map snd g)). { apply in_map. destruct Hfill as (ks & _ & ->). apply in_app_iff. right. exact Hs. }
  destruct HT as (_ & _ & _ & _ & HS & _). specialize (HS _ Hin _ Hcov). unfold covers in HS. cbn in HS. lia.
Qed.
Lemma formex_well_read o parent b bef e t l g m : proper_corpus (pf_ns o) (pf_cals_ns o) e ->
  flaid_out (pf_ns o) (pf_cals_ns o) (pf_embed o) true b bef e l g ->
  tiles (map snd g) (f_cols l) m -> parse_formex o parent b bef e = Ok t -> well_read t (f_cols l) m /\ mosaic (table_iter t) g.
Proof.
  intros Hreg HL HT E. pose proof (parse_formex_sim o parent b bef e Hreg) as H. rewrite E in H. destruct H as (l' & g' & HL' & HA & He).
  assert (EE : l = l' /\ g = g').
  { destruct HL as (HL & bb & Hb & Hf), HL' as (HL' & bb' & Hb' & Hf'). pose proof (flays_fun _ _ _ _ _ _ _ _ HL HL') as <-.
    pose proof (bounds_fun _ _ _ Hb Hb') as <-. split; [reflexivity|]. eapply covered_fun; eassumption. }
  destruct EE as [<- <-]. destruct (formex_rowcap _ _ _ _ _ _ _ He) as (HR & HC & H0).
  pose proof (fo_cells _ _ _ _ _ HA) as HP. split; [|exact HP]. destruct HP as (cs & HP & HF).
  assert (HT' : tiles (table_iter t) (f_cols l) m) by (refine (tiles_alike displays snd cs _ g _ _ HP HF _ HT); intros c s H; apply H).
  destruct (formex_closed _ fit_closed o parent b bef e t E) as (_ & F). split; [exact HR|apply fit_ordered, F|exact HT'|apply colcount_count, HA|].
  refine (tiles_rows _ _ _ _ HR HC _ HT'). destruct HL as (HL & bb & _ & Hfill).
  destruct (Z_le_gt_dec (f_row l) 0) as [Hz|Hz]; [destruct HT as (_ & Hm & _); lia|].
  destruct (flays_last _ _ _ _ _ _ _ HL) as (s & x & Hs & Hcov); [cbn; lia|cbn; lia|lia|].
  assert (Hin : In (snd s) (map snd g)). { apply in_map. destruct Hfill as (ks & _ & ->). apply in_app_iff. right. exact Hs. }
  destruct HT as (_ & _ & _ & _ & HS & _). specialize (HS _ Hin _ Hcov). unfold covers in HS. cbn in HS. lia.
Qed.
Lemma word_well_read o sect tbl cols trs rows t : S_Ooxml.word_table tbl cols trs -> Forall2 S_Ooxml.row_reads trs rows -> S_Ooxml.regular rows ->
  Forall (fun row => S_Ooxml.row_width row <= Z.of_nat (List.length cols)) rows -> cols <> [] -> rows <> [] ->
  ox_parse_table o sect tbl = Ok t -> well_read t (Z.of_nat (List.length cols)) (Z.of_nat (List.length rows)).
Proof.
  intros HW HF HR Hwid Hc Hr E. destruct (word_rowcap o sect tbl cols trs t HW E) as [HT HC].
  destruct (word_closed _ fit_closed o sect tbl t E) as (_ & F).
  assert (Hcl : 1 <= Z.of_nat (List.length cols)) by (destruct cols; [congruence|cbn [List.length]; lia]).
  assert (Hrl : 1 <= Z.of_nat (List.length rows)) by (destruct rows; [congruence|cbn [List.length]; lia]).
  assert (HTt : tiles (table_iter t) (Z.of_nat (List.length cols)) (Z.of_nat (List.length rows))).
  { split; [exact Hcl|]. split; [exact Hrl|]. split; [exact (reach_valid t HT)|]. split; [exact (T_Ooxml.C49_no_overlap _ _ _ _ _ _ _ HW HF HR E)|].
    pose proof (T_Ooxml.C49_no_hole _ _ _ _ _ _ _ HW HF HR E Hwid) as HX. split.
    - intros c Hin [x y] Hcov. assert (HY : 1 <= x <= Z.of_nat (List.length cols) /\ 1 <= y <= Z.of_nat (List.length rows)) by (apply HX; eauto).
      unfold covers. cbn [bmin bmax cx cy]. lia.
    - intros [x y] Hcov. unfold covers in Hcov. cbn [bmin bmax cx cy] in Hcov. apply HX. lia. }
  split; [exact HT|apply fit_ordered, F|exact HTt| |].
  - destruct (T_Ooxml.word_read _ _ _ _ _ _ _ HW HF HR E) as (st & sts & cw & _ & _ & _ & _ & _ & HD).
    assert (Ew : S_Ooxml.widest (Z.of_nat (List.length cols)) rows (Z.of_nat (List.length rows)) = Z.of_nat (List.length cols)).
    { unfold S_Ooxml.widest. rewrite Nat2Z.id, firstn_all. clear - Hwid. induction Hwid as [|r l H F IH]; cbn [map fold_right]; [reflexivity|]. rewrite IH. lia. }
    rewrite <- Ew. apply colcount_count. exact (P_OoxmlLayout.rd_count _ _ _ _ _ _ HD).
  - apply (tiles_rows t (Z.of_nat (List.length cols)) _ (Z.of_nat (List.length trs)) HT HC); [|exact HTt]. assert (EL : List.length trs = List.length rows) by (clear - HF; induction HF; cbn; congruence). lia.
Qed.
