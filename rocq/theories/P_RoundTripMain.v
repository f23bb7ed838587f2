(** * Writing a CALS table and reading it back *)
From Coq Require Import QArith.
From Verif Require Import Base M_Geometry M_Xml M_Cell M_Grid M_Table M_Str M_Units M_Builder M_Cals M_CalsParser.
From Verif Require Import S_Geometry S_Grid S_Table S_Units S_Builder S_Cals S_Int S_CalsParser S_RoundTrip.
From Verif Require Import P_Geometry P_Grid P_GridFacts P_Table P_TableFacts P_TableMore P_Int P_Str P_Builder P_Cals P_CalsParser P_CalsLayout P_CalsTable P_CalsMore P_RoundTrip P_RoundTripAttrs.
From Verif Require Import T_CalsParser.
Open Scope list_scope.
Open Scope Z_scope.

Lemma tiles_bounds t n m bb : treachable t -> tiles (table_iter t) n m -> table_bounding_box t = Ok (Some bb) -> bb = MkBox (Coord 1 1) (Coord n m).
Proof.
  intros HR (Hn & Hm & HV & _ & HS & HC) Eb. destruct (bounding_box_least (table_iter t) bb HV Eb) as (Vb & H1 & H2).
  apply subarea_antisym; [exact Vb|unfold valid; cbn; lia| |].
  - apply H2; [unfold valid; cbn; lia|exact HS].
  - intros k Hk. destruct (HC k Hk) as (c & Hc & Hck). exact (H1 c Hc k Hck).
Qed.

Lemma Forall2_trans_l {A B C} (R : A -> B -> Prop) (S : B -> C -> Prop) (Q : A -> C -> Prop) l m r :
  (forall a b c, R a b -> S b c -> Q a c) -> Forall2 R l m -> Forall2 S m r -> Forall2 Q l r.
Proof.
  intros H HR. revert r. induction HR as [|a b l m Hab HR IH]; intros r HS; inversion HS; subst; constructor; eauto.
Qed.
Lemma Forall2_perm_r {A B} (R : A -> B -> Prop) l m m' : Forall2 R l m -> Permutation m m' -> exists l', Permutation l l' /\ Forall2 R l' m'.
Proof.
  intros H HP. revert l H. induction HP as [|x m m' HP IH|x y m|m m1 m2 H1 IH1 H2 IH2]; intros l H.
  - inversion H; subst. exists []. auto.
  - inversion H as [|a ? l' ? Ha Hl]; subst. destruct (IH _ Hl) as (l1 & P & F). exists (a :: l1). split; [apply perm_skip, P|constructor; assumption].
  - inversion H as [|a ? l' ? Ha Hl]; subst. inversion Hl as [|b ? l2 ? Hb Hl2]; subst. exists (b :: a :: l2). split; [apply perm_swap|constructor; [assumption|constructor; assumption]].
  - destruct (IH1 _ H) as (l1 & P1 & F1). destruct (IH2 _ F1) as (l2 & P2 & F2). exists l2. split; [eapply perm_trans; eassumption|exact F2].
Qed.

Section RoundTrip.
  Variable o : cals_opts.
  Variable p : pcals_opts.
  Variable t : table.
  Variables n m : Z.
  Variable e : xnode.
  Hypothesis HR : treachable t.
  Hypothesis HB : In "body"%string (co_sorting o).
  Hypothesis Ens : co_ns o = pc_ns p.
  Hypothesis Hbrace : no_brace (pc_ns p).
  Hypothesis Hunit : In (pc_unit p) unit_names.
  Hypothesis Hfmt : forall q, exists c, In c (list_ascii_of_string (co_fmt o q)) /\ digit c.
  Hypothesis HT : tiles (table_iter t) n m.
  Hypothesis HCn : view_count Cols t n.
  Hypothesis HRn : view_count Rows t m.
  Hypothesis HO : rows_ordered t.
  Hypothesis HG : rows_grouped (co_sorting o) t.
  Hypothesis HP : plain_contents (co_ns o) (table_iter t).
  Hypothesis HE : generate_table_tree o t = Ok e.

  Lemma round_trip : exists t', parse_table p e = Ok t' /\
    (exists l, Permutation (table_iter t') l /\
       Forall2 (fun c' c => same_cell t c' c /\ cell_styles_kept (c_styles c') (c_styles c) /\ borders_kept t' n m c' c) l (table_iter t)) /\
    view_count Cols t' n /\
    (forall r v v', 1 <= r <= m -> reads Rows r t v -> reads Rows r t' v' -> v_nature v' = Some (kept_nature (v_nature v))) /\
    table_kept t' t.
  Proof.
    destruct (generate_built o t e HR HB HE) as (cols & rows & cs & rs & Ec & Er & HTW & HDS).
    destruct (generate_attrs o t e HE) as (cs' & rs' & HA).
    assert (Ecs : cs' = cs /\ rs' = rs).
    { destruct HDS as (tg & E1 & E2 & E3). destruct HA as (tg' & f & F1 & _ & _ & _ & _ & _ & F2 & _). assert (tg' = tg) by congruence. subst tg'.
      destruct (co_in_tgroup o); [destruct F2 as (_ & _ & _ & G1 & G2 & _)|destruct F2 as (G1 & G2 & _)]; split; congruence. }
    destruct Ecs as [-> ->].
    assert (En : Z.of_nat (List.length cols) = n) by (destruct HCn as (vs & Ev & ->); unfold table_views in Ec; congruence).
    assert (Em : Z.of_nat (List.length rows) = m) by (destruct HRn as (vs & Ev & ->); unfold table_views in Er; congruence).
    rewrite En in HTW. set (D := built o (table_bounding_box t) cs rs) in *.
    assert (HD : forall c x, D c x -> describes_cell (co_ns o) c x) by (intros c x; apply built_describes).
    destruct (table_items (co_ns o) D HD n _ e HTW) as (specs & its & Eit & Hspecs & Hits).
    rewrite (sections_stay o t rows HR HB Er HG) in Hits.
    set (natf := fun r => match nth_error rows (Z.to_nat (r - 1)) with Some v => kept_nature (v_nature v) | None => ""%string end).
    destruct (table_views_spec _ _ _ HR Er) as [_ Hrd].
    assert (Hrow : forall i v, nth_error rows i = Some v -> reads Rows (0 + Z.of_nat i + 1) t v /\ natf (0 + Z.of_nat i + 1) = kept_nature (v_nature v)).
    { intros i v Hi. split; [exact (Hrd i v Hi)|]. unfold natf. replace (Z.to_nat (0 + Z.of_nat i + 1 - 1)) with i by lia. rewrite Hi. reflexivity. }
    pose proof (rows_ok_views (co_ns o) D natf t its HR HO rows 0 ltac:(lia) Hits Hrow) as HOK.
    assert (Hlen : Z.of_nat (List.length its) = m) by (rewrite <- (Forall2_len _ _ _ Hits); exact Em).
    destruct (laid_out_tiling (co_ns o) D (table_iter t) natf n m HD HT HP e specs its Eit Hspecs HOK Hlen) as (l & g & P & HL & Hcols & HF & HPm).
    assert (Hreg : regular (co_ns o) e).
    { apply (table_regular (co_ns o) D HD (table_iter t) n (sections_of o rows) e HTW HP); [destruct HT; lia|].
      intros s v c Hs Hv Hc. apply (owned_members t rows c HR Er). apply in_flat_map. exists v. split; [|exact Hc].
      rewrite <- (sections_stay o t rows HR HB Er HG). apply in_concat. exists (snd s). split; [apply in_map, Hs|exact Hv]. }
    pose proof (table_readable o p t e cs rs Ens HA Hunit Hfmt) as Hread. 
    rewrite Ens in HL, Hreg.
    destruct (C55_succeeds p e l g Hbrace Hreg Hread HL) as (t' & Et & (l' & HPl & HPf)). exists t'. split; [exact Et|].
    destruct (C55_layout p e t' Hbrace Hreg Et) as (l1 & g1 & HL1 & _ & HC1 & HRows & _).
    destruct (C55_one_layout _ _ _ _ _ _ _ HL HL1) as [<- <-]. rewrite Hcols in HC1.
    pose proof (C54_table_attributes p e t' Hreg Et) as HTA.
    split; [|split; [exact HC1|split]].
    - assert (HFin : forall s c, shown_by D natf s c -> In c (table_iter t) -> forall c', shows (pc_ns p) c' s ->
         same_cell t c' c /\ cell_styles_kept (c_styles c') (c_styles c) /\ borders_kept t' n m c' c).
      { intros s c (en & -> & Hen) Hin c' (S1 & S2 & S3 & S4). cbn [fst snd bare c_content c_nature c_box] in *. split; [|split].
        - split; [exact S3|]. split; [rewrite S1, content_read; apply (HD _ _ Hen)|].
          assert (Hr : 1 <= row_of c <= m).
          { destruct HT as (_ & _ & HV & _ & HS & _). unfold all_valid in HV. rewrite Forall_forall in HV. specialize (HV c Hin). unfold valid in HV.
            pose proof (HS c Hin (bmin (c_box c))) as H1. unfold covers in H1. cbn in H1. lia. }

          destruct (nth_error rows (Z.to_nat (cy (bmin (c_box c)) - 1))) as [v|] eqn:Ev; [|apply nth_error_None in Ev; lia].
          destruct (Hrow _ v Ev) as [Hv1 Hv2]. replace (0 + Z.of_nat (Z.to_nat (cy (bmin (c_box c)) - 1)) + 1) with (cy (bmin (c_box c))) in * by lia.
          exists v. split; [exact Hv1|]. rewrite S2, Hv2. reflexivity.
        - destruct Hen as (b & _ & Hb). rewrite <- Ens in S4. eapply entry_styles_kept; [eapply build_cell_attrs, Hb|exact S4].
        - destruct Hen as (b & Eb & Hb). destruct b as [b|]; [|discriminate Hb]. pose proof (tiles_bounds t n m b HR HT Eb) as ->.
          apply build_cell_separated in Hb. rewrite <- Ens in S4. eapply border_back; eassumption. }
      destruct (Forall2_perm_r _ _ _ _ HF HPm) as (g' & Pg & Fg).
      assert (HPg : exists l2, Permutation l' l2 /\ Forall2 (shows (pc_ns p)) l2 g') by (apply (Forall2_perm_r _ l' g g' HPf Pg)).
      destruct HPg as (l2 & Pl2 & Fl2). exists l2. split; [eapply perm_trans; [apply Permutation_sym, HPl|exact Pl2]|].
      assert (HF3 : Forall2 (fun s c => shown_by D natf s c /\ In c (table_iter t)) g' (table_iter t)).
      { clear - Fg. assert (K : forall (L : list cell), (forall c, In c (table_iter t) -> In c L) -> Forall2 (fun s c => shown_by D natf s c /\ In c L) g' (table_iter t)).
        { intros L. induction Fg as [|s c g' cells Hs Fg IH]; intros Hin; constructor; [split; [exact Hs|apply Hin; left; reflexivity]|]. apply IH. intros x Hx. apply Hin. right. exact Hx. }
        apply K. auto. }
      apply (Forall2_trans_l _ _ _ _ _ _ (fun c' s c H1 H2 => HFin s c (proj1 H2) (proj2 H2) c' H1) Fl2 HF3).
    - intros r v v' Hr Hv Hv'. specialize (HRows r v' ltac:(lia) Hv'). unfold row_attributes in HRows.
      assert (EI : exists ri, nth_error (row_items (items (pc_ns p) e)) (Z.to_nat (r - 1)) = Some ri /\ exists w, nth_error rows (Z.to_nat (r - 1)) = Some w /\ fst (fst ri) = kept_nature (v_nature w)).
      { rewrite <- Ens, Eit. unfold row_items. rewrite flat_map_app.
        assert (E0 : forall l : list xnode, flat_map (fun i => match i with Row na sec row => [(na, sec, row)] | Column _ => [] end) (map Column l) = []) by (induction l0; [reflexivity|assumption]).
        rewrite E0. cbn [app]. assert (Hl : (Z.to_nat (r - 1) < List.length rows)%nat) by lia. clear - Hits Hl. revert Hl. generalize (Z.to_nat (r - 1)) as i.
        induction Hits as [|w it ws its (sec & row & -> & _) Hits IH]; intros i Hl; [cbn in Hl; lia|]. destruct i as [|i].
        - exists (kept_nature (v_nature w), sec, row). split; [reflexivity|]. exists w. split; reflexivity.
        - cbn [flat_map app nth_error]. apply IH. cbn in Hl. lia. }
      destruct EI as ([[na sec] row] & E1 & w & E2 & E3). rewrite E1 in HRows. cbn [fst] in E3. destruct HRows as [HX _]. rewrite HX, E3.
      destruct (Hrow _ w E2) as [Hw _]. replace (0 + Z.of_nat (Z.to_nat (r - 1)) + 1) with r in Hw by lia. unfold reads in Hw, Hv. congruence.
    - eapply table_back; eassumption.
  Qed.
End RoundTrip.
