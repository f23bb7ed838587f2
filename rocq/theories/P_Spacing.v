(** * Proofs about the spacing and the shadow of Word borders *)
From Coq Require Import QArith.
From Verif Require Import Base M_Geometry M_Xml M_Cell M_Grid M_Table M_Str M_CalsParser M_Ooxml.
From Verif Require Import S_Geometry S_Grid S_Table S_Int S_Cell S_CalsParser S_Ooxml S_OoxmlStyle S_Spacing.
From Verif Require Import P_Grid P_Str P_Cals P_CalsParser P_OoxmlPath P_OoxmlStyle P_OoxmlCell.
Open Scope Z_scope.
Open Scope string_scope.
Open Scope list_scope.

Lemma given_fun names a b v v' : given names a b v -> given names a b v' -> v = v'.
Proof. intros H H'. apply given_spec in H as [_ <-]. apply given_spec in H' as [_ <-]. reflexivity. Qed.

Section Spacing.
  Variable o : ooxml_opts.

  Lemma prop_parts names b p : border_property o b names = Ok p ->
    distance o names b (match bp_space p with Some q => q | None => 0%Q end) (spacing_text o p) /\
    (has_space p = true <-> exists v, given names "space" b v) /\
    (shadowed p = true <-> given names "shadow" b "true") /\
    (forall q, bp_sz p = Some q <-> exists v q', given names "sz" b v /\ ox_float o v = Ok q' /\ q = (q' / 8)%Q).
  Proof.
    unfold border_property. cbv zeta.
    set (gh := first_attr "shadow" (border_nodes names b)). set (gp := first_attr "space" (border_nodes names b)).
    set (gs := first_attr "sz" (border_nodes names b)).
    destruct (when gh _) as [sh|] eqn:Eh; cbn [rbind]; [|discriminate].
    destruct (when gp _) as [sp|] eqn:Ep; cbn [rbind]; [|discriminate].
    destruct (when gs _) as [sz|] eqn:Es; cbn [rbind]; [|discriminate]. intros H. injection H as <-.
    unfold spacing_text, has_space, shadowed. cbn [bp_space bp_shadow bp_sz]. unfold when in Eh, Ep, Es.
    assert (HP : match sp with Some q => exists v, given names "space" b v /\ ox_float o v = Ok q | None => forall v, ~ given names "space" b v end).
    { destruct (truthy gp) eqn:Et.
      - destruct (ox_float o (ostr gp)) as [q|] eqn:Eq; cbn [rbind] in Ep; [|discriminate]. injection Ep as <-. exists (ostr gp). split; [apply given_spec; auto|exact Eq].
      - injection Ep as <-. apply given_none, Et. }
    split; [|split; [|split]].
    - destruct sp as [q|]; [left|right; auto]. destruct HP as (v & H1 & H2). exists v. auto.
    - destruct sp as [q|]; [destruct HP as (v & H1 & _); split; eauto|]. split; [discriminate|intros (v & Hv); destruct (HP v Hv)].
    - destruct (truthy gh) eqn:Et.
      + assert (G : given names "shadow" b (ostr gh)) by (apply given_spec; auto). unfold lookup in Eh. cbn [dget] in Eh.
        destruct (String.eqb_spec (ostr gh) "true") as [E|N]; cbn [rbind] in Eh.
        * injection Eh as <-. rewrite E in G. split; auto.
        * destruct (String.eqb (ostr gh) "false"); cbn [rbind] in Eh; [|discriminate]. injection Eh as <-. split; [discriminate|].
          intros G'. destruct (N (given_fun _ _ _ _ _ G G')).
      + injection Eh as <-. split; [discriminate|]. intros G. destruct (proj1 (given_none names "shadow" b) Et _ G).
    - intros q. destruct (truthy gs) eqn:Et.
      + assert (G : given names "sz" b (ostr gs)) by (apply given_spec; auto).
        destruct (ox_float o (ostr gs)) as [q'|] eqn:Eq; cbn [rbind] in Es; [|discriminate]. injection Es as <-. split.
        * intros [= <-]. exists (ostr gs), q'. auto.
        * intros (v & q2 & Hv & Hq & ->). rewrite <- (given_fun _ _ _ _ _ G Hv) in Hq. congruence.
      + injection Es as <-. split; [discriminate|]. intros (v & q2 & Hv & _). destruct (proj1 (given_none names "sz" b) Et _ Hv).
  Qed.

  Lemma distance_fun names b q s q' s' : distance o names b q s -> distance o names b q' s' -> q = q' /\ s = s'.
  Proof.
    intros [(v & H1 & H2 & ->)|(H1 & -> & ->)] [(v' & H1' & H2' & ->)|(H1' & -> & ->)].
    - rewrite <- (given_fun _ _ _ _ _ H1 H1') in H2'. assert (q = q') by congruence. subst. auto.
    - destruct (H1' v H1).
    - destruct (H1 v' H1').
    - auto.
  Qed.
  Lemma shade_fun names b s s' : shade o names b s -> shade o names b s' -> s = s'.
  Proof.
    intros [(G & v & q & H1 & H2 & ->)|(G & ->)] [(G' & v' & q' & H1' & H2' & ->)|(G' & ->)]; [|contradiction|contradiction|reflexivity].
    rewrite <- (given_fun _ _ _ _ _ H1 H1') in H2'. assert (q = q') by congruence. subst. reflexivity.
  Qed.
  Lemma Forall2_fun {A B} (R : A -> B -> Prop) : (forall a b b', R a b -> R a b' -> b = b') ->
    forall l m m', Forall2 R l m -> Forall2 R l m' -> m = m'.
  Proof.
    intros H l m m' F. revert m'. induction F as [|a b l m Hab _ IH]; intros m' F'; inversion F' as [|? b' ? m2 Hab' F2]; subst; [reflexivity|].
    f_equal; [exact (H _ _ _ Hab Hab')|exact (IH _ F2)].
  Qed.

  Definition dist_of (m : string * border_prop) : Q * string := (match bp_space (snd m) with Some q => q | None => 0%Q end, spacing_text o (snd m)).
  Lemma no_space_zero p : no_space p = true <-> (match bp_space p with Some q => q | None => 0%Q end == 0)%Q.
  Proof. unfold no_space. destruct (bp_space p) as [q|]; [apply Qeq_bool_iff|split; [intros _; apply Qeq_refl|reflexivity]]. Qed.

  Lemma extra_spec mapping b d : get_borders o mapping (Some b) = Ok d -> (forall k, In k (map fst mapping) -> ~ In k EXTRA) ->
    forall k, In k EXTRA -> forall t, dget d k = Some t <-> spacing o (map snd mapping) b k t.
  Proof.
    unfold get_borders. destruct (border_properties o b mapping) as [props|] eqn:Ep; cbn [rbind]; [|discriminate]. intros H HX k Hk t.
    apply rmap_Forall2 in Ep.
    assert (Ekeys : map fst props = map fst mapping).
    { clear - Ep. induction Ep as [|m p ms ps E _ IH]; [reflexivity|]. cbn [map]. rewrite IH. f_equal.
      destruct (border_property o b (snd m)); cbn [rbind] in E; [|discriminate]. injection E as <-. reflexivity. }
    assert (F : Forall2 (fun names p => border_property o b names = Ok (snd p)) (map snd mapping) props).
    { clear - Ep. induction Ep as [|m p ms ps E _ IH]; [constructor|]. cbn [map]. constructor; [|exact IH].
      destruct (border_property o b (snd m)); cbn [rbind] in E; [|discriminate]. injection E as <-. reflexivity. }
    clear Ep. set (sides := map snd mapping) in *.
    assert (FD : Forall2 (fun names d => distance o names b (fst d) (snd d)) sides (map dist_of props)).
    { clear - F. induction F as [|n p l ps E _ IH]; cbn [map]; constructor; [|exact IH]. exact (proj1 (prop_parts _ _ _ E)). }
    assert (UD : forall l, Forall2 (fun names d => distance o names b (fst d) (snd d)) sides l -> l = map dist_of props).
    { intros l Hl. refine (Forall2_fun _ _ _ _ _ Hl FD). intros n [q s] [q' s'] H1 H2. cbn [fst snd] in *. destruct (distance_fun _ _ _ _ _ _ H1 H2). congruence. }
    assert (HS : existsb (fun m => has_space (snd m)) props = true <-> exists names v, In names sides /\ given names "space" b v).
    { clear - F. induction F as [|n p l ps E _ IH]; cbn [existsb]; [split; [discriminate|intros (n & v & [] & _)]|].
      rewrite orb_true_iff, IH. destruct (prop_parts _ _ _ E) as (_ & K & _). rewrite K. split.
      - intros [(v & Hv)|(n' & v & Hn & Hv)]; [exists n, v; split; [left; reflexivity|exact Hv]|exists n', v; split; [right; exact Hn|exact Hv]].
      - intros (n' & v & [<-|Hn] & Hv); [left; exists v; exact Hv|right; exists n', v; auto]. }
    assert (HZ : forallb (fun m => no_space (snd m)) props = true <-> Forall (fun d => fst d == 0)%Q (map dist_of props)).
    { clear. rewrite forallb_forall, Forall_forall. split.
      - intros K x Hx. apply in_map_iff in Hx as (m & <- & Hm). apply no_space_zero, K, Hm.
      - intros K m Hm. apply no_space_zero. apply (K (dist_of m)), in_map, Hm. }
    assert (HNZ : forallb (fun m => no_space (snd m)) props = false <-> Exists (fun d => ~ fst d == 0)%Q (map dist_of props)).
    { rewrite <- not_true_iff_false, HZ. split; intros K.
      - apply neg_Forall_Exists_neg in K; [exact K|]. intros x. apply Qeq_dec.
      - intros K'. apply Exists_exists in K as (x & Hx & Hn). rewrite Forall_forall in K'. exact (Hn (K' x Hx)). }
    assert (HG : Exists (fun d => ~ fst d == 0)%Q (map dist_of props) -> existsb (fun m => has_space (snd m)) props = true).
    { intros K. apply Exists_exists in K as (x & Hx & Hn). apply in_map_iff in Hx as (m & <- & Hm). apply existsb_exists. exists m. split; [exact Hm|].
      unfold has_space. unfold dist_of in Hn. cbn [fst] in Hn. destruct (bp_space (snd m)); [reflexivity|]. destruct (Hn (Qeq_refl _)). }
    assert (HH : existsb (fun m => shadowed (snd m)) props = true <-> exists names, In names sides /\ given names "shadow" b "true").
    { clear - F. induction F as [|n p l ps E _ IH]; cbn [existsb]; [split; [discriminate|intros (n & [] & _)]|].
      rewrite orb_true_iff, IH. destruct (prop_parts _ _ _ E) as (_ & _ & K & _). rewrite K. split.
      - intros [Hv|(n' & Hn & Hv)]; [exists n; split; [left; reflexivity|exact Hv]|exists n'; split; [right; exact Hn|exact Hv]].
      - intros (n' & [<-|Hn] & Hv); [left; exact Hv|right; exists n'; auto]. }
    assert (FT : forall texts, rmap (fun m => shadow_text o (snd m)) props = Ok texts -> Forall2 (fun names s => shade o names b s) sides texts).
    { clear - F. intros texts E. apply rmap_Forall2 in E. revert texts E. induction F as [|n p l ps Ep _ IH]; intros texts E; inversion E as [|? s ? texts' Es E']; subst; constructor; [|apply IH, E'].
      destruct (prop_parts _ _ _ Ep) as (_ & _ & K & Kz). unfold shadow_text in Es. destruct (shadowed (snd p)) eqn:Esh.
      - destruct (bp_sz (snd p)) as [q|] eqn:Eq; [|discriminate]. injection Es as <-. left. split; [apply K; reflexivity|].
        destruct (proj1 (Kz q) eq_refl) as (v & q' & H1 & H2 & ->). exists v, q'. auto.
      - injection Es as <-. right. split; [|reflexivity]. intros G. apply K in G. discriminate. }
    revert H. unfold borders_to_styles.
    change (fold_left (fun st m => match border_text o (snd m) with [] => st | values => dset st (fst m) (join_space values) end) props [])
      with (fold_left (put_border o) props []).
    assert (E0 : forall k, In k EXTRA -> dget (fold_left (put_border o) props []) k = None).
    { intros k' Hk'. rewrite put_all; [reflexivity|]. rewrite Ekeys. intros Hin. exact (HX k' Hin Hk'). }
    set (st0 := fold_left (put_border o) props []) in *. cbv zeta. set (st1 := if existsb (fun m => has_space (snd m)) props then _ else st0). intros H.
    assert (C1 : forall t, dget st1 "border-collapse" = Some t <-> spacing o sides b "border-collapse" t).
    { intros u. unfold spacing, st1. split.
      - destruct (existsb (fun m => has_space (snd m)) props) eqn:Ee; [|rewrite E0 by (cbn; tauto); discriminate].
        intros E. left. split; [reflexivity|]. split; [apply HS; reflexivity|]. exists (map dist_of props). split; [exact FD|].
        destruct (forallb (fun m => no_space (snd m)) props) eqn:Ef.
        + rewrite dget_dset_same in E. injection E as <-. left. split; [reflexivity|apply HZ; reflexivity].
        + rewrite dget_dset_other, dget_dset_same in E by discriminate. injection E as <-. right. split; [reflexivity|apply HNZ; reflexivity].
      - intros [(_ & Hg & l & Hl & Hu)|[(E & _)|(E & _)]]; [|discriminate..]. apply HS in Hg. rewrite Hg. rewrite (UD l Hl) in Hu.
        destruct Hu as [(-> & Hu)|(-> & Hu)].
        + apply HZ in Hu. rewrite Hu. apply dget_dset_same.
        + apply HNZ in Hu. rewrite Hu. rewrite dget_dset_other by discriminate. apply dget_dset_same. }
    assert (C2 : forall t, dget st1 "border-spacing" = Some t <-> spacing o sides b "border-spacing" t).
    { intros u. unfold spacing, st1. split.
      - destruct (existsb (fun m => has_space (snd m)) props) eqn:Ee; [|rewrite E0 by (cbn; tauto); discriminate].
        destruct (forallb (fun m => no_space (snd m)) props) eqn:Ef.
        + rewrite dget_dset_other by discriminate. rewrite E0 by (cbn; tauto). discriminate.
        + rewrite dget_dset_same. intros [= <-]. right. left. split; [reflexivity|]. exists (map dist_of props). split; [exact FD|].
          split; [apply HNZ; reflexivity|]. rewrite spaced_join, map_map. reflexivity.
      - intros [(E & _)|[(_ & l & Hl & Hn & ->)|(E & _)]]; [discriminate| |discriminate]. rewrite (UD l Hl) in *.
        rewrite (HG Hn). apply HNZ in Hn. rewrite Hn, dget_dset_same, spaced_join, map_map. reflexivity. }
    assert (C3 : dget st1 "box-shadow" = None).
    { unfold st1. destruct (existsb (fun m => has_space (snd m)) props); [destruct (forallb (fun m => no_space (snd m)) props); rewrite ?dget_dset_other by discriminate|]; apply E0; cbn; tauto. }
    cbn [EXTRA In] in Hk. clearbody st1.
    destruct (existsb (fun m => shadowed (snd m)) props) eqn:Esh.
    - destruct (rmap (fun m => shadow_text o (snd m)) props) as [texts|] eqn:Et; cbn [rbind] in H; [|discriminate]. injection H as <-.
      destruct Hk as [<-|[<-|[<-|[]]]]; [rewrite dget_dset_other by discriminate; apply C1|rewrite dget_dset_other by discriminate; apply C2|].
      rewrite dget_dset_same. unfold spacing. split.
      + intros [= <-]. right. right. split; [reflexivity|]. split; [apply HH; reflexivity|]. exists texts. split; [apply FT; reflexivity|symmetry; apply spaced_join].
      + intros [(E & _)|[(E & _)|(_ & _ & l & Hl & ->)]]; [discriminate|discriminate|].
        rewrite (Forall2_fun _ (fun n s s' => shade_fun n b s s') _ _ _ Hl (FT texts eq_refl)), spaced_join. reflexivity.
    - injection H as <-. destruct Hk as [<-|[<-|[<-|[]]]]; [apply C1|apply C2|]. rewrite C3. unfold spacing. split; [discriminate|].
      intros [(E & _)|[(E & _)|(_ & Hg & _)]]; [discriminate|discriminate|]. apply HH in Hg. congruence.
  Qed.
  Lemma spacing_key sides b k t : spacing o sides b k t -> In k SPACING.
  Proof. intros [(-> & _)|[(-> & _)|(-> & _)]]; cbn; tauto. Qed.

  (** ** Cells *)

  Lemma tc_spacing tc st : tc_styles o tc = Ok st -> forall k v, In k SPACING ->
    (dget st k = Some v <-> exists b t, element_at ["tcPr"; "tcBorders"] tc b /\ spacing o OUTER_SIDES b k t /\ v = SStr t).
  Proof.
    unfold tc_styles. cbv zeta. destruct (tc_valign tc) as [va|] eqn:Ev; cbn [rbind]; [|discriminate].
    destruct (tc_align tc) as [al|] eqn:Ea; cbn [rbind]; [|discriminate].
    destruct (get_table_borders o (w_first ["tcPr"; "tcBorders"] tc)) as [bo|] eqn:Eb; cbn [rbind]; [|discriminate]. intros H k v Hk.
    destruct (shd_spec tc) as [O1 S1]. destruct (valign_spec tc va Ev) as [O2 S2]. destruct (align_spec tc al Ea) as [O3 S3]. destruct (borders_spec o tc bo Eb) as [O4 _].
    set (sh := shd_styles (w_first ["tcPr"; "shd"] tc)) in *.
    assert (HN : forall (P : option sval), (forall u, P = Some u -> False) -> P = None) by (intros [u|] K; [destruct (K u eq_refl)|reflexivity]).
    assert (N1 : dget sh k = None) by (apply HN; intros u Hu; apply S1 in Hu as [-> _]; cbn in Hk; intuition discriminate).
    assert (N2 : dget va k = None) by (apply HN; intros u Hu; apply S2 in Hu as [-> _]; cbn in Hk; intuition discriminate).
    assert (N3 : dget al k = None) by (apply HN; intros u Hu; apply S3 in Hu as [-> _]; cbn in Hk; intuition discriminate).
    assert (E : dget st k = dget (svals bo) k).
    { transitivity (dget (dupdate (dupdate (dupdate sh va) al) (svals bo)) k).
      - destruct (tc_empty tc); injection H as <-; [|reflexivity]. apply dget_dset_other. intros <-. cbn in Hk. intuition discriminate.
      - rewrite (dget_dupdate _ _ k O4), (dget_dupdate _ al k O3), (dget_dupdate sh va k O2), N1, N2, N3. destruct (dget (svals bo) k); reflexivity. }
    rewrite E, svals_get. destruct (w_first ["tcPr"; "tcBorders"] tc) as [b|] eqn:Ef.
    - pose proof (extra_spec TABLE_BORDERS b bo Eb (proj2 keys_outer) k Hk) as K. split.
      + intros (u & -> & Hu). exists b, u. split; [apply w_first_spec, Ef|]. split; [apply K, Hu|reflexivity].
      + intros (b' & t & Hb & Ht & ->). apply w_first_spec in Hb. assert (b' = b) by congruence. subst b'. exists t. split; [reflexivity|apply K, Ht].
    - cbn in Eb. injection Eb as <-. split; [intros (u & _ & Hu); discriminate|]. intros (b & t & Hb & _). apply w_first_spec in Hb. congruence.
  Qed.

  (** ** Styles *)

  Lemma own_spacing n b1 b2 : let borders := w_first ["tblPr"; "tblBorders"] n in
    get_table_borders o borders = Ok b1 -> get_cell_borders o borders = Ok b2 ->
    (forall k, In k (SPACING ++ CELL_SPACING) -> forall t, dget (dupdate b1 (x_cell b2)) k = Some t <-> style_spacing o n k t) /\
    (forall k, In k (SPACING ++ CELL_SPACING) -> forall t, dget b1 k = Some t <-> table_spacing o n k t).
  Proof.
    intros borders H1 H2. unfold borders in *.
    destruct (w_first ["tblPr"; "tblBorders"] n) as [b|] eqn:Eb.
    - pose proof (proj1 (w_first_spec _ _ _) Eb) as Hb. unfold get_table_borders in H1. unfold get_cell_borders in H2.
      destruct (get_borders_line o TABLE_BORDERS b b1 H1 (proj1 keys_outer) (proj2 keys_outer)) as (O1 & _ & N1).
      destruct (get_borders_line o CELL_BORDERS b b2 H2 (proj1 keys_inner) (proj2 keys_inner)) as (O2 & _ & N2).
      pose proof (extra_spec TABLE_BORDERS b b1 H1 (proj2 keys_outer)) as K1. pose proof (extra_spec CELL_BORDERS b b2 H2 (proj2 keys_inner)) as K2.
      change (map snd TABLE_BORDERS) with OUTER_SIDES in K1. change (map snd CELL_BORDERS) with INNER_SIDES in K2.
      assert (HB : forall b', element_at ["tblPr"; "tblBorders"] n b' -> b' = b) by (intros b' Hb'; apply w_first_spec in Hb'; congruence).
      assert (HC : forall k, In k CELL_SPACING -> exists s, k = ("x-cell-" ++ s)%string /\ In s EXTRA /\ dget b1 k = None).
      { intros k Hk. cbn in Hk. destruct Hk as [<-|[<-|[<-|[]]]]; eexists; (split; [cbn [String.append]; reflexivity|]); (split; [cbn; tauto|]);
          (apply N1; [cbn; intuition discriminate|cbn; intuition discriminate]). }
      assert (HO : forall k, In k SPACING -> forall s, k <> ("x-cell-" ++ s)%string).
      { intros k Hk s ->. cbn in Hk. intuition discriminate. }
      split; intros k Hk t; apply in_app_iff in Hk as [Hk|Hk].
      + rewrite (dget_dupdate _ _ _ (x_cell_ok _ O2)), (x_cell_other _ _ (HO k Hk)). cbn [or_opt]. rewrite (K1 k Hk t). split.
        * intros Ht. exists b. split; [exact Hb|left; exact Ht].
        * intros (b' & Hb' & Ht). rewrite (HB b' Hb') in Ht. destruct Ht as [Ht|(s & -> & _)]; [exact Ht|destruct (HO _ Hk s eq_refl)].
      + destruct (HC k Hk) as (s & -> & Hs & E1). rewrite (dget_dupdate _ _ _ (x_cell_ok _ O2)), x_cell_get, E1.
        assert (E : or_opt (dget b2 s) None = dget b2 s) by (destruct (dget b2 s); reflexivity). rewrite E, (K2 s Hs t). split.
        * intros Ht. exists b. split; [exact Hb|right; exists s; auto].
        * intros (b' & Hb' & Ht). rewrite (HB b' Hb') in Ht. destruct Ht as [Ht|(s' & E' & Ht)]; [destruct (HO _ (spacing_key _ _ _ _ Ht) s eq_refl)|].
          assert (s' = s) by (cbn in E'; injection E'; auto). subst. exact Ht.
      + rewrite (K1 k Hk t). split; [intros Ht; exists b; auto|]. intros (b' & Hb' & Ht). rewrite (HB b' Hb') in Ht. exact Ht.
      + destruct (HC k Hk) as (s & -> & _ & E1). rewrite E1. split; [discriminate|]. intros (b' & _ & Ht). destruct (HO _ (spacing_key _ _ _ _ Ht) s eq_refl).
    - cbn in H1, H2. injection H1 as <-. injection H2 as <-.
      split; intros k _ t; (split; [discriminate|]); intros (b & Hb & _); apply w_first_spec in Hb; congruence.
  Qed.

  Lemma inherited_spacing sheet : forall id l, ancestry sheet id l -> forall fuel d, get_style_borders o fuel (Some sheet) id = Ok d ->
    forall k, In k (SPACING ++ CELL_SPACING) -> forall t, dget d k = Some t <-> nearest_spacing o l k t.
  Proof.
    induction 1 as [|id Hno|id st up l Hst Hup _ IH]; intros fuel d H; (destruct fuel as [|fuel]; cbn [get_style_borders] in H; [discriminate|]).
    - injection H as <-. intros k _ t. split; [discriminate|]. intros ([|] & s & far & E & _); discriminate.
    - destruct (find_style sheet id) as [st|] eqn:E; [apply find_style_spec in E; destruct (Hno st E)|]. injection H as <-.
      intros k _ t. split; [discriminate|]. intros ([|] & s & far & E' & _); discriminate.
    - apply find_style_spec in Hst. rewrite Hst in H. apply parent_spec in Hup. rewrite Hup in H.
      destruct (get_style_borders o fuel (Some sheet) up) as [d0|] eqn:E0; cbn [rbind] in H; [|discriminate].
      pose proof (IH fuel d0 E0) as N0.
      destruct (get_table_borders o (w_first ["tblPr"; "tblBorders"] st)) as [b1|] eqn:E1; cbn [rbind] in H; [|discriminate].
      destruct (get_cell_borders o (w_first ["tblPr"; "tblBorders"] st)) as [b2|] eqn:E2; cbn [rbind] in H; [|discriminate].
      cbv zeta in H. injection H as <-. destruct (own_borders o st b1 b2 E1 E2) as (OB & _ & _ & _). destruct (own_spacing st b1 b2 E1 E2) as [HB _].
      intros k Hk t. rewrite (dget_dupdate _ _ _ OB). specialize (HB k Hk).
      destruct (dget (dupdate b1 (x_cell b2)) k) as [u|] eqn:Eu; cbn [or_opt].
      + split.
        * intros [= <-]. exists [], st, l. split; [reflexivity|]. split; [apply HB; reflexivity|intros s v []].
        * intros (near & s & far & E & Hd & Hn). destruct near as [|s' near]; cbn in E.
          -- injection E as <- <-. apply HB in Hd. exact Hd.
          -- injection E as <- ->. destruct (Hn st u); [left; reflexivity|apply HB; reflexivity].
      + rewrite (N0 k Hk t). split.
        * intros (near & s & far & -> & Hd & Hn). exists (st :: near), s, far. split; [reflexivity|]. split; [exact Hd|].
          intros s' v [<-|Hs]; [|apply Hn, Hs]. intros Hv. apply HB in Hv. discriminate.
        * intros (near & s & far & E & Hd & Hn). destruct near as [|s' near]; cbn in E.
          -- injection E as <- <-. apply HB in Hd. discriminate.
          -- injection E as <- ->. exists near, s, far. split; [reflexivity|]. split; [exact Hd|]. intros s'' v Hs. apply Hn. right. exact Hs.
  Qed.
End Spacing.
