(** * Word tables: borders and styles *)
From Coq Require Import QArith.
From Verif Require Import Base M_Geometry M_Xml M_Cell M_Grid M_Table M_Str M_CalsParser M_Ooxml.
From Verif Require Import S_Geometry S_Grid S_Table S_Int S_CalsParser S_Ooxml S_OoxmlStyle.
From Verif Require Import P_Grid P_Str P_Cals P_CalsParser P_OoxmlPath.
Open Scope Z_scope.
Open Scope string_scope.
Open Scope list_scope.

(** ** Elements and attributes *)

Lemma w_first_spec path n e : w_first path n = Some e <-> element_at path n e.
Proof.
  revert n e. induction path as [|p path IH]; intros n e; unfold w_first; cbn [w_path element_at].
  - cbn. split; [intros [= <-]; reflexivity|intros ->; reflexivity].
  - unfold w_children.
    assert (HF : forall l, hd_error (flat_map (w_path path) l) = Some e <->
              exists pre c post, l = pre ++ c :: post /\ w_first path c = Some e /\ forall d, In d pre -> w_path path d = []).
    { induction l as [|a l IHl]; cbn [flat_map].
      - cbn. split; [discriminate|intros ([|] & c & post & E & _); discriminate].
      - destruct (w_path path a) as [|b m] eqn:Ea; cbn [app].
        + rewrite IHl. split.
          * intros (pre & c & post & -> & Hc & Hp). exists (a :: pre), c, post. split; [reflexivity|]. split; [exact Hc|]. intros d [<-|Hd]; auto.
          * intros (pre & c & post & E & Hc & Hp). destruct pre as [|a' pre]; cbn in E; injection E as -> ->.
            -- unfold w_first in Hc. rewrite Ea in Hc. discriminate.
            -- exists pre, c, post. split; [reflexivity|]. split; [exact Hc|]. intros d Hd. apply Hp. right. exact Hd.
        + cbn. split.
          * intros [= ->]. exists [], a, l. split; [reflexivity|]. unfold w_first. rewrite Ea. split; [reflexivity|intros d []].
          * intros (pre & c & post & E & Hc & Hp). destruct pre as [|a' pre]; cbn in E; injection E as -> ->.
            -- unfold w_first in Hc. rewrite Ea in Hc. exact Hc.
            -- specialize (Hp a' (or_introl eq_refl)). congruence. }
    rewrite HF. split.
    + intros (pre & c & post & E & Hc & Hp). apply filter_split in E as (pre' & post' & E & Hw & <- & <-).
      exists pre', c, post'. split; [exact E|]. split; [apply has_word, Hw|]. split; [apply IH, Hc|].
      intros d Hd Hwd Hex. apply w_path_exists in Hex. apply Hex, Hp. apply filter_In. split; [exact Hd|apply has_word, Hwd].
    + intros (pre & c & post & E & Hw & Hc & Hp). exists (filter (fun d => x_has_tag d (wq p)) pre), c, (filter (fun d => x_has_tag d (wq p)) post).
      split; [apply filter_split; exists pre, post; split; [exact E|]; split; [apply has_word, Hw|auto]|]. split; [apply IH, Hc|].
      intros d Hd. apply filter_In in Hd as [Hd Hwd]. apply has_word in Hwd. specialize (Hp d Hd Hwd).
      destruct (w_path path d) as [|x l] eqn:E'; [reflexivity|]. exfalso. apply Hp, w_path_exists. congruence.
Qed.
Lemma w_first_none path n : w_first path n = None <-> forall e, ~ element_at path n e.
Proof.
  split.
  - intros E e He. apply w_first_spec in He. congruence.
  - intros H. destruct (w_first path n) as [e|] eqn:E; [|reflexivity]. apply w_first_spec in E. destruct (H e E).
Qed.

Lemma named_nodes names c : existsb (fun name => x_has_tag c (wq name)) names = true <-> named names c.
Proof.
  rewrite existsb_exists. unfold named. split; intros (name & Hi & Hn); exists name; (split; [exact Hi|]); apply has_word, Hn.
Qed.
Lemma first_of_spec names a b v : first_attr a (border_nodes names b) = Some v <-> first_of names a b v.
Proof.
  unfold border_nodes, first_of. 
  assert (HF : forall l, first_attr a l = Some v <-> exists pre c post, l = pre ++ c :: post /\ dget (x_attrs c) (word a) = Some v /\
                forall d, In d pre -> dget (x_attrs d) (word a) = None).
  { induction l as [|n l IH]; cbn [first_attr].
    - split; [discriminate|intros ([|] & c & post & E & _); discriminate].
    - unfold x_get. change (wq a) with (word a). destruct (dget (x_attrs n) (word a)) as [w|] eqn:En.
      + split.
        * intros [= ->]. exists [], n, l. split; [reflexivity|]. split; [exact En|intros d []].
        * intros (pre & c & post & E & Hc & Hp). destruct pre as [|x pre]; cbn in E; injection E as -> ->; [congruence|].
          specialize (Hp x (or_introl eq_refl)). congruence.
      + rewrite IH. split.
        * intros (pre & c & post & -> & Hc & Hp). exists (n :: pre), c, post. split; [reflexivity|]. split; [exact Hc|]. intros d [<-|Hd]; auto.
        * intros (pre & c & post & E & Hc & Hp). destruct pre as [|x pre]; cbn in E; injection E as -> ->; [congruence|].
          exists pre, c, post. split; [reflexivity|]. split; [exact Hc|]. intros d Hd. apply Hp. right. exact Hd. }
  rewrite HF. split.
  - intros (pre & c & post & E & Hc & Hp). apply filter_split in E as (pre' & post' & E & Hw & <- & <-).
    exists pre', c, post'. split; [exact E|]. split; [apply named_nodes, Hw|]. split; [exact Hc|].
    intros d Hd Hn. apply Hp, filter_In. split; [exact Hd|apply named_nodes, Hn].
  - intros (pre & c & post & E & Hn & Hc & Hp).
    eexists _, c, _. split; [apply filter_split; exists pre, post; split; [exact E|]; split; [apply named_nodes, Hn|split; reflexivity]|].
    split; [exact Hc|]. intros d Hd. apply filter_In in Hd as [Hd Hwd]. apply Hp; [exact Hd|apply named_nodes, Hwd].
Qed.
Lemma given_spec names a b v : given names a b v <-> truthy (first_attr a (border_nodes names b)) = true /\ ostr (first_attr a (border_nodes names b)) = v.
Proof.
  unfold given. rewrite <- first_of_spec. destruct (first_attr a (border_nodes names b)) as [[|c w]|]; cbn; split.
  - intros [[= <-] H]. congruence.
  - intros [H _]. discriminate.
  - intros [[= <-] H]. auto.
  - intros [_ <-]. split; [reflexivity|discriminate].
  - intros [H _]. discriminate.
  - intros [H _]. discriminate.
Qed.
Lemma given_none names a b : truthy (first_attr a (border_nodes names b)) = false <-> forall v, ~ given names a b v.
Proof.
  split.
  - intros H v Hv. apply given_spec in Hv as [Hv _]. congruence.
  - intros H. destruct (truthy _) eqn:E; [|reflexivity]. destruct (H (ostr (first_attr a (border_nodes names b)))). apply given_spec. auto.
Qed.

(** ** The names of the border styles *)

Fixpoint distinct (l : list string) : bool :=
  match l with [] => true | a :: l' => negb (existsb (String.eqb a) l') && distinct l' end.
Lemma distinct_NoDup l : distinct l = true -> NoDup l.
Proof.
  induction l as [|a l IH]; [constructor|]. cbn. intros H. apply andb_true_iff in H as [H1 H2]. constructor; [|apply IH, H2].
  intros Hin. apply negb_true_iff in H1. rewrite <- not_true_iff_false in H1. apply H1, existsb_exists. exists a. split; [exact Hin|apply String.eqb_refl].
Qed.
Lemma border_styles_ok : dict_ok BORDER_STYLES.
Proof. apply distinct_NoDup. vm_compute. reflexivity. Qed.
Lemma dget_ok_In {V} (d : dict V) k v : dict_ok d -> (dget d k = Some v <-> In (k, v) d).
Proof.
  induction d as [|[a b] d IH]; intros HN; [cbn; split; [discriminate|intros []]|]. inversion HN as [|? ? Hx HN']; subst. cbn [dget In].
  destruct (String.eqb_spec k a) as [->|Hne].
  - split; [intros [= <-]; auto|]. intros [[= <-]|Hin]; [reflexivity|]. exfalso. apply Hx. apply (in_map fst) in Hin. exact Hin.
  - rewrite IH by exact HN'. split; [auto|]. intros [[= <- <-]|H]; [congruence|exact H].
Qed.
Lemma border_name_spec v x : border_name v x <->
  x = match dget BORDER_STYLES (if String.eqb v "nil" then "none" else v) with Some y => y | None => ("w-" ++ (if String.eqb v "nil" then "none" else v))%string end.
Proof.
  unfold border_name. destruct (String.eqb_spec v "nil") as [->|Hne].
  - change (dget BORDER_STYLES "none") with (Some "none"). split; [intros [[_ ->]|[H _]]; congruence|intros ->; left; auto].
  - assert (HI : forall y, In (v, y) BORDER_STYLES <-> dget BORDER_STYLES v = Some y) by (intros y; symmetry; apply dget_ok_In, border_styles_ok).
    destruct (dget BORDER_STYLES v) as [y|] eqn:E.
    + split.
      * intros [[H _]|[_ [H|[H _]]]]; [congruence| |].
        -- apply HI in H. congruence.
        -- exfalso. apply (H y), HI. reflexivity.
      * intros ->. right. split; [exact Hne|]. left. apply HI. reflexivity.
    + split.
      * intros [[H _]|[_ [H|[_ H]]]]; [congruence| |exact H]. apply HI in H. discriminate.
      * intros ->. right. split; [exact Hne|]. right. split; [|reflexivity]. intros z Hz. apply HI in Hz. discriminate.
Qed.
Lemma border_names_table : forall v x, In (v, x) BORDER_STYLES ->
  In (v, x) CSS_BORDERS \/ x = ("w-" ++ hyphens v)%string.
Proof.
  assert (H : forallb (fun p => existsb (fun q => String.eqb (fst p) (fst q) && String.eqb (snd p) (snd q)) CSS_BORDERS ||
                               String.eqb (snd p) ("w-" ++ hyphens (fst p))) BORDER_STYLES = true) by (vm_compute; reflexivity).
  rewrite forallb_forall in H. intros v x Hin. specialize (H (v, x) Hin). cbn [fst snd] in H. apply orb_true_iff in H as [H|H].
  - left. apply existsb_exists in H as ([a b] & Hab & H). cbn in H. apply andb_true_iff in H as [H1 H2].
    apply String.eqb_eq in H1, H2. congruence.
  - right. apply String.eqb_eq, H.
Qed.
Lemma css_in_table : forall v x, In (v, x) CSS_BORDERS -> In (v, x) BORDER_STYLES.
Proof.
  intros v x H. apply dget_ok_In; [apply border_styles_ok|]. cbn in H.
  repeat (destruct H as [H|H]; [injection H as <- <-; vm_compute; reflexivity|]). destruct H.
Qed.

(** ** One border *)

Lemma spaced_join l : spaced l = join_space l.
Proof.
  unfold join_space. induction l as [|a l IH]; [reflexivity|]. destruct l as [|b l]; [reflexivity|].
  change (spaced (a :: b :: l)) with (a ++ " " ++ spaced (b :: l))%string. rewrite IH. reflexivity.
Qed.

Section Borders.
  Variable o : ooxml_opts.

  Lemma border_line names b p : border_property o b names = Ok p ->
    forall t, line o names b t <-> border_text o p <> [] /\ t = join_space (border_text o p).
  Proof.
    unfold border_property. cbv zeta.
    set (gv := first_attr "val" (border_nodes names b)). set (gs := first_attr "sz" (border_nodes names b)).
    set (gc := first_attr "color" (border_nodes names b)).
    destruct (when (first_attr "shadow" (border_nodes names b)) _) as [sh|]; cbn [rbind]; [|discriminate].
    destruct (when (first_attr "space" (border_nodes names b)) _) as [sp|]; cbn [rbind]; [|discriminate].
    destruct (when gs _) as [sz|] eqn:Es; cbn [rbind]; [|discriminate]. intros H. injection H as <-. unfold border_text. cbn [bp_val bp_sz bp_color].
    set (l1 := match (if truthy gv then _ else _) with Some v => [v] | None => [] end).
    set (l2 := match sz with Some q => _ | None => _ end).
    set (l3 := match (if truthy gc && _ then _ else _) with Some c => [c] | None => [] end).
    assert (H1 : forall l, style_word names b l <-> l = l1).
    { intros l. unfold style_word, l1. destruct (truthy gv) eqn:Et.
      - split.
        + intros [(v & x & Hv & Hx & ->)|[Hn _]]; [|exfalso; apply (Hn (ostr gv)), given_spec; auto].
          apply given_spec in Hv as [_ Hv]. fold gv in Hv. rewrite Hv. f_equal. apply border_name_spec, Hx.
        + intros ->. left. eexists (ostr gv), _. split; [apply given_spec; auto|]. split; [|reflexivity]. apply border_name_spec. reflexivity.
      - pose proof (proj1 (given_none names "val" b) Et) as Ex. split; [intros [(v & x & Hv & _)|[_ ->]]; [destruct (Ex v Hv)|reflexivity]|intros ->; right; auto]. }
    assert (H2 : forall l, size_word o names b l <-> l = l2).
    { intros l. unfold size_word, l2. unfold when in Es. destruct (truthy gs) eqn:Et.
      - destruct (ox_float o (ostr gs)) as [q|] eqn:Eq; cbn [rbind] in Es; [|discriminate]. injection Es as <-. split.
        + intros [(v & q' & Hv & Hq & ->)|[Hn _]]; [|exfalso; apply (Hn (ostr gs)), given_spec; auto].
          apply given_spec in Hv as [_ Hv]. fold gs in Hv. rewrite Hv in Eq. congruence.
        + intros ->. left. exists (ostr gs), q. split; [apply given_spec; auto|]. auto.
      - injection Es as <-. pose proof (proj1 (given_none names "sz" b) Et) as Ex. split; [intros [(v & q & Hv & _)|[_ ->]]; [destruct (Ex v Hv)|reflexivity]|intros ->; right; auto]. }
    assert (H3 : forall l, color_word names b l <-> l = l3).
    { intros l. unfold color_word, l3. destruct (truthy gc) eqn:Et; cbn [andb].
      - destruct (String.eqb_spec (ostr gc) "auto") as [Ea|Ea]; cbn [negb].
        + split.
          * intros [(v & Hv & Hne & _)|[_ ->]]; [|reflexivity]. apply given_spec in Hv as [_ Hv]. fold gc in Hv. congruence.
          * intros ->. right. split; [|reflexivity]. intros v Hv. apply given_spec in Hv as [_ Hv]. fold gc in Hv. congruence.
        + split.
          * intros [(v & Hv & Hne & ->)|[Hn _]]; [|exfalso; apply Ea, Hn, given_spec; auto].
            apply given_spec in Hv as [_ Hv]. fold gc in Hv. rewrite Hv. reflexivity.
          * intros ->. left. exists (ostr gc). split; [apply given_spec; auto|]. auto.
      - pose proof (proj1 (given_none names "color" b) Et) as Ex. split; [intros [(v & Hv & _)|[_ ->]]; [destruct (Ex v Hv)|reflexivity]|].
        intros ->. right. split; [|reflexivity]. intros v Hv. destruct (Ex v Hv). }
    intros t. unfold line. split.
    - intros (a & c & d & A & C & D & Hne & ->). apply H1 in A. apply H2 in C. apply H3 in D. subst. split; [exact Hne|apply spaced_join].
    - intros [Hne ->]. exists l1, l2, l3. split; [apply H1; reflexivity|]. split; [apply H2; reflexivity|]. split; [apply H3; reflexivity|].
      split; [exact Hne|symmetry; apply spaced_join].
  Qed.

  (** ** All the borders *)

  Definition put_border (st : dict string) (m : string * border_prop) : dict string :=
    match border_text o (snd m) with [] => st | values => dset st (fst m) (join_space values) end.
  Lemma put_other st m k : k <> fst m -> dget (put_border st m) k = dget st k.
  Proof. intros H. unfold put_border. destruct (border_text o (snd m)); [reflexivity|]. apply dget_dset_other. congruence. Qed.
  Lemma put_all props : forall st k, ~ In k (map fst props) -> dget (fold_left put_border props st) k = dget st k.
  Proof.
    induction props as [|m props IH]; intros st k Hk; [reflexivity|]. cbn [fold_left]. cbn in Hk. rewrite IH by tauto. apply put_other. intros ->. tauto.
  Qed.
  Lemma put_in props : forall st k p, NoDup (map fst props) -> In (k, p) props -> dget st k = None ->
    dget (fold_left put_border props st) k = match border_text o p with [] => None | values => Some (join_space values) end.
  Proof.
    induction props as [|m props IH]; intros st k p HN Hin Hst; [destruct Hin|]. inversion HN as [|? ? Hx HN']; subst. cbn [fold_left].
    destruct Hin as [->|Hin].
    - cbn [fst] in Hx. rewrite put_all by exact Hx. unfold put_border. cbn [fst snd]. destruct (border_text o p); [exact Hst|apply dget_dset_same].
    - apply IH; auto. rewrite put_other; [exact Hst|]. intros ->. apply Hx. apply (in_map fst) in Hin. exact Hin.
  Qed.
  Lemma put_dict_ok props : forall st, dict_ok st -> dict_ok (fold_left put_border props st).
  Proof.
    induction props as [|m props IH]; intros st H; [exact H|]. cbn [fold_left]. apply IH. unfold put_border. destruct (border_text o (snd m)); [exact H|apply dict_ok_dset', H].
  Qed.
  Definition EXTRA : list string := ["border-collapse"; "border-spacing"; "box-shadow"].
  Lemma to_styles_get props d k : borders_to_styles o props = Ok d -> ~ In k EXTRA -> dget d k = dget (fold_left put_border props []) k.
  Proof.
    unfold borders_to_styles. change (fold_left (fun st m => match border_text o (snd m) with [] => st | values => dset st (fst m) (join_space values) end) props [])
      with (fold_left put_border props []). intros H Hk. cbn in Hk.
    assert (K1 : k <> "border-collapse") by (intros ->; tauto). assert (K2 : k <> "border-spacing") by (intros ->; tauto). assert (K3 : k <> "box-shadow") by (intros ->; tauto).
    set (st0 := fold_left put_border props []) in *. cbv zeta in H.
    set (st1 := if existsb _ props then _ else st0) in H.
    assert (E1 : dget st1 k = dget st0 k).
    { unfold st1. destruct (existsb _ props); [|reflexivity]. destruct (forallb _ props); rewrite ?dget_dset_other by auto; reflexivity. }
    destruct (existsb (fun m => shadowed (snd m)) props).
    - destruct (rmap _ props) as [texts|]; cbn [rbind] in H; [|discriminate]. injection H as <-. rewrite dget_dset_other by auto. exact E1.
    - injection H as <-. exact E1.
  Qed.
  Lemma to_styles_ok props d : borders_to_styles o props = Ok d -> dict_ok d.
  Proof.
    unfold borders_to_styles. change (fold_left (fun st m => match border_text o (snd m) with [] => st | values => dset st (fst m) (join_space values) end) props [])
      with (fold_left put_border props []). intros H.
    assert (H0 : dict_ok (fold_left put_border props [])) by (apply put_dict_ok; constructor).
    set (st0 := fold_left put_border props []) in *. cbv zeta in H.
    set (st1 := if existsb _ props then _ else st0) in H.
    assert (E1 : dict_ok st1).
    { unfold st1. destruct (existsb _ props); [|exact H0]. destruct (forallb _ props); repeat apply dict_ok_dset'; exact H0. }
    destruct (existsb (fun m => shadowed (snd m)) props).
    - destruct (rmap _ props) as [texts|]; cbn [rbind] in H; [|discriminate]. injection H as <-. apply dict_ok_dset', E1.
    - injection H as <-. exact E1.
  Qed.

  Lemma get_borders_line mapping b d : get_borders o mapping (Some b) = Ok d -> NoDup (map fst mapping) ->
    (forall k, In k (map fst mapping) -> ~ In k EXTRA) ->
    dict_ok d /\
    (forall k names, In (k, names) mapping -> forall t, dget d k = Some t <-> line o names b t) /\
    (forall k, ~ In k (map fst mapping) -> ~ In k EXTRA -> dget d k = None).
  Proof.
    unfold get_borders. destruct (border_properties o b mapping) as [props|] eqn:Ep; cbn [rbind]; [|discriminate]. intros H HN HX.
    apply rmap_Forall2 in Ep.
    assert (Ekeys : map fst props = map fst mapping).
    { clear - Ep. induction Ep as [|m p ms ps E _ IH]; [reflexivity|]. cbn [map]. rewrite IH. f_equal.
      destruct (border_property o b (snd m)); cbn [rbind] in E; [|discriminate]. injection E as <-. reflexivity. }
    assert (Hprops : forall k names, In (k, names) mapping -> exists p, In (k, p) props /\ border_property o b names = Ok p).
    { clear - Ep. intros k names Hin. induction Ep as [|m p ms ps E _ IH]; [destruct Hin|]. destruct Hin as [->|Hin].
      - cbn [fst snd] in E. destruct (border_property o b names) as [q|]; cbn [rbind] in E; [|discriminate]. injection E as <-. exists q. split; [left; reflexivity|reflexivity].
      - destruct (IH Hin) as (q & Hq & E'). exists q. split; [right; exact Hq|exact E']. }
    split; [exact (to_styles_ok _ _ H)|]. split.
    - intros k names Hin t. rewrite (to_styles_get _ _ _ H) by (apply HX; apply (in_map fst) in Hin; exact Hin).
      destruct (Hprops k names Hin) as (p & Hp & E). rewrite (border_line names b p E t).
      rewrite (put_in props [] k p); [|rewrite Ekeys; exact HN|exact Hp|reflexivity].
      destruct (border_text o p) as [|x l]; split; [discriminate|intros [X _]; congruence| |].
      + intros [= <-]. split; [discriminate|reflexivity].
      + intros [_ ->]. reflexivity.
    - intros k Hk Hx. rewrite (to_styles_get _ _ _ H) by exact Hx. rewrite put_all by (rewrite Ekeys; exact Hk). reflexivity.
  Qed.

  Lemma x_cell_get d k : dget (x_cell d) ("x-cell-" ++ k)%string = dget d k.
  Proof.
    induction d as [|[a b] d IH]; [reflexivity|]. cbn [x_cell map fst snd dget]. fold (x_cell d). rewrite IH.
    destruct (String.eqb_spec k a) as [->|Hne]; [rewrite String.eqb_refl; reflexivity|].
    destruct (String.eqb_spec ("x-cell-" ++ k) ("x-cell-" ++ a)) as [E|_]; [|reflexivity]. exfalso. apply Hne. cbn in E. injection E. auto.
  Qed.
  Lemma x_cell_other d k : (forall s, k <> ("x-cell-" ++ s)%string) -> dget (x_cell d) k = None.
  Proof.
    intros H. induction d as [|[a b] d IH]; [reflexivity|]. cbn [x_cell map fst snd dget]. fold (x_cell d).
    destruct (String.eqb_spec k ("x-cell-" ++ a)) as [E|_]; [destruct (H a E)|exact IH].
  Qed.
  Lemma x_cell_ok d : dict_ok d -> dict_ok (x_cell d).
  Proof.
    unfold dict_ok, x_cell. rewrite map_map. cbn [fst]. induction d as [|[a b] d IH]; cbn [map fst]; intros H; [constructor|].
    inversion H as [|? ? Hx HN]; subst. constructor; [|apply IH, HN]. intros Hin. apply Hx. apply in_map_iff in Hin as ([a' b'] & E & Hin).
    cbn [fst] in E. assert (a' = a) by (cbn in E; injection E; auto). subst. apply (in_map fst) in Hin. exact Hin.
  Qed.

  Lemma dict_ok_dupdate {V} (e d : dict V) : dict_ok d -> dict_ok (dupdate d e).
  Proof.
    revert d. induction e as [|[k v] e IH]; intros d H; [exact H|]. cbn [dupdate fold_left]. apply (IH (dset d k v)), dict_ok_dset', H.
  Qed.
  Lemma keys_outer : NoDup (map fst TABLE_BORDERS) /\ forall k, In k (map fst TABLE_BORDERS) -> ~ In k EXTRA.
  Proof.
    split; [apply distinct_NoDup; reflexivity|]. cbn. intros k H. intuition (subst; discriminate).
  Qed.
  Lemma keys_inner : NoDup (map fst CELL_BORDERS) /\ forall k, In k (map fst CELL_BORDERS) -> ~ In k EXTRA.
  Proof.
    split; [apply distinct_NoDup; reflexivity|]. cbn. intros k H. intuition (subst; discriminate).
  Qed.

  (** What a style declares *)
  Lemma own_borders n b1 b2 : let borders := w_first ["tblPr"; "tblBorders"] n in
    get_table_borders o borders = Ok b1 -> get_cell_borders o borders = Ok b2 ->
    dict_ok (dupdate b1 (x_cell b2)) /\ dict_ok b1 /\
    (forall k, In k (map fst (OUTER ++ INNER)) -> forall t, dget (dupdate b1 (x_cell b2)) k = Some t <-> declares o (OUTER ++ INNER) n k t) /\
    (forall k, In k (map fst OUTER) -> forall t, dget b1 k = Some t <-> declares o OUTER n k t).
  Proof.
    intros borders H1 H2. unfold borders in *. destruct (w_first ["tblPr"; "tblBorders"] n) as [b|] eqn:Eb.
    - pose proof (proj1 (w_first_spec _ _ _) Eb) as Hb. unfold get_table_borders in H1. unfold get_cell_borders in H2.
      destruct (get_borders_line TABLE_BORDERS b b1 H1 (proj1 keys_outer) (proj2 keys_outer)) as (O1 & L1 & N1).
      destruct (get_borders_line CELL_BORDERS b b2 H2 (proj1 keys_inner) (proj2 keys_inner)) as (O2 & L2 & N2).
      assert (HK : forall sides k t names, In (k, names) sides -> NoDup (map fst sides) -> (declares o sides n k t <-> line o names b t)).
      { intros sides k t names Hin HN. unfold declares. split.
        - intros (b' & names' & Hb' & Hin' & Hl). apply w_first_spec in Hb'. assert (b' = b) by congruence. subst b'.
          assert (names' = names). { apply (proj2 (dget_ok_In sides k names HN)) in Hin. apply (proj2 (dget_ok_In sides k names' HN)) in Hin'. congruence. }
          subst. exact Hl.
        - intros Hl. exists b, names. auto. }
      assert (HN1 : NoDup (map fst (OUTER ++ INNER))) by (apply distinct_NoDup; reflexivity).
      split; [|split; [exact O1|split]].
      + apply dict_ok_dupdate, O1.
      + intros k Hk t. apply in_map_iff in Hk as ([k' names] & <- & Hin). cbn [fst]. rewrite (HK _ _ t names Hin HN1).
        rewrite (dget_dupdate _ _ _ (x_cell_ok _ O2)). apply in_app_iff in Hin as [Hin|Hin].
        * rewrite x_cell_other.
          -- cbn [or_opt]. apply L1. exact Hin.
          -- cbn in Hin. intros s E. repeat (destruct Hin as [Hin|Hin]; [injection Hin as <- _; cbn in E; discriminate|]). destruct Hin.
        * assert (Hs : exists s, k' = ("x-cell-" ++ s)%string /\ In (s, names) CELL_BORDERS).
          { cbn in Hin. repeat (destruct Hin as [Hin|Hin]; [injection Hin as <- <-; eexists; split; [cbn [String.append]; reflexivity|cbn; auto 6]|]). destruct Hin. }
          destruct Hs as (s & -> & Hs). rewrite x_cell_get. destruct (dget b2 s) as [u|] eqn:Eu; cbn [or_opt].
          -- rewrite <- Eu. apply L2. exact Hs.
          -- rewrite N1.
             ++ rewrite <- Eu. apply L2. exact Hs.
             ++ cbn. intuition discriminate.
             ++ cbn. intuition discriminate.
      + intros k Hk t. apply in_map_iff in Hk as ([k' names] & <- & Hin). cbn [fst]. rewrite (HK OUTER _ t names Hin) by (apply distinct_NoDup; reflexivity).
        apply L1. exact Hin.
    - cbn in H1, H2. injection H1 as <-. injection H2 as <-. split; [constructor|]. split; [constructor|].
      assert (Hno : forall sides k t, ~ declares o sides n k t).
      { intros sides k t (b & names & Hb & _). apply w_first_spec in Hb. congruence. }
      split; intros k _ t; (split; [discriminate|intros H; destruct (Hno _ _ _ H)]).
  Qed.
End Borders.

(** ** Inheritance *)

Lemma find_style_spec sheet id st : find_style sheet id = Some st <-> style_of sheet id st.
Proof.
  unfold find_style, w_children, style_of.
  set (P := fun n => match x_get n (wq "styleId") with Some v => String.eqb v id | None => false end).
  assert (HP : forall n, P n = true <-> dget (x_attrs n) (word "styleId") = Some id).
  { intros n. unfold P, x_get. change (wq "styleId") with (word "styleId"). destruct (dget (x_attrs n) (word "styleId")) as [v|]; [|split; discriminate].
    destruct (String.eqb_spec v id); split; congruence. }
  assert (HW : forall n, x_has_tag n (wq "style") = true <-> is_word "style" n) by (intros n; apply has_word).
  clearbody P. induction (x_children sheet) as [|n l IH]; cbn [filter find].
  - split; [discriminate|intros ([|] & post & E & _); discriminate].
  - destruct (x_has_tag n (wq "style")) eqn:Et; cbn [find].
    + destruct (P n) eqn:Ep.
      * split.
        -- intros [= ->]. exists [], l. split; [reflexivity|]. split; [apply HW, Et|]. split; [apply HP, Ep|intros d []].
        -- intros (pre & post & E & Hw & Hi & Hb). destruct pre as [|x pre]; cbn in E; injection E as -> ->; [reflexivity|].
           exfalso. apply (Hb x); [left; reflexivity|apply HW, Et|apply HP, Ep].
      * rewrite IH. split.
        -- intros (pre & post & -> & Hw & Hi & Hb). exists (n :: pre), post. split; [reflexivity|]. split; [exact Hw|]. split; [exact Hi|].
           intros d [<-|Hd]; [|apply Hb, Hd]. intros _ E. apply HP in E. congruence.
        -- intros (pre & post & E & Hw & Hi & Hb). destruct pre as [|x pre]; cbn in E; injection E as -> ->; [apply HP in Hi; congruence|].
           exists pre, post. split; [reflexivity|]. split; [exact Hw|]. split; [exact Hi|]. intros d Hd. apply Hb. right. exact Hd.
    + rewrite IH. split.
      * intros (pre & post & -> & Hw & Hi & Hb). exists (n :: pre), post. split; [reflexivity|]. split; [exact Hw|]. split; [exact Hi|].
        intros d [<-|Hd]; [|apply Hb, Hd]. intros Hw'. apply HW in Hw'. congruence.
      * intros (pre & post & E & Hw & Hi & Hb). destruct pre as [|x pre]; cbn in E; injection E as -> ->; [apply HW in Hw; congruence|].
        exists pre, post. split; [reflexivity|]. split; [exact Hw|]. split; [exact Hi|]. intros d Hd. apply Hb. right. exact Hd.
Qed.
Lemma parent_spec st up : parent st up <-> w_attr ["basedOn"] "val" st = up.
Proof.
  unfold parent. split.
  - intros [(v & Hv & ->)|[Hn ->]]; [apply w_attr_spec, Hv|apply w_attr_none, Hn].
  - destruct (w_attr ["basedOn"] "val" st) as [v|] eqn:E; intros <-.
    + left. exists v. split; [apply w_attr_spec, E|reflexivity].
    + right. split; [apply w_attr_none, E|reflexivity].
Qed.

Section Inheritance.
  Variable o : ooxml_opts.

  Lemma inherited sheet : forall id l, ancestry sheet id l -> forall fuel d, get_style_borders o fuel (Some sheet) id = Ok d ->
    dict_ok d /\ forall k, In k (map fst (OUTER ++ INNER)) -> forall t, dget d k = Some t <-> nearest o l k t.
  Proof.
    induction 1 as [|id Hno|id st up l Hst Hup _ IH]; intros fuel d H; (destruct fuel as [|fuel]; cbn [get_style_borders] in H; [discriminate|]).
    - injection H as <-. split; [constructor|]. intros k _ t. split; [discriminate|]. intros ([|] & s & far & E & _); discriminate.
    - destruct (find_style sheet id) as [st|] eqn:E; [apply find_style_spec in E; destruct (Hno st E)|]. injection H as <-.
      split; [constructor|]. intros k _ t. split; [discriminate|]. intros ([|] & s & far & E' & _); discriminate.
    - apply find_style_spec in Hst. rewrite Hst in H. apply parent_spec in Hup. rewrite Hup in H.
      destruct (get_style_borders o fuel (Some sheet) up) as [d0|] eqn:E0; cbn [rbind] in H; [|discriminate].
      destruct (IH fuel d0 E0) as [O0 N0]. 
      destruct (get_table_borders o (w_first ["tblPr"; "tblBorders"] st)) as [b1|] eqn:E1; cbn [rbind] in H; [|discriminate].
      destruct (get_cell_borders o (w_first ["tblPr"; "tblBorders"] st)) as [b2|] eqn:E2; cbn [rbind] in H; [|discriminate].
      cbv zeta in H. injection H as <-. destruct (own_borders o st b1 b2 E1 E2) as (OB & _ & HB & _).
      split; [apply dict_ok_dupdate, O0|]. intros k Hk t. rewrite (dget_dupdate _ _ _ OB). specialize (HB k Hk).
      destruct (dget (dupdate b1 (x_cell b2)) k) as [u|] eqn:Eu; cbn [or_opt].
      + split.
        * intros [= <-]. exists [], st, l. split; [reflexivity|]. split; [apply HB; reflexivity|intros s v []].
        * intros (near & s & far & E & Hd & Hn). destruct near as [|s' near]; cbn in E.
          -- injection E as <- <-. apply HB in Hd. exact Hd.
          -- injection E as <- ->. destruct (Hn st u); [left; reflexivity|apply HB; reflexivity].
      + rewrite (N0 k Hk t). split.
        * intros (near & s & far & -> & Hd & Hn). exists (st :: near), s, far. split; [reflexivity|]. split; [exact Hd|].
          intros s' v [<-|Hs]; [|apply Hn, Hs]. intros Hv. apply HB in Hv. discriminate.
        * intros (near & s & far & E & Hd & Hn). destruct near as [|s' near]; cbn in E.
          -- injection E as <- <-. apply HB in Hd. discriminate.
          -- injection E as <- ->. exists near, s, far. split; [reflexivity|]. split; [exact Hd|]. intros s'' v Hs. apply Hn. right. exact Hs.
  Qed.
  Lemma ancestry_fun sheet : forall id l, ancestry sheet id l -> forall l', ancestry sheet id l' -> l = l'.
  Proof.
    induction 1 as [|id Hno|id st up l Hst Hup _ IH]; intros l' H'; inversion H' as [|id' Hno'|id' st' up' l0 Hst' Hup' Hl]; subst; try reflexivity.
    - destruct (Hno _ Hst').
    - destruct (Hno' _ Hst).
    - apply find_style_spec in Hst, Hst'. assert (st' = st) by congruence. subst.
      apply parent_spec in Hup, Hup'. subst. f_equal. apply IH, Hl.
  Qed.
  Lemma finite_ancestry sheet fuel : forall id d, get_style_borders o fuel (Some sheet) id = Ok d -> exists l, ancestry sheet id l /\ (List.length l < fuel)%nat.
  Proof.
    induction fuel as [|fuel IH]; intros id d H; cbn [get_style_borders] in H; [discriminate|].
    destruct id as [id|]; [|exists []; split; [constructor|cbn; lia]].
    destruct (find_style sheet id) as [st|] eqn:E.
    - destruct (get_style_borders o fuel (Some sheet) _) as [d0|] eqn:E0; cbn [rbind] in H; [|discriminate].
      destruct (IH _ _ E0) as (l & Hl & Hlen). exists (st :: l). split; [|cbn; lia].
      eapply anc_style; [apply find_style_spec, E|apply parent_spec; reflexivity|exact Hl].
    - exists []. split; [|cbn; lia]. apply anc_unknown. intros st Hst. apply find_style_spec in Hst. congruence.
  Qed.

  (** ** Readable borders *)

  Lemma readable_property b names : readable_borders o b -> exists p, border_property o b names = Ok p /\ shadowed p = false.
  Proof.
    intros HR. unfold border_property. cbv zeta.
    assert (Hf : forall a v, first_attr a (border_nodes names b) = Some v -> exists c, In c (x_children b) /\ dget (x_attrs c) (word a) = Some v).
    { intros a v H. apply first_of_spec in H as (pre & c & post & E & _ & Hv & _). exists c. split; [rewrite E; apply in_elt|exact Hv]. }
    assert (H1 : exists sh, when (first_attr "shadow" (border_nodes names b)) (lookup [("true", true); ("false", false)]) = Ok sh /\
              match sh with Some x => x | None => false end = false).
    { unfold when. destruct (first_attr "shadow" (border_nodes names b)) as [v|] eqn:E; [|exists None; auto].
      destruct (Hf _ _ E) as (c & Hc & Hv). rewrite (proj1 (HR c Hc) v Hv). cbn. eexists. auto. }
    assert (H2 : forall A (f : Q -> A) a, In a ["space"; "sz"] ->
              exists q, when (first_attr a (border_nodes names b)) (fun s => q <-? ox_float o s ;; Ok (f q)) = Ok q).
    { intros A f a Ha. unfold when. destruct (first_attr a (border_nodes names b)) as [v|] eqn:E; [|exists None; reflexivity].
      destruct (truthy (Some v)); [|exists None; reflexivity]. cbn [ostr]. destruct (Hf _ _ E) as (c & Hc & Hv).
      destruct (proj2 (HR c Hc) a v Ha Hv) as (q & ->). cbn [rbind]. eauto. }
    destruct H1 as (sh & -> & Hsh). cbn [rbind].
    assert (H3 : exists q, when (first_attr "space" (border_nodes names b)) (ox_float o) = Ok q).
    { unfold when. destruct (first_attr "space" (border_nodes names b)) as [v|] eqn:E; [|exists None; reflexivity].
      destruct (truthy (Some v)); [|exists None; reflexivity]. cbn [ostr]. destruct (Hf _ _ E) as (c & Hc & Hv).
      destruct (proj2 (HR c Hc) "space" v (or_introl eq_refl) Hv) as (q & ->). cbn [rbind]. eauto. }
    destruct H3 as (sp & ->). cbn [rbind]. destruct (H2 Q (fun q => (q / 8)%Q) "sz") as (sz & E); [cbn; auto|]. rewrite E. cbn [rbind].
    eexists. split; [reflexivity|]. unfold shadowed. cbn [bp_shadow]. destruct sh; auto.
  Qed.
  Lemma readable_get mapping b : (forall n, b = Some n -> readable_borders o n) -> exists d, get_borders o mapping b = Ok d.
  Proof.
    intros HR. unfold get_borders. destruct b as [b|]; [|eauto]. specialize (HR b eq_refl).
    assert (HP : exists props, border_properties o b mapping = Ok props /\ existsb (fun m => shadowed (snd m)) props = false).
    { unfold border_properties. induction mapping as [|m mapping IH]; [exists []; auto|]. cbn [rmap].
      destruct (readable_property b (snd m) HR) as (p & -> & Hp). cbn [rbind]. destruct IH as (props & -> & Hs). cbn [rbind].
      eexists. split; [reflexivity|]. cbn [existsb snd]. rewrite Hp, Hs. reflexivity. }
    destruct HP as (props & -> & Hs). cbn [rbind]. unfold borders_to_styles. rewrite Hs. eauto.
  Qed.
  Lemma readable_ancestry sheet : forall id l, ancestry sheet id l -> Forall (readable_style o) l -> forall fuel, (List.length l < fuel)%nat ->
    exists d, get_style_borders o fuel (Some sheet) id = Ok d.
  Proof.
    induction 1 as [|id Hno|id st up l Hst Hup _ IH]; intros HF fuel Hlen; (destruct fuel as [|fuel]; [lia|]); cbn [get_style_borders].
    - eauto.
    - destruct (find_style sheet id) as [st|] eqn:E; [apply find_style_spec in E; destruct (Hno st E)|]. eauto.
    - apply find_style_spec in Hst. rewrite Hst. apply parent_spec in Hup. rewrite Hup. inversion HF as [|? ? HR HF']; subst.
      destruct (IH HF' fuel) as (d & ->); [cbn in Hlen; lia|]. cbn [rbind].
      assert (HB : forall n, w_first ["tblPr"; "tblBorders"] st = Some n -> readable_borders o n) by (intros n E; apply HR, w_first_spec, E).
      destruct (readable_get TABLE_BORDERS _ HB) as (b1 & E1). destruct (readable_get CELL_BORDERS _ HB) as (b2 & E2).
      unfold get_table_borders, get_cell_borders. rewrite E1. cbn [rbind]. rewrite E2. cbn [rbind]. eauto.
  Qed.

  (** ** Readable parts of a table *)
  Lemma readable_grid_col n : readable_col o n -> exists st, grid_col_styles o n = Ok st.
  Proof.
    intros (v & q & Hv & Hq). unfold grid_col_styles. unfold lookup. change (wq "w") with (word "w"). rewrite Hv. cbn [rbind]. rewrite Hq. cbn [rbind]. eauto.
  Qed.
  Lemma plain_height n : plain_row n -> tr_height o n = Ok [].
  Proof.
    intros H. unfold tr_height. destruct (w_first ["trPr"; "trHeight"] n) eqn:E; [|reflexivity]. destruct H. apply w_first_exists. congruence.
  Qed.
  Lemma most_common_in l : l <> [] -> exists a, most_common l = Ok a /\ In a l.
  Proof.
    intros H. destruct l as [|a l]; [congruence|]. unfold most_common. eexists. split; [reflexivity|].
    assert (HG : forall (f : option string -> option string -> bool) l best, fold_left (fun best b => if f best b then b else best) l best = best \/
                 In (fold_left (fun best b => if f best b then b else best) l best) l).
    { intros f. induction l0 as [|b l0 IH]; intros best; [left; reflexivity|]. cbn [fold_left]. destruct (f best b).
      - right. destruct (IH b) as [E|E]; [left; congruence|right; exact E].
      - destruct (IH best) as [E|E]; [left; exact E|right; right; exact E]. }
    destruct (HG (fun best b => Nat.ltb (jc_count (a :: l) best) (jc_count (a :: l) b)) l a) as [E|E].
    - left. symmetry. exact E.
    - right. exact E.
  Qed.
  Lemma readable_tc n : readable_cell o n -> exists st, tc_styles o n = Ok st.
  Proof.
    intros ((p & Hp & Hw & _) & Hva & Hal & Hb). unfold tc_styles. cbv zeta.
    assert (H1 : exists va, tc_valign n = Ok va).
    { unfold tc_valign. destruct (w_first ["tcPr"; "vAlign"] n); [|eauto].
      destruct (w_attr ["tcPr"; "vAlign"] "val" n) as [v|] eqn:E; [|cbn; eauto]. apply w_attr_spec in E. apply Hva in E. cbn in E.
      cbn [or_default]. repeat (destruct E as [E|E]; [subst v; cbn; eauto|]). destruct E. }
    destruct H1 as (va & ->). cbn [rbind].
    assert (H2 : exists al, tc_align n = Ok al).
    { unfold tc_align. destruct (most_common_in (map (w_attr ["pPr"; "jc"] "val") (w_children "p" n))) as (a & -> & Ha).
      - unfold w_children. intros E. apply map_eq_nil in E. assert (HI : In p (filter (fun c => x_has_tag c (wq "p")) (x_children n))).
        { apply filter_In. split; [exact Hp|apply has_word, Hw]. }
        rewrite E in HI. destruct HI.
      - cbn [rbind]. destruct a as [v|]; [|eauto]. apply in_map_iff in Ha as (p' & E & Hp'). apply filter_In in Hp' as [Hp' Hw'].
        apply w_attr_spec in E. apply has_word in Hw'. pose proof (Hal p' v Hp' Hw' E) as HI. cbn in HI.
        repeat (destruct HI as [HI|HI]; [subst v; cbn; eauto|]). destruct HI. }
    destruct H2 as (al & ->). cbn [rbind]. unfold get_table_borders.
    destruct (readable_get TABLE_BORDERS (w_first ["tcPr"; "tcBorders"] n)) as (b & ->); [|cbn [rbind]; eauto].
    intros m E. apply Hb, w_first_spec, E.
  Qed.
End Inheritance.
