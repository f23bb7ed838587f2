(** * The names of row styles of the Formex builder *)
From Verif Require Import Base M_Xml M_Regex M_Str M_Formex S_Units S_Int S_Formex P_Units P_Int.
Open Scope string_scope.
Open Scope list_scope.
Open Scope Z_scope.

Lemma in_seq a b s w : In w (ms (RSeq a b) s) <->
  exists w1 w2, In w1 (ms a s) /\ In w2 (ms b (snd w1)) /\
    w = (fst (fst w1) ++ fst (fst w2), snd (fst w1) ++ snd (fst w2), snd w2).
Proof.
  cbn [ms]. rewrite in_flat_map. split.
  - intros (w1 & H1 & H2). apply in_map_iff in H2 as (w2 & <- & H2). eauto.
  - intros (w1 & w2 & H1 & H2 & ->). exists w1. split; [exact H1|]. apply in_map_iff. eauto.
Qed.
Lemma in_alt a b s w : In w (ms (RAlt a b) s) <-> In w (ms a s) \/ In w (ms b s).
Proof. cbn [ms]. apply in_app_iff. Qed.
Lemma in_opt a s w : In w (ms (ROpt a) s) <-> In w (ms a s) \/ w = ([], [], s).
Proof. cbn [ms]. rewrite in_app_iff. cbn [In]. intuition. Qed.
Lemma in_group n a s w : In w (ms (RGroup n a) s) <->
  exists w1, In w1 (ms a s) /\ w = (fst (fst w1), (n, fst (fst w1)) :: snd (fst w1), snd w1).
Proof. cbn [ms]. rewrite in_map_iff. split; intros (w1 & H1 & H2); exists w1; auto. Qed.
Lemma in_star p s w : In w (star p s) <-> s = fst (fst w) ++ snd w /\ forallb p (fst (fst w)) = true /\ snd (fst w) = [].
Proof.
  revert w. induction s as [|c s IH]; intros [[m g] r]; cbn [star].
  - cbn [In fst snd]. split.
    + intros [[= <- <- <-]|[]]. auto.
    + intros (E & _ & ->). left. destruct m; [|discriminate]. cbn in E. subst. reflexivity.
  - destruct (p c) eqn:Ec.
    + rewrite in_app_iff, in_map_iff. cbn [In]. split.
      * intros [(w1 & E & H)|[E|[]]].
        -- apply IH in H as (E1 & E2 & E3). injection E as <- <- <-. cbn [fst snd] in *. cbn. rewrite Ec. subst. auto.
        -- injection E as <- <- <-. cbn. auto.
      * cbn [fst snd]. intros (E & H & ->). destruct m as [|d m].
        -- right. left. cbn in E. subst. reflexivity.
        -- left. cbn in E, H. injection E as <- ->. apply andb_true_iff in H as [_ H]. exists (m, [], r). split; [reflexivity|].
           apply IH. cbn. auto.
    + cbn [In fst snd]. split.
      * intros [[= <- <- <-]|[]]. auto.
      * intros (E & H & ->). left. destruct m as [|d m]; [cbn in E; subst; reflexivity|].
        cbn in E, H. injection E as <- ->. rewrite Ec in H. discriminate.
Qed.
Lemma in_plus p s w : In w (ms (RPlus p) s) <->
  s = fst (fst w) ++ snd w /\ fst (fst w) <> [] /\ forallb p (fst (fst w)) = true /\ snd (fst w) = [].
Proof.
  unfold RPlus. rewrite in_seq. split.
  - intros (w1 & w2 & H1 & H2 & ->). cbn [ms] in H1, H2. destruct s as [|c s]; [destruct H1|].
    destruct (p c) eqn:Ec; [|destruct H1]. destruct H1 as [<-|[]]. apply in_star in H2 as (E1 & E2 & E3). cbn [fst snd] in *.
    cbn. rewrite Ec, E3, E1. cbn. split; [reflexivity|]. split; [discriminate|]. auto.
  - destruct w as [[m g] r]. cbn [fst snd]. intros (-> & N & H & ->). destruct m as [|c m]; [congruence|]. cbn in H.
    apply andb_true_iff in H as [Hc Hm]. exists ([c], [], m ++ r), (m, [], r). cbn [ms app]. rewrite Hc.
    split; [left; reflexivity|]. split; [|reflexivity]. apply in_star. cbn. auto.
Qed.
Lemma in_end s w : In w (ms REnd s) <-> w = ([], [], s) /\ (s = [] \/ s = [ascii_of_nat 10]).
Proof.
  cbn [ms]. destruct s as [|c [|d s]].
  - cbn. split; [intros [<-|[]]; auto|intros [-> _]; auto].
  - destruct (Nat.eqb_spec (nat_of_ascii c) 10) as [E|E].
    + cbn. assert (c = ascii_of_nat 10) as -> by (rewrite <- E; symmetry; apply ascii_nat_embedding).
      split; [intros [<-|[]]; auto|intros [-> _]; auto].
    + cbn. split; [intros []|]. intros [_ [H|H]]; [discriminate|]. injection H as ->. apply E. reflexivity.
  - cbn. split; [intros []|]. intros [_ [H|H]]; discriminate.
Qed.

Definition tag_re : regex := RAlt (RLit "ROW") (RAlt (RLit "TI.BLK") (RLit "STI.BLK")).
Lemma in_tag s w : In w (ms tag_re s) <-> exists t, In t row_tags /\ s = list_ascii_of_string t ++ snd w /\ fst w = (list_ascii_of_string t, []).
Proof.
  unfold tag_re. rewrite !in_alt, !ms_lit. unfold row_tags. cbn [In]. split.
  - intros [H|[H|H]]; eexists; (split; [|exact H]); auto.
  - intros (t & [<-|[<-|[<-|[]]]] & H); auto.
Qed.
Lemma in_type s w : In w (ms ROW_TYPES s) <-> exists t, In t row_types /\ s = list_ascii_of_string t ++ snd w /\ fst w = (list_ascii_of_string t, []).
Proof.
  unfold ROW_TYPES. rewrite !in_alt, !ms_lit. unfold row_types. cbn [In]. split.
  - intros [H|[H|[H|[H|H]]]]; eexists; (split; [|exact H]); auto 6.
  - intros (t & [<-|[<-|[<-|[<-|[<-|[]]]]]] & H); auto 6.
Qed.

Definition type_text (type : option string) : list ascii := match type with Some t => "-"%char :: list_ascii_of_string t | None => [] end.
Definition level_text (ds : option (list ascii)) : list ascii := match ds with Some d => list_ascii_of_string "-level" ++ d | None => [] end.
Definition found (type : option string) (ds : option (list ascii)) (tag : string) : list (nat * list ascii) :=
  (1%nat, list_ascii_of_string tag) :: match type with Some t => [(2%nat, list_ascii_of_string t)] | None => [] end ++
  match ds with Some d => [(3%nat, d)] | None => [] end.

Definition parts (s : list ascii) (tag : string) (type : option string) (ds : option (list ascii)) : Prop :=
  In tag row_tags /\ (forall t, type = Some t -> In t row_types) /\
  (forall d, ds = Some d -> d <> [] /\ forallb is_digit d = true) /\
  exists nl, s = list_ascii_of_string tag ++ type_text type ++ level_text ds ++ nl /\ (nl = [] \/ nl = [ascii_of_nat 10]).

Lemma row_info_ways s w : In w (ms ROW_INFO s) <->
  exists tag type ds nl, parts s tag type ds /\ (nl = [] \/ nl = [ascii_of_nat 10]) /\
    s = list_ascii_of_string tag ++ type_text type ++ level_text ds ++ nl /\
    snd (fst w) = found type ds tag /\ snd w = nl /\ fst (fst w) = list_ascii_of_string tag ++ type_text type ++ level_text ds.
Proof.
  unfold ROW_INFO. fold tag_re. split.
  - intros H. apply in_seq in H as (w1 & w2 & H1 & H2 & ->). apply in_group in H1 as (v1 & H1 & ->). apply in_tag in H1 as (tag & Ht & Es & Ev).
    cbn [fst snd] in *. apply in_seq in H2 as (w3 & w4 & H3 & H4 & ->).
    assert (A3 : exists type, (forall t, type = Some t -> In t row_types) /\ snd v1 = type_text type ++ snd w3 /\
      fst w3 = (type_text type, match type with Some t => [(2%nat, list_ascii_of_string t)] | None => [] end)).
    { apply in_opt in H3 as [H3|H3].
      - apply in_seq in H3 as (x1 & x2 & X1 & X2 & ->). apply ms_lit in X1 as [E1 E1']. apply in_group in X2 as (x3 & X3 & ->).
        apply in_type in X3 as (t & Hty & E2 & E2'). exists (Some t). split; [intros t' [= <-]; exact Hty|]. cbn [fst snd type_text].
        rewrite E1, E2, E1', E2'. cbn. auto.
      - subst w3. exists None. split; [discriminate|]. auto. }
    destruct A3 as (type & Hty & E3 & F3). apply in_seq in H4 as (w5 & w6 & H5 & H6 & ->). apply in_end in H6 as (-> & Hnl).
    assert (A5 : exists ds, (forall d, ds = Some d -> d <> [] /\ forallb is_digit d = true) /\ snd w3 = level_text ds ++ snd w5 /\
      fst w5 = (level_text ds, match ds with Some d => [(3%nat, d)] | None => [] end)).
    { apply in_opt in H5 as [H5|H5].
      - apply in_seq in H5 as (x1 & x2 & X1 & X2 & ->). apply ms_lit in X1 as [E1 E1']. apply in_group in X2 as (x3 & X3 & ->).
        apply in_plus in X3 as (E2 & N & D & E2'). exists (Some (fst (fst x3))). split; [intros d [= <-]; auto|]. cbn [fst snd level_text].
        rewrite E1, E2, E1', E2'. cbn. auto.
      - subst w5. exists None. split; [discriminate|]. auto. }
    destruct A5 as (ds & Hds & E5 & F5). cbn [fst snd] in *.
    assert (EE : s = list_ascii_of_string tag ++ type_text type ++ level_text ds ++ snd w5) by (rewrite Es, E3, E5; reflexivity).
    exists tag, type, ds, (snd w5). split; [|split; [exact Hnl|split; [exact EE|]]].
    + split; [exact Ht|]. split; [exact Hty|]. split; [exact Hds|]. exists (snd w5). auto.
    + rewrite Ev, F3, F5. cbn [fst snd]. rewrite !app_nil_r. unfold found. auto.
  - intros (tag & type & ds & nl & (Ht & Hty & Hds & _) & Hnl & -> & Eg & Er & Em). destruct w as [[m g] r]. cbn [fst snd] in *. subst.
    apply in_seq. exists (list_ascii_of_string tag, [(1%nat, list_ascii_of_string tag)], type_text type ++ level_text ds ++ nl).
    exists (type_text type ++ level_text ds,
      match type with Some t => [(2%nat, list_ascii_of_string t)] | None => [] end ++ match ds with Some d => [(3%nat, d)] | None => [] end, nl).
    split; [|split; [|reflexivity]].
    + apply in_group. exists (list_ascii_of_string tag, [], type_text type ++ level_text ds ++ nl). split; [|reflexivity].
      apply in_tag. exists tag. auto.
    + cbn [snd]. apply in_seq.
      exists (type_text type, match type with Some t => [(2%nat, list_ascii_of_string t)] | None => [] end, level_text ds ++ nl).
      exists (level_text ds, match ds with Some d => [(3%nat, d)] | None => [] end, nl). split; [|split; [|reflexivity]].
      * apply in_opt. destruct type as [t|]; [left|right; reflexivity]. cbn [type_text]. apply in_seq.
        exists (["-"%char], [], list_ascii_of_string t ++ level_text ds ++ nl).
        exists (list_ascii_of_string t, [(2%nat, list_ascii_of_string t)], level_text ds ++ nl). split; [|split; [|reflexivity]].
        -- apply ms_lit. auto.
        -- apply in_group. exists (list_ascii_of_string t, [], level_text ds ++ nl). split; [|reflexivity]. apply in_type. exists t. auto.
      * cbn [snd]. apply in_seq. exists (level_text ds, match ds with Some d => [(3%nat, d)] | None => [] end, nl), ([], [], nl).
        split; [|split; [|cbn; rewrite !app_nil_r; reflexivity]].
        -- apply in_opt. destruct ds as [d|]; [left|right; reflexivity]. cbn [level_text]. apply in_seq.
           exists (list_ascii_of_string "-level", [], d ++ nl), (d, [(3%nat, d)], nl). split; [|split; [|reflexivity]].
           ++ apply ms_lit. cbn [snd fst]. rewrite app_assoc. auto.
           ++ apply in_group. exists (d, [], nl). split; [|reflexivity]. apply in_plus. cbn. destruct (Hds d eq_refl). auto.
        -- apply in_end. auto.
Qed.

(** a name has one reading *)
Lemma digits_tail d nl : forallb is_digit d = true -> (nl = [] \/ nl = [ascii_of_nat 10]) -> forall d' nl',
  forallb is_digit d' = true -> (nl' = [] \/ nl' = [ascii_of_nat 10]) -> d ++ nl = d' ++ nl' -> d = d'.
Proof.
  intros H Hn. induction d as [|c d IH]; intros [|c' d'] nl' H' Hn' E; [reflexivity| | |].
  - exfalso. cbn in E, H'. apply andb_true_iff in H' as [H' _]. destruct Hn as [-> | ->]; [discriminate|].
    injection E as <- _. discriminate H'.
  - exfalso. cbn in E, H. apply andb_true_iff in H as [H _]. destruct Hn' as [-> | ->]; [discriminate|].
    injection E as -> _. discriminate H.
  - cbn in E, H, H'. injection E as -> E. apply andb_true_iff in H as [_ H]. apply andb_true_iff in H' as [_ H'].
    f_equal. apply (IH H d' nl' H' Hn' E).
Qed.
Lemma level_unique ds ds' nl nl' : (forall d, ds = Some d -> d <> [] /\ forallb is_digit d = true) ->
  (forall d, ds' = Some d -> d <> [] /\ forallb is_digit d = true) ->
  (nl = [] \/ nl = [ascii_of_nat 10]) -> (nl' = [] \/ nl' = [ascii_of_nat 10]) ->
  level_text ds ++ nl = level_text ds' ++ nl' -> ds = ds'.
Proof.
  intros H H' Hn Hn' E. destruct ds as [d|], ds' as [d'|]; cbn [level_text] in E.
  - destruct (H d eq_refl) as [_ D]. destruct (H' d' eq_refl) as [_ D']. f_equal.
    rewrite <- !app_assoc in E. apply app_inv_head in E. exact (digits_tail d nl D Hn d' nl' D' Hn' E).
  - exfalso. destruct Hn' as [-> | ->]; discriminate.
  - exfalso. destruct Hn as [-> | ->]; discriminate.
  - reflexivity.
Qed.
Lemma level_first ds nl : (nl = [] \/ nl = [ascii_of_nat 10]) ->
  level_text ds ++ nl = [] \/ level_text ds ++ nl = [ascii_of_nat 10] \/ exists r, level_text ds ++ nl = "-"%char :: "l"%char :: r.
Proof. intros Hn. destruct ds as [d|]; [right; right; eexists; reflexivity|]. cbn. destruct Hn; auto. Qed.
Lemma type_unique t t' x x' : (forall y, t = Some y -> In y row_types) -> (forall y, t' = Some y -> In y row_types) ->
  (x = [] \/ x = [ascii_of_nat 10] \/ exists r, x = "-"%char :: "l"%char :: r) ->
  (x' = [] \/ x' = [ascii_of_nat 10] \/ exists r, x' = "-"%char :: "l"%char :: r) ->
  type_text t ++ x = type_text t' ++ x' -> t = t' /\ x = x'.
Proof.
  intros H H' Hx Hx' E. destruct t as [y|], t' as [y'|]; cbn [type_text] in E.
  - specialize (H y eq_refl). specialize (H' y' eq_refl). clear Hx Hx'. unfold row_types in *. cbn [In] in H, H'.
    repeat (destruct H as [<-|H]; [repeat (destruct H' as [<-|H']; [first [discriminate E|injection E as E; split; [reflexivity|exact E]]|]); destruct H'|]); destruct H.
  - exfalso. specialize (H y eq_refl). unfold row_types in *. cbn [In] in H.
    destruct Hx' as [->|[->|[r ->]]]; repeat (destruct H as [<-|H]; [discriminate E|]); destruct H.
  - exfalso. specialize (H' y' eq_refl). unfold row_types in *. cbn [In] in H'.
    destruct Hx as [->|[->|[r ->]]]; repeat (destruct H' as [<-|H']; [discriminate E|]); destruct H'.
  - auto.
Qed.
Lemma tag_unique t t' x x' : In t row_tags -> In t' row_tags -> list_ascii_of_string t ++ x = list_ascii_of_string t' ++ x' -> t = t' /\ x = x'.
Proof.
  intros H H' E. unfold row_tags in *. cbn [In] in H, H'.
  repeat (destruct H as [<-|H]; [repeat (destruct H' as [<-|H']; [first [discriminate E|injection E as E; split; [reflexivity|exact E]]|]); destruct H'|]); destruct H.
Qed.
Lemma parts_unique s tag type ds tag' type' ds' : parts s tag type ds -> parts s tag' type' ds' -> tag = tag' /\ type = type' /\ ds = ds'.
Proof.
  intros (H1 & H2 & H3 & nl & -> & Hn) (H1' & H2' & H3' & nl' & E & Hn').
  apply tag_unique in E as [-> E]; [|assumption|assumption].
  apply type_unique in E as [-> E]; [|assumption|assumption|apply level_first; assumption|apply level_first; assumption].
  apply level_unique in E as ->; auto.
Qed.

Lemma group_found type ds tag m r :
  MkRowInfo (match group 1 (m, found type ds tag, r) with Some g => string_of_list_ascii g | None => "" end)
    (match group 2 (m, found type ds tag, r) with Some g => Some (string_of_list_ascii g) | None => None end)
    (match group 3 (m, found type ds tag, r) with Some g => int_of_digits g | None => 0 end) =
  MkRowInfo tag type (match ds with Some d => int_of_digits d | None => 0 end).
Proof.
  unfold group, found. cbn [fst snd find Nat.eqb app]. rewrite string_of_list_ascii_of_string.
  destruct type as [t|]; destruct ds as [d|]; cbn; rewrite ?string_of_list_ascii_of_string; reflexivity.
Qed.

Lemma guess_parts s tag type ds : parts (list_ascii_of_string s) tag type ds ->
  guess_row_info (Some s) = MkRowInfo tag type (match ds with Some d => int_of_digits d | None => 0 end).
Proof.
  intros HP. unfold guess_row_info, re_match.
  destruct (ms ROW_INFO (list_ascii_of_string s)) as [|w ws] eqn:E; cbn [hd_error].
  - exfalso. destruct HP as (H1 & H2 & H3 & nl & Es & Hn).
    assert (X : In (list_ascii_of_string tag ++ type_text type ++ level_text ds, found type ds tag, nl) (ms ROW_INFO (list_ascii_of_string s))).
    { apply row_info_ways. exists tag, type, ds, nl. split; [|auto 6]. split; [exact H1|]. split; [exact H2|]. split; [exact H3|]. exists nl. auto. }
    rewrite E in X. destruct X.
  - assert (X : In w (ms ROW_INFO (list_ascii_of_string s))) by (rewrite E; left; reflexivity).
    apply row_info_ways in X as (tag' & type' & ds' & nl & HP' & _ & _ & Eg & _ & _).
    destruct (parts_unique _ _ _ _ _ _ _ HP HP') as (<- & <- & <-). destruct w as [[m g] r]. cbn [fst snd] in Eg. subst g.
    apply group_found.
Qed.
Lemma guess_other s : (forall tag type ds, ~ parts (list_ascii_of_string s) tag type ds) -> guess_row_info (Some s) = no_row_info.
Proof.
  intros HN. unfold guess_row_info, re_match.
  destruct (ms ROW_INFO (list_ascii_of_string s)) as [|w ws] eqn:E; [reflexivity|]. exfalso.
  assert (X : In w (ms ROW_INFO (list_ascii_of_string s))) by (rewrite E; left; reflexivity).
  apply row_info_ways in X as (tag & type & ds & nl & HP & _). exact (HN _ _ _ HP).
Qed.

Lemma row_style_name_parts s tag type level : row_style_name s tag type level <->
  exists ds, parts (list_ascii_of_string s) tag type ds /\ option_map int_of_digits ds = level.
Proof.
  split.
  - intros (H1 & H2 & lev & nl & Es & Hl & Hn). destruct level as [n|].
    + destruct Hl as (ds & N & D & ->). apply digits_value_spec in D as [D V]. exists (Some ds). split; [|cbn; congruence].
      split; [exact H1|]. split; [exact H2|]. split; [intros d [= <-]; auto|]. exists nl. auto.
    + subst lev. exists None. split; [|reflexivity]. split; [exact H1|]. split; [exact H2|]. split; [discriminate|]. exists nl. auto.
  - intros (ds & (H1 & H2 & H3 & nl & Es & Hn) & <-). split; [exact H1|]. split; [exact H2|]. exists (level_text ds), nl.
    split; [exact Es|]. split; [|exact Hn]. destruct ds as [d|]; cbn; [|reflexivity]. destruct (H3 d eq_refl) as [N D]. exists d.
    split; [exact N|]. split; [apply digits_value_spec; auto|reflexivity].
Qed.
