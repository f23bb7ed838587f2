(** * The styles of the cells and of the rows of Word tables *)
From Coq Require Import QArith.
From Verif Require Import Base M_Geometry M_Xml M_Cell M_Grid M_Table M_Str M_CalsParser M_Ooxml.
From Verif Require Import S_Geometry S_Grid S_Table S_Int S_Cell S_CalsParser S_Ooxml S_OoxmlStyle.
From Verif Require Import P_Geometry P_Grid P_GridFacts P_Cell P_TableFacts P_TableMore P_Int P_Cals P_CalsParser P_CalsLayout P_OoxmlPath P_OoxmlRegions P_OoxmlLayout P_OoxmlRun P_OoxmlTable P_OoxmlStyle.
Open Scope string_scope.
Open Scope list_scope.

(** ** The most frequent alignment *)

Definition first_max (t : option string -> nat) (l : list (option string)) (a : option string) : Prop :=
  exists pre post, l = pre ++ a :: post /\ (forall b, In b pre -> (t b < t a)%nat) /\ (forall b, In b post -> (t b <= t a)%nat).
Lemma first_max_unique t l a b : first_max t l a -> first_max t l b -> a = b.
Proof.
  intros (p & q & E & H1 & H2) (p' & q' & E' & H1' & H2'). rewrite E in E'. clear E l. revert p' E' H1'.
  induction p as [|x p IH]; intros [|x' p'] E' H1'; cbn in E'.
  - injection E'. auto.
  - injection E' as -> ->. pose proof (H1' x' (or_introl eq_refl)). assert (In b (p' ++ b :: q')) as Hb by (apply in_app_iff; right; left; reflexivity).
    pose proof (H2 b Hb). lia.
  - injection E' as -> <-. pose proof (H1 b (or_introl eq_refl)). assert (In a (p ++ a :: q)) as Ha by (apply in_app_iff; right; left; reflexivity).
    pose proof (H2' a Ha). lia.
  - injection E' as -> E'. apply (IH (fun b Hb => H1 b (or_intror Hb)) p' E' (fun b Hb => H1' b (or_intror Hb))).
Qed.
Lemma fold_max t l : forall seen best, first_max t seen best ->
  first_max t (seen ++ l) (fold_left (fun best b => if Nat.ltb (t best) (t b) then b else best) l best).
Proof.
  induction l as [|x l IH]; intros seen best H; [rewrite app_nil_r; exact H|]. cbn [fold_left].
  replace (seen ++ x :: l) with ((seen ++ [x]) ++ l) by (rewrite <- app_assoc; reflexivity). apply IH.
  destruct H as (p & q & -> & H1 & H2). destruct (Nat.ltb_spec (t best) (t x)) as [L|L].
  - exists (p ++ best :: q), []. split; [reflexivity|]. split; [|intros b []].
    intros b Hb. apply in_app_iff in Hb as [Hb|[<-|Hb]]; [specialize (H1 b Hb); lia|lia|specialize (H2 b Hb); lia].
  - exists p, (q ++ [x]). split; [rewrite <- app_assoc; reflexivity|]. split; [exact H1|].
    intros b Hb. apply in_app_iff in Hb as [Hb|[<-|[]]]; [apply H2, Hb|exact L].
Qed.
Lemma jc_count_times l a : jc_count l a = times l a.
Proof.
  unfold jc_count, times. induction l as [|b l IH]; [reflexivity|]. cbn [filter count_occ].
  destruct (opt_string_dec b a) as [->|Hne].
  - assert (E : jc_eqb a a = true) by (destruct a; cbn; [apply String.eqb_refl|reflexivity]). rewrite E. cbn [List.length]. rewrite IH. reflexivity.
  - assert (E : jc_eqb a b = false).
    { destruct a, b; cbn; try reflexivity; [|congruence]. apply String.eqb_neq. congruence. }
    rewrite E. exact IH.
Qed.
Lemma most_common_spec l r : most_common l = Ok r <-> dominant l r.
Proof.
  assert (HA : forall r, most_common l = Ok r -> dominant l r).
  { clear r. intros r H. destruct l as [|a l]; [discriminate|]. cbn [most_common] in H. injection H as <-.
    pose proof (fold_max (jc_count (a :: l)) l [a] a) as HM. destruct HM as (p & q & E & H1 & H2).
    - exists [], []. split; [reflexivity|]. split; intros b [].
    - exists p, q. split; [exact E|]. split; intros b Hb; rewrite <- !jc_count_times; auto. }
  split; [apply HA|]. intros Hd. destruct (most_common l) as [r'|e] eqn:E.
  - f_equal. apply (first_max_unique (times l) l); [|exact Hd]. apply HA. reflexivity.
  - destruct l; [|discriminate]. destruct Hd as (p & q & E' & _). destruct p; discriminate.
Qed.

Lemma alignment_spec p a : alignment p a <-> w_attr ["pPr"; "jc"] "val" p = a.
Proof.
  unfold alignment. split.
  - intros [(v & Hv & ->)|[Hn ->]]; [apply w_attr_spec, Hv|apply w_attr_none, Hn].
  - intros <-. destruct (w_attr ["pPr"; "jc"] "val" p) as [v|] eqn:E; [left; exists v; split; [apply w_attr_spec, E|reflexivity]|right; split; [apply w_attr_none, E|reflexivity]].
Qed.
Lemma alignments_spec tc l : alignments tc l <-> l = map (w_attr ["pPr"; "jc"] "val") (w_children "p" tc).
Proof.
  assert (HS : forall ps, selects (is_word "p") (x_children tc) ps <-> ps = w_children "p" tc).
  { assert (HX : selects (is_word "p") (x_children tc) (w_children "p" tc)) by (apply selects_filter; intros n; apply has_word).
    intros ps. split; [intros H; exact (selects_unique _ _ _ _ H HX)|intros ->; exact HX]. }
  assert (HF : forall ps l, Forall2 alignment ps l <-> l = map (w_attr ["pPr"; "jc"] "val") ps).
  { clear. induction ps as [|p ps IH]; intros l; cbn [map]; split.
    - intros H. inversion H. reflexivity.
    - intros ->. constructor.
    - intros H. inversion H as [|? a ? l' H1 H2]; subst. apply alignment_spec in H1. apply IH in H2. congruence.
    - intros ->. constructor; [apply alignment_spec; reflexivity|apply IH; reflexivity]. }
  unfold alignments. split.
  - intros (ps & H1 & H2). apply HS in H1. apply HF in H2. congruence.
  - intros ->. exists (w_children "p" tc). split; [apply HS; reflexivity|apply HF; reflexivity].
Qed.

(** ** Cells without text *)

Lemma w_inside_spec name n : w_inside name n = true <-> exists d, below d n /\ is_word name d.
Proof.
  induction n as [tag attrs text children tail IH| |] using xnode_ind'.
  - cbn [w_inside]. rewrite existsb_exists. split.
    + intros (c & Hc & H). apply orb_true_iff in H as [H|H].
      * exists c. split; [apply below_child; exact Hc|apply has_word, H].
      * rewrite Forall_forall in IH. apply (IH c Hc) in H as (d & Hd & Hw). exists d. split; [apply (below_deep d c); [exact Hc|exact Hd]|exact Hw].
    + intros (d & Hd & Hw). inversion Hd as [n Hin|c n Hin Hb]; subst; cbn in Hin.
      * exists d. split; [exact Hin|]. apply orb_true_iff. left. apply has_word, Hw.
      * exists c. split; [exact Hin|]. apply orb_true_iff. right. rewrite Forall_forall in IH. apply (IH c Hin). exists d. auto.
  - cbn. split; [discriminate|]. intros (d & Hd & _). inversion Hd as [n Hin|c n Hin Hb]; subst; destruct Hin.
  - cbn. split; [discriminate|]. intros (d & Hd & _). inversion Hd as [n Hin|c n Hin Hb]; subst; destruct Hin.
Qed.
Lemma str_concat_empty l : str_concat l = "" <-> Forall (fun s => s = "") l.
Proof.
  induction l as [|a l IH]; [split; [constructor|reflexivity]|]. rewrite str_concat_cons. split.
  - intros H. destruct a; [|discriminate]. constructor; [reflexivity|apply IH, H].
  - intros H. inversion H as [|? ? E H']; subst. cbn. apply IH, H'.
Qed.
Lemma tc_empty_spec tc : tc_empty tc = true <-> textless tc /\ pictureless tc.
Proof.
  unfold tc_empty. rewrite !andb_true_iff, !negb_true_iff, String.eqb_eq.
  assert (H1 : get_content_text (CList (map CNode (tc_content tc))) = "" <-> textless tc).
  { cbn [get_content_text]. rewrite str_concat_empty, map_map, Forall_map, Forall_forall. unfold textless, tc_content. cbn [get_content_text]. split.
    - intros H c Hc Hw. rewrite <- node_text_tokens. apply H. apply (in_map (fun n => x_set_tail n None)). apply filter_In. split; [exact Hc|]. apply orb_true_iff.
      destruct Hw as [Hw|Hw]; [left|right]; apply has_word, Hw.
    - intros H x Hx. apply in_map_iff in Hx as (c & <- & Hc). apply filter_In in Hc as [Hc Hw]. rewrite node_text_tokens. apply H; [exact Hc|].
      apply orb_true_iff in Hw as [Hw|Hw]; [left|right]; apply has_word, Hw. }
  assert (H2 : w_inside "drawing" tc = false /\ w_inside "pict" tc = false <-> pictureless tc).
  { rewrite <- !not_true_iff_false, !w_inside_spec. unfold pictureless. split.
    - intros [A B] d Hd. split; intros Hw; [apply A|apply B]; exists d; auto.
    - intros H. split; intros (d & Hd & Hw); destruct (H d Hd); auto. }
  rewrite and_assoc, H1, H2. reflexivity.
Qed.

(** ** The parts of the styles of a cell *)

Section Parts.
  Variable o : ooxml_opts.
  Variable tc : xnode.

  Lemma shd_spec : dict_ok (shd_styles (w_first ["tcPr"; "shd"] tc)) /\
    forall k v, dget (shd_styles (w_first ["tcPr"; "shd"] tc)) k = Some v <->
      k = "background-color" /\ exists e f, element_at ["tcPr"; "shd"] tc e /\ dget (x_attrs e) (word "fill") = Some f /\ f <> "auto" /\ v = SStr ("#" ++ f).
  Proof.
    destruct (w_first ["tcPr"; "shd"] tc) as [e|] eqn:E.
    - pose proof (proj1 (w_first_spec _ _ _) E) as He.
      assert (HU : forall e', element_at ["tcPr"; "shd"] tc e' -> e' = e) by (intros e' H; apply w_first_spec in H; congruence).
      unfold shd_styles. cbn [on_node]. unfold x_get. change (wq "fill") with (word "fill").
      destruct (dget (x_attrs e) (word "fill")) as [f|] eqn:Ef.
      + destruct (String.eqb_spec f "auto") as [->|Hne].
        * split; [constructor|]. intros k v. split; [discriminate|]. intros (_ & e' & f & H & Hf & Hn & _). apply HU in H. subst. congruence.
        * split; [apply distinct_NoDup; reflexivity|]. intros k v. cbn [dget]. destruct (String.eqb_spec k "background-color") as [->|Hk].
          -- split; [intros [= <-]; split; [reflexivity|]; exists e, f; auto|]. intros (_ & e' & f' & H & Hf & _ & ->). apply HU in H. subst. congruence.
          -- split; [discriminate|]. intros [X _]. congruence.
      + split; [constructor|]. intros k v. split; [discriminate|]. intros (_ & e' & f & H & Hf & _). apply HU in H. subst. congruence.
    - split; [constructor|]. intros k v. split; [discriminate|]. intros (_ & e' & f & H & _). apply w_first_spec in H. congruence.
  Qed.
  Lemma value_or_spec path a def v : value_or path a def tc v <-> v = or_default def (w_attr path a tc).
  Proof.
    unfold value_or, or_default. destruct (w_attr path a tc) as [u|] eqn:E.
    - pose proof (proj1 (w_attr_spec _ _ _ _) E) as Hu. split; [|intros ->; left; exact Hu].
      intros [H|[H _]]; [apply w_attr_spec in H; congruence|]. exfalso. apply H. eauto.
    - pose proof (proj1 (w_attr_none _ _ _) E) as Hn. split; [|intros ->; right; auto].
      intros [H|[_ ->]]; [exfalso; apply Hn; eauto|reflexivity].
  Qed.
  Lemma valign_spec d : tc_valign tc = Ok d -> dict_ok d /\
    forall k v, dget d k = Some v <->
      k = "vertical-align" /\ exists_at ["tcPr"; "vAlign"] tc /\ exists a x, value_or ["tcPr"; "vAlign"] "val" "top" tc a /\
        In (a, x) [("top", "top"); ("center", "middle"); ("bottom", "bottom"); ("both", "w-both")] /\ v = SStr x.
  Proof.
    unfold tc_valign. destruct (w_first ["tcPr"; "vAlign"] tc) as [e|] eqn:E.
    - assert (HE : exists_at ["tcPr"; "vAlign"] tc) by (apply w_first_exists; congruence).
      unfold lookup. destruct (dget VALIGN_W _) as [x|] eqn:Ex; cbn [rbind]; [|discriminate]. intros H. injection H as <-.
      apply (proj1 (dget_ok_In VALIGN_W _ x ltac:(apply distinct_NoDup; reflexivity))) in Ex.
      split; [apply distinct_NoDup; reflexivity|]. intros k v. cbn [dget]. destruct (String.eqb_spec k "vertical-align") as [->|Hk].
      + split.
        * intros [= <-]. split; [reflexivity|]. split; [exact HE|]. eexists _, x. split; [apply value_or_spec; reflexivity|]. split; [exact Ex|reflexivity].
        * intros (_ & _ & a & y & Ha & Hin & ->). apply value_or_spec in Ha. subst a.
          apply (proj2 (dget_ok_In VALIGN_W _ y ltac:(apply distinct_NoDup; reflexivity))) in Hin.
          apply (proj2 (dget_ok_In VALIGN_W _ x ltac:(apply distinct_NoDup; reflexivity))) in Ex. congruence.
      + split; [discriminate|]. intros [X _]. congruence.
    - intros H. injection H as <-. split; [constructor|]. intros k v. split; [discriminate|]. intros (_ & HE & _). apply w_first_exists in HE. congruence.
  Qed.
  Lemma align_spec d : tc_align tc = Ok d -> dict_ok d /\
    forall k v, dget d k = Some v <->
      k = "align" /\ exists l a x, alignments tc l /\ dominant l (Some a) /\
       In (a, x) [("start", "left"); ("end", "right"); ("left", "left"); ("right", "right"); ("center", "center");
                  ("both", "justify"); ("distribute", "justify")] /\ v = SStr x.
  Proof.
    unfold tc_align. destruct (most_common _) as [jc|] eqn:E; cbn [rbind]; [|discriminate].
    apply most_common_spec in E.
    assert (HU : forall l a, alignments tc l -> dominant l a -> a = jc).
    { intros l a Hl Hd. apply alignments_spec in Hl. subst l. exact (first_max_unique _ _ _ _ Hd E). }
    destruct jc as [jc|].
    - unfold lookup. destruct (dget ALIGN_W jc) as [x|] eqn:Ex; cbn [rbind]; [|discriminate]. intros H. injection H as <-.
      pose proof (proj1 (dget_ok_In ALIGN_W _ x ltac:(apply distinct_NoDup; reflexivity)) Ex) as Hx.
      split; [apply distinct_NoDup; reflexivity|]. intros k v. cbn [dget]. destruct (String.eqb_spec k "align") as [->|Hk].
      + split.
        * intros [= <-]. split; [reflexivity|]. eexists _, jc, x. split; [apply alignments_spec; reflexivity|]. auto.
        * intros (_ & l & a & y & Hl & Hd & Hin & ->). pose proof (HU _ _ Hl Hd) as [= ->].
          apply (proj2 (dget_ok_In ALIGN_W _ y ltac:(apply distinct_NoDup; reflexivity))) in Hin. congruence.
      + split; [discriminate|]. intros [X _]. congruence.
    - intros H. injection H as <-. split; [constructor|]. intros k v. split; [discriminate|].
      intros (_ & l & a & y & Hl & Hd & _). pose proof (HU _ _ Hl Hd). discriminate.
  Qed.
  Lemma svals_get d k v : dget (svals d) k = Some v <-> exists u, v = SStr u /\ dget d k = Some u.
  Proof.
    induction d as [|[a b] d IH]; cbn [svals map fst snd dget]; [split; [discriminate|intros (u & _ & E); discriminate]|].
    fold (svals d). destruct (String.eqb k a); [|exact IH]. split; [intros [= <-]; exists b; auto|intros (u & -> & [= ->]); reflexivity].
  Qed.
  Lemma svals_ok d : dict_ok d -> dict_ok (svals d).
  Proof. unfold dict_ok, svals. rewrite map_map. cbn [fst]. auto. Qed.
  Lemma borders_spec d : get_table_borders o (w_first ["tcPr"; "tcBorders"] tc) = Ok d -> dict_ok (svals d) /\
    forall k v, In k CELL_STYLES -> (dget (svals d) k = Some v <->
      exists b names t, element_at ["tcPr"; "tcBorders"] tc b /\ In (k, names) OUTER /\ line o names b t /\ v = SStr t).
  Proof.
    intros H. destruct (w_first ["tcPr"; "tcBorders"] tc) as [b|] eqn:Eb.
    - destruct (get_borders_line o TABLE_BORDERS b d H (proj1 keys_outer) (proj2 keys_outer)) as (O1 & L1 & N1).
      split; [apply svals_ok, O1|]. intros k v Hk. rewrite svals_get. split.
      + intros (u & -> & Hu). destruct (in_dec String.string_dec k (map fst TABLE_BORDERS)) as [Hin|Hin].
        * apply in_map_iff in Hin as ([k' names] & E & Hin). cbn in E. subst k'. exists b, names, u. split; [apply w_first_spec, Eb|].
          split; [exact Hin|]. split; [apply (L1 k names Hin), Hu|reflexivity].
        * exfalso. rewrite N1 in Hu; [discriminate|exact Hin|]. cbn in Hk |- *. intuition (subst; discriminate).
      + intros (b' & names & t & Hb & Hin & Hl & ->). apply w_first_spec in Hb. assert (b' = b) by congruence. subst b'.
        exists t. split; [reflexivity|]. apply (L1 k names Hin), Hl.
    - cbn in H. injection H as <-. split; [constructor|]. intros k v _. split; [discriminate|]. intros (b & names & t & Hb & _). apply w_first_spec in Hb. congruence.
  Qed.

  Lemma tc_styles_spec st : tc_styles o tc = Ok st -> forall k v, In k CELL_STYLES -> (dget st k = Some v <-> cell_style o tc k v).
  Proof.
    unfold tc_styles. cbv zeta. destruct (tc_valign tc) as [va|] eqn:Ev; cbn [rbind]; [|discriminate].
    destruct (tc_align tc) as [al|] eqn:Ea; cbn [rbind]; [|discriminate].
    destruct (get_table_borders o (w_first ["tcPr"; "tcBorders"] tc)) as [bo|] eqn:Eb; cbn [rbind]; [|discriminate]. intros H.
    destruct shd_spec as [O1 S1]. destruct (valign_spec va Ev) as [O2 S2]. destruct (align_spec al Ea) as [O3 S3]. destruct (borders_spec bo Eb) as [O4 S4].
    set (sh := shd_styles (w_first ["tcPr"; "shd"] tc)) in *. intros k v Hk.
    assert (E : dget st k = if andb (tc_empty tc) (String.eqb k "x-cell-empty") then Some (SStr "true")
                else or_opt (dget (svals bo) k) (or_opt (dget al k) (or_opt (dget va k) (dget sh k)))).
    { rewrite <- (dget_dupdate sh va k O2), <- (dget_dupdate _ al k O3), <- (dget_dupdate _ _ k O4).
      destruct (tc_empty tc); injection H as <-; cbn [andb]; [|reflexivity].
      destruct (String.eqb_spec k "x-cell-empty") as [->|Hne]; [apply dget_dset_same|apply dget_dset_other; congruence]. }
    rewrite E. clear E H. unfold cell_style. rewrite <- S1, <- S2, <- S3, <- (S4 k v Hk).
    assert (HE : (k = "x-cell-empty" /\ textless tc /\ pictureless tc /\ v = SStr "true") <-> (andb (tc_empty tc) (String.eqb k "x-cell-empty") = true /\ v = SStr "true")).
    { rewrite andb_true_iff, tc_empty_spec, String.eqb_eq. tauto. }
    rewrite HE. clear HE.
    assert (N4 : forall K, In K ["background-color"; "vertical-align"; "align"; "x-cell-empty"] -> k = K -> dget (svals bo) k = None).
    { intros K HK ->. destruct (dget (svals bo) K) as [u|] eqn:Eu; [|reflexivity]. exfalso. apply (S4 K u Hk) in Eu as (b & names & t & _ & Hin & _).
      apply (in_map fst) in Hin. cbn in HK, Hin. intuition (subst; discriminate). }
    destruct (andb (tc_empty tc) (String.eqb k "x-cell-empty")) eqn:Ee.
    - apply andb_true_iff in Ee as [_ Ee]. apply String.eqb_eq in Ee. split; [intros [= <-]; tauto|]. intros [X|[X|[X|[[_ ->]|X]]]].
      + apply S1 in X as [X _]. congruence.
      + apply S2 in X as [X _]. congruence.
      + apply S3 in X as [X _]. congruence.
      + reflexivity.
      + rewrite (N4 "x-cell-empty") in X; [discriminate|cbn; tauto|exact Ee].
    - split.
      + destruct (dget (svals bo) k); [intros [= ->]; tauto|]. cbn [or_opt]. destruct (dget al k); [intros [= ->]; tauto|]. cbn [or_opt].
        destruct (dget va k); [intros [= ->]; tauto|]. cbn [or_opt]. tauto.
      + intros [X|[X|[X|[[X _]|X]]]]; [| | |discriminate|rewrite X; reflexivity].
        * pose proof (proj1 (S1 k v) X) as [Ek _]. rewrite (N4 "background-color") by (cbn; tauto). 
          assert (E3 : dget al k = None) by (destruct (dget al k) as [u|] eqn:Eu; [apply S3 in Eu as [Eu _]; congruence|reflexivity]).
          assert (E2 : dget va k = None) by (destruct (dget va k) as [u|] eqn:Eu; [apply S2 in Eu as [Eu _]; congruence|reflexivity]).
          rewrite E3, E2, X. reflexivity.
        * pose proof (proj1 (S2 k v) X) as [Ek _]. rewrite (N4 "vertical-align") by (cbn; tauto).
          assert (E3 : dget al k = None) by (destruct (dget al k) as [u|] eqn:Eu; [apply S3 in Eu as [Eu _]; congruence|reflexivity]).
          rewrite E3, X. reflexivity.
        * pose proof (proj1 (S3 k v) X) as [Ek _]. rewrite (N4 "align") by (cbn; tauto). rewrite X. reflexivity.
  Qed.
End Parts.

(** ** The rows *)

Lemma not_empty_at path a n u : not_empty (w_attr path a n) = Some u <-> value_at path a n u /\ u <> "".
Proof.
  rewrite <- w_attr_spec. destruct (w_attr path a n) as [[|c v]|]; cbn [not_empty]; split; try discriminate.
  - intros [[= <-] H]. congruence.
  - intros [= <-]. split; [reflexivity|discriminate].
  - intros [[= <-] _]. reflexivity.
  - intros [? _]. discriminate.
Qed.
Lemma tr_ins_ok tr : dict_ok (tr_ins tr).
Proof. unfold tr_ins. destruct (w_first _ tr); [|constructor]. repeat apply dict_ok_text_style. apply distinct_NoDup. reflexivity. Qed.
Lemma tr_ins_spec tr k v : dget (tr_ins tr) k = Some v <-> row_style tr k v.
Proof.
  unfold tr_ins, row_style. destruct (w_first ["trPr"; "ins"] tr) as [e|] eqn:E.
  - assert (HE : exists_at ["trPr"; "ins"] tr) by (apply w_first_exists; congruence).
    rewrite !dget_text_style.
    assert (HV : forall a, (not_empty (w_attr ["trPr"; "ins"] a tr) = None -> forall u, value_at ["trPr"; "ins"] a tr u -> u = "")).
    { intros a Hn u Hu. destruct (String.string_dec u "") as [Hz|Hz]; [exact Hz|]. exfalso.
      pose proof (proj2 (not_empty_at _ _ _ _) (conj Hu Hz)). congruence. }
    assert (HU : forall a x u, not_empty (w_attr ["trPr"; "ins"] a tr) = Some x -> value_at ["trPr"; "ins"] a tr u -> u = x).
    { intros a x u Hx Hu. apply not_empty_at in Hx as [Hx _]. apply w_attr_spec in Hx, Hu. congruence. }
    split.
    + intros H. split; [exact HE|].
      destruct (String.eqb_spec k "x-ins-date") as [->|N1]; [right; destruct (not_empty _) as [u|] eqn:Eu; [|discriminate]; injection H as <-; apply not_empty_at in Eu as [Eu Hz]; exists "date", u; cbn; auto 6|].
      destruct (String.eqb_spec k "x-ins-author") as [->|N2]; [right; destruct (not_empty _) as [u|] eqn:Eu; [|discriminate]; injection H as <-; apply not_empty_at in Eu as [Eu Hz]; exists "author", u; cbn; auto 6|].
      destruct (String.eqb_spec k "x-ins-id") as [->|N3]; [right; destruct (not_empty _) as [u|] eqn:Eu; [|discriminate]; injection H as <-; apply not_empty_at in Eu as [Eu Hz]; exists "id", u; cbn; auto 6|].
      cbn [dget] in H. destruct (String.eqb_spec k "x-ins") as [->|N4]; [|discriminate]. injection H as <-. left. auto.
    + intros (_ & [[-> ->]|(a & u & Hin & Hu & Hz & ->)]); [reflexivity|].
      cbn in Hin. destruct Hin as [Hin|[Hin|[Hin|[]]]]; injection Hin as <- <-; cbn [String.eqb Ascii.eqb Bool.eqb];
        (destruct (not_empty (w_attr ["trPr"; "ins"] _ tr)) as [x|] eqn:Ex; [rewrite (HU _ _ _ Ex Hu); reflexivity|destruct (Hz (HV _ Ex _ Hu))]).
  - split; [discriminate|]. intros (HE & _). apply w_first_exists in HE. congruence.
Qed.
Lemma row_look_ins o tr k : In k ROW_STYLES -> dget (row_look o tr) k = dget (tr_ins tr) k.
Proof.
  intros Hk. unfold row_look. destruct (tr_height o tr) as [st|] eqn:E; [|reflexivity]. rewrite (dget_dupdate _ _ _ (tr_ins_ok tr)).
  assert (En : dget st k = None).
  { unfold tr_height in E. destruct (w_first _ tr); [|injection E as <-; reflexivity].
    unfold lookup in E. destruct (dget _ _) as [[key|]|] eqn:Ek; cbn [rbind] in E; [|injection E as <-; reflexivity|discriminate].
    destruct (ox_float o _); cbn [rbind] in E; [|discriminate]. injection E as <-. cbn [dget].
    assert (Hkey : key = "min-height" \/ key = "height").
    { cbn [dget] in Ek. destruct (String.eqb _ _); [injection Ek as <-; auto|]. destruct (String.eqb _ _); [injection Ek as <-; auto|].
      destruct (String.eqb _ _); discriminate. }
    cbn in Hk. destruct Hkey as [-> | ->]; repeat (destruct Hk as [<-|Hk]; [reflexivity|]); destruct Hk. }
  rewrite En. destruct (dget (tr_ins tr) k); reflexivity.
Qed.
