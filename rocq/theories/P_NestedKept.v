(** * Proofs: what is in a generated table comes from its cells *)
From Coq Require Import QArith Permutation.
From Verif Require Import Base M_Geometry M_Xml M_Cell M_Grid M_Table M_Str M_Builder M_Cals M_CalsParser M_Formex M_FormexRead M_Ooxml M_Transform M_Convert M_ConvertDoc.
From Verif Require Import S_Geometry S_Grid S_Table S_Builder S_Cals S_CalsParser S_FormexFinal S_FormexFinished S_Transform S_Convert S_ConvertDoc.
From Verif Require Import P_Table P_Cals P_Builder P_Formex P_FormexFinish P_FormexFinished P_FormexFinishedMain P_Transform P_RoundTrip P_Source P_ConvertDoc P_ConvertFinish P_ConvertFormex P_NoneLeft.
From Verif Require Import P_Nested.
Open Scope string_scope.
Open Scope list_scope.
Open Scope Z_scope.

(** The names of the elements which the builders make *)
Definition FORMEX_NAMES : list string := ["IE"; "CELL"; "P"; "TI"; "STI"; "TITLE"; "ROW"; "BLK"; "CORPUS"; "TBL"].

Section All.
  Variable Q : xnode -> Prop.
  Hypothesis Q_tail : forall n t, Q (x_set_tail n t) <-> Q n.
  Hypothesis Q_pi : forall a b c, Q (XPI a b c).
  (** every node of the tree *)
  Definition all (n : xnode) : Prop := forall m, In m (tree_nodes n) -> Q m.
  Definition allp (p : piece) : Prop := match p with Node n => all n | Char _ => True end.

  Lemma all_tail n t : all (x_set_tail n t) <-> all n.
  Proof.
    unfold all. split; intros H m Hm; apply in_nodes in Hm as [->|Hm].
    - apply (Q_tail n t), H, nodes_self.
    - apply H, in_nodes. right. apply inside_tail, Hm.
    - apply Q_tail, H, nodes_self.
    - apply H, in_nodes. right. apply (inside_tail n t), Hm.
  Qed.
  Lemma all_node tag attrs text children tail : Q (XElem tag attrs text children tail) -> Forall all children -> all (XElem tag attrs text children tail).
  Proof.
    intros H1 H2 m Hm. cbn [tree_nodes] in Hm. destruct Hm as [<-|Hm]; [exact H1|]. apply in_flat_map in Hm as (c & Hc & Hm).
    rewrite Forall_forall in H2. exact (H2 c Hc m Hm).
  Qed.
  Lemma all_pi a b c : all (XPI a b c).
  Proof. intros m [<-|[]]. apply Q_pi. Qed.
  Lemma node_all n : Forall allp (node_pieces n) -> all n.
  Proof. intros H. inversion H as [|? ? H1 _]; subst. apply (all_tail n None), H1. Qed.
  Lemma nodes_all l : Forall allp (flat_map node_pieces l) -> Forall all l.
  Proof.
    induction l as [|n l IH]; intros H; [constructor|]. cbn [flat_map] in H. apply Forall_app in H as [H1 H2].
    constructor; [apply node_all, H1|apply IH, H2].
  Qed.
  Lemma all_pieces n : all n -> Forall allp (node_pieces n).
  Proof.
    intros H. constructor; [apply all_tail, H|]. apply Forall_forall. intros p Hp. destruct (x_tail n) as [s|]; [|destruct Hp].
    unfold otext_pieces, text_pieces in Hp. apply in_map_iff in Hp as (a & <- & _). exact I.
  Qed.
  Lemma all_children n : all n -> Forall all (x_children n).
  Proof. intros H. apply Forall_forall. intros c Hc m Hm. apply H, (nodes_child n c); assumption. Qed.

  Section Cals.
  Variable o : cals_opts.
  Hypothesis Q_cals : forall name attrs text ch tail, In name CALS_NAMES -> Q (XElem (cals o name) attrs text ch tail).
  Lemma all_elem name attrs text ch tail : In name CALS_NAMES -> Forall all ch -> all (XElem (cals o name) attrs text ch tail).
  Proof. intros H. apply all_node, Q_cals, H. Qed.
  Ltac named := apply all_elem; [cbn; tauto|].
  Lemma entry_all bb cs rs c e : Forall allp (content_pieces (c_content c)) -> build_cell o bb cs rs c = Ok e -> all e.
  Proof.
    intros HC H. unfold build_cell in H. destruct bb as [bb|]; [|discriminate]. bind H as a1 E1. bind H as a2 E2. bind H as a3 E3. bind H as a4 E4. bind H as a5 E5.
    apply content_written in H as (H1 & _ & _ & H2). destruct e as [tag attrs text ch tail| |]; try discriminate H1. injection H1 as ->. named.
    rewrite <- H2 in HC. unfold elem_pieces in HC. apply Forall_app in HC as [_ HC]. apply nodes_all, HC.
  Qed.
  Lemma row_all bb cs rs row l : (forall c, In c (v_owned row) -> Forall allp (content_pieces (c_content c))) -> build_row o bb cs rs row = Ok l -> Forall all l.
  Proof.
    intros HC H. unfold build_row in H. bind H as a1 E1. bind H as a2 E2. bind H as st E3. bind H as at' E4. bind H as fi E5. bind H as cells E6. injection H as <-.
    assert (HP : forall nm r x, (if dmem (v_styles row) "x-ins" then pi <-? revision_mark nm r ;; Ok [pi] else Ok []) = Ok x -> Forall all x).
    { intros nm r x H. destruct (dmem _ _); [|injection H as <-; constructor]. bind H as pi E. injection H as <-.
      unfold revision_mark in E. bind E as aa Ea. injection E as <-. constructor; [apply all_pi|constructor]. }
    apply Forall_app. split; [exact (HP _ _ _ E3)|]. constructor; [|exact (HP _ _ _ E5)].
    named. apply rmap_Forall2 in E6. apply Forall_forall. intros x Hx. apply (Forall2_in_r _ _ _ x E6) in Hx as (c & Hc & Hcx).
    destruct bb as [b|]; cbn [rbind] in Hcx; [|discriminate]. exact (entry_all _ _ _ _ _ (HC c Hc) Hcx).
  Qed.
  Lemma cals_all t e : treachable t -> views_exact Rows t ->
    (forall c, In c (t_grid t) -> Forall allp (content_pieces (c_content c))) -> generate_table_tree o t = Ok e -> all e.
  Proof.
    intros HR HX HC H. unfold generate_table_tree in H. bind H as fr E1. bind H as car E2. destruct car as [[cs rs] a].
    bind H as a1 E3. bind H as a2 E4. bind H as a3 E5. bind H as tg E6. injection H as <-. named. constructor; [|constructor].
    unfold build_tgroup in E6. bind E6 as cols F1. bind E6 as car F2. destruct car as [[cs' rs'] a']. bind E6 as at' F3. bind E6 as specs F4. bind E6 as rows F5. bind E6 as bodies F6. injection E6 as <-.
    named. apply Forall_app. split.
    - apply rmap_Forall2 in F4. apply Forall_forall. intros x Hx. apply (Forall2_in_r _ _ _ x F4) in Hx as (v & _ & Hv). unfold build_colspec in Hv.
      bind Hv as b1 G1. bind Hv as b2 G2. bind Hv as b3 G3. bind Hv as b4 G4. injection Hv as <-. named. constructor.
    - apply rmap_Forall2 in F6. apply Forall_forall. intros x Hx. apply (Forall2_in_r _ _ _ x F6) in Hx as (g & Hg & Hb). apply in_sorted in Hg.
      unfold build_tbody in Hb. bind Hb as items G1. injection Hb as <-. apply all_elem.
      { unfold group_tag. destruct (fst g) as [n|]; [|cbn; tauto]. cbn [dget GROUP_TAGS]. repeat (destruct (String.eqb _ _); [cbn; tauto|]). cbn. tauto. }
      apply rmap_Forall2 in G1. apply Forall_forall. intros y Hy. apply in_concat in Hy as (l & Hl & Hy). apply (Forall2_in_r _ _ _ l G1) in Hl as (row & Hrow & Hr).
      assert (K : Forall all l); [|rewrite Forall_forall in K; apply K, Hy]. apply (row_all _ _ _ row) with (2 := Hr). intros c Hc. apply HC.
      apply (Permutation.Permutation_in _ (owned_all t rows HR HX F5)). apply in_flat_map. exists row. split; [|exact Hc].
      rewrite <- (grouped rows). apply in_flat_map. exists g. auto.
  Qed.
  End Cals.

  Section Formex.
  Variable o : fmx_opts.
  Hypothesis Q_formex : forall name attrs text ch tail, In name FORMEX_NAMES -> Q (XElem name attrs text ch tail).
  Hypothesis Q_spec : forall attrs text ch tail, Q (XElem (cals (fo_cals o) "colspec") attrs text ch tail).
  Let L := Forall all.
  Ltac lack := apply all_node; [apply Q_formex; cbn; tauto|].

  Lemma IE_all : all IE.
  Proof. lack. constructor. Qed.
  Lemma fmx_cell_all bb cs rs row c e : Forall allp (content_pieces (c_content c)) -> build_fcell o bb cs rs row c = Ok e -> all e.
  Proof.
    intros HC H. unfold build_fcell in H. bind H as a1 E1. bind H as a2 E2. bind H as a3 E3.
    destruct (fmx_empty c).
    - injection H as <-. lack. constructor; [apply IE_all|constructor].
    - apply content_written in H as (H1 & _ & _ & H2). destruct e as [tag attrs text ch tail| |]; try discriminate H1. injection H1 as ->. lack.
      rewrite <- H2 in HC. unfold elem_pieces in HC. apply Forall_app in HC as [_ HC]. apply nodes_all, HC.
  Qed.
  Lemma fmx_nodes_of_all l ns : Forall allp (flat_map content_pieces l) -> nodes_of l = Ok ns -> L ns.
  Proof.
    revert ns. induction l as [|c l IH]; intros ns HC H; [injection H as <-; constructor|].
    cbn [flat_map] in HC. apply Forall_app in HC as [H1 H2]. destruct c; cbn [nodes_of] in H; try discriminate. bind H as r E. injection H as <-.
    constructor; [apply node_all, H1|apply IH; [exact H2|reflexivity]].
  Qed.
  Lemma fmx_paragraphs_all l ns : Forall allp (flat_map content_pieces l) -> title_paragraphs l = Ok ns -> L ns.
  Proof.
    intros HC H. destruct l as [|p ps]; [discriminate|]. unfold title_paragraphs in H. bind H as n E1. bind H as r E2. injection H as <-.
    cbn [flat_map] in HC. apply Forall_app in HC as [H1 H2].
    constructor; [|constructor; [|constructor]]; lack.
    - apply (fmx_nodes_of_all [p]); [cbn [flat_map]; rewrite app_nil_r; exact H1|exact E1].
    - exact (fmx_nodes_of_all _ _ H2 E2).
  Qed.
  Lemma fmx_title_all row e : (forall c, In c (v_owned row) -> Forall allp (content_pieces (c_content c))) -> build_title row = Ok e -> all e.
  Proof.
    intros HC H. unfold build_title in H. bind H as l E. injection H as <-. lack. apply rmap_Forall2 in E.
    induction E as [|c n cs ns Hc E IH]; [constructor|]. cbn [List.concat]. apply Forall_app. split; [|apply IH; intros; apply HC; right; assumption].
    pose proof (HC c ltac:(left; reflexivity)) as K. unfold build_title_cell in Hc. destruct (fmx_empty c).
    - injection Hc as <-. constructor; [|constructor]. lack. constructor; [apply IE_all|constructor].
    - destruct (c_content c) as [| | |l|m|]; try discriminate.
      + injection Hc as <-. constructor; [|constructor]. lack. constructor; [|constructor]. lack. constructor.
      + exact (fmx_paragraphs_all _ _ K Hc).
      + apply (fmx_paragraphs_all _ _) with (2 := Hc). cbn in K. apply node_all, all_children in K. rename K into K2. rewrite Forall_forall in K2.
        apply Forall_forall. intros p Hp. apply in_flat_map in Hp as (d & Hd & Hp). apply in_map_iff in Hd as (x & <- & Hx).
        pose proof (all_pieces _ (K2 x Hx)) as F. rewrite Forall_forall in F. exact (F p Hp).
  Qed.
  Lemma fmx_row_all bb cs rs row l : (forall c, In c (v_owned row) -> Forall allp (content_pieces (c_content c))) -> build_frow o bb cs rs row = Ok l -> L l.
  Proof.
    intros HC H. unfold build_frow in H. bind H as a1 E1. bind H as st E2. bind H as at' E3. bind H as fi E4. bind H as cells E5. injection H as <-.
    assert (HP : forall nm r x y, (if dmem (v_styles row) "x-ins" then pi <-? revision_mark nm r ;; Ok [pi] else Ok []) = Ok x -> x = y -> L y).
    { intros nm r x y H <-. destruct (dmem _ _); [|injection H as <-; constructor]. bind H as pi E. injection H as <-.
      unfold revision_mark in E. bind E as aa Ea. injection E as <-. constructor; [apply all_pi|constructor]. }
    apply Forall_app. split; [exact (HP _ _ _ _ E2 eq_refl)|]. constructor; [|exact (HP _ _ _ _ E4 eq_refl)].
    lack. apply rmap_Forall2 in E5. apply Forall_forall. intros x Hx. apply (Forall2_in_r _ _ _ x E5) in Hx as (c & Hc & Hcx).
    exact (fmx_cell_all _ _ _ _ _ _ (HC c Hc) Hcx).
  Qed.

  Lemma generated_all k t e : treachable t -> views_exact Rows t ->
    (forall c, In c (t_grid t) -> Forall allp (content_pieces (c_content c))) -> generate_tbl o k t = Ok e -> all e.
  Proof.
    intros HR HX HC H. unfold generate_tbl in H. bind H as cols E1. bind H as a1 E2. bind H as a2 E3. bind H as ch E4. injection H as <-.
    lack.
    unfold build_corpus in E4. bind E4 as rows E5.
    assert (HO : forall row c, In row rows -> In c (v_owned row) -> Forall allp (content_pieces (c_content c))).
    { intros row c Hr Hc. apply HC. apply (Permutation.Permutation_in _ (owned_all t rows HR HX E5)). apply in_flat_map. exists row. auto. }
    bind E4 as tr E6. bind E4 as cra E7. destruct cra as [[cs rs] a]. bind E4 as at' E8. bind E4 as specs E9. bind E4 as items E10. injection E4 as <-.
    assert (HT : L (fst tr) /\ (forall r, In r (snd tr) -> In r rows)).
    { unfold split_title in E6. destruct (fo_titles o); [|injection E6 as <-; split; [constructor|auto]].
      bind E6 as first F1. bind E6 as bb F2. destruct bb as [bb|]; [|discriminate]. destruct (_ && _); [|injection E6 as <-; split; [constructor|auto]].
      destruct rows as [|r rows]; [discriminate|]. bind E6 as title F3. injection E6 as <-. split; [|intros x Hx; right; exact Hx].
      constructor; [|constructor]. apply (fmx_title_all r); [|exact F3]. intros c Hc. exact (HO r c ltac:(left; reflexivity) Hc). }
    destruct HT as [HT HS]. apply Forall_app. split; [exact HT|]. constructor; [|constructor]. lack. apply Forall_app. split.
    - destruct (fo_use_cals o); [|injection E9 as <-; constructor]. bind E9 as cols' F. apply rmap_Forall2 in E9.
      apply Forall_forall. intros x Hx. apply (Forall2_in_r _ _ _ x E9) in Hx as (v & _ & Hv). unfold build_colspec in Hv.
      bind Hv as b1 G1. bind Hv as b2 G2. bind Hv as b3 G3. bind Hv as b4 G4. injection Hv as <-. apply all_node; [apply Q_spec|constructor].
    - apply rmap_Forall2 in E10. clear E6 E7 E8 E9 HT. destruct tr as [tt tl]. cbn [snd] in *.
      induction E10 as [|v l vs ls Hv _ IH]; [constructor|]. cbn [List.concat]. apply Forall_app. split.
      + apply (fmx_row_all _ _ _ _ _) with (2 := Hv). intros c Hc. apply (HO v); [apply HS; left; reflexivity|exact Hc].
      + apply IH. intros r Hr. apply HS. right. exact Hr.
  Qed.

  End Formex.
End All.
