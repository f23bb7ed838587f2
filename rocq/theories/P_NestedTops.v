(** * Proofs: what is in a generated CALS table, when its content is not made of anything *)
From Coq Require Import QArith Permutation.
From Verif Require Import Base M_Geometry M_Xml M_Cell M_Grid M_Table M_Str M_Builder M_Cals M_CalsParser M_Transform M_Convert M_ConvertDoc.
From Verif Require Import S_Geometry S_Grid S_Table S_Builder S_Cals S_CalsParser S_Transform S_Convert S_ConvertDoc.
From Verif Require Import P_Table P_Cals P_Builder P_Transform P_RoundTrip P_Source P_ConvertDoc P_ConvertFinish P_NoneLeft.
From Verif Require Import P_Nested P_NestedKept.
Open Scope string_scope.
Open Scope list_scope.
Open Scope Z_scope.

(** As [P_NestedKept.cals_all], but [Q] of an element which is made may depend on a property [top] of its children. *)
Section Tops.
  Variables Q top : xnode -> Prop.
  Hypothesis Q_tail : forall n t, Q (x_set_tail n t) <-> Q n.
  Hypothesis Q_pi : forall a b c, Q (XPI a b c).
  Hypothesis top_tail : forall n t, top (x_set_tail n t) <-> top n.
  Hypothesis top_pi : forall a b c, top (XPI a b c).
  Variable o : cals_opts.
  Hypothesis top_cals : forall name attrs text ch tail, In name CALS_NAMES -> top (XElem (cals o name) attrs text ch tail).
  Hypothesis Q_cals : forall name attrs text ch tail, In name CALS_NAMES -> Forall top ch -> Q (XElem (cals o name) attrs text ch tail).
  Definition alltop (n : xnode) : Prop := all Q n /\ top n.
  Definition alltop_piece (p : piece) : Prop := match p with Node n => alltop n | Char _ => True end.

  Lemma alltop_pieces l : Forall alltop_piece (flat_map node_pieces l) -> Forall alltop l.
  Proof.
    induction l as [|n l IH]; intros H; [constructor|]. cbn [flat_map] in H. apply Forall_app in H as [H1 H2]. constructor; [|apply IH, H2].
    inversion H1 as [|? ? K _]; subst. destruct K as [K1 K2]. split; [apply (all_tail Q Q_tail n None), K1|apply (top_tail n None), K2].
  Qed.
  Lemma alltop_elem name attrs text ch tail : In name CALS_NAMES -> Forall alltop ch -> alltop (XElem (cals o name) attrs text ch tail).
  Proof.
    intros H HF. split; [|apply top_cals, H]. apply all_node.
    - apply Q_cals; [exact H|]. revert HF. apply Forall_impl. intros x [_ K]. exact K.
    - revert HF. apply Forall_impl. intros x [K _]. exact K.
  Qed.
  Lemma alltop_pi a b c : alltop (XPI a b c).
  Proof. split; [apply (all_pi Q Q_pi)|apply top_pi]. Qed.
  Ltac named := apply alltop_elem; [cbn; tauto|].

  Lemma entry_top bb cs rs c e : Forall alltop_piece (content_pieces (c_content c)) -> build_cell o bb cs rs c = Ok e -> alltop e.
  Proof.
    intros HC H. unfold build_cell in H. destruct bb as [bb|]; [|discriminate]. bind H as a1 E1. bind H as a2 E2. bind H as a3 E3. bind H as a4 E4. bind H as a5 E5.
    apply content_written in H as (H1 & _ & _ & H2). destruct e as [tag attrs text ch tail| |]; try discriminate H1. injection H1 as ->. named.
    rewrite <- H2 in HC. unfold elem_pieces in HC. apply Forall_app in HC as [_ HC]. apply alltop_pieces, HC.
  Qed.
  Lemma row_top bb cs rs row l : (forall c, In c (v_owned row) -> Forall alltop_piece (content_pieces (c_content c))) -> build_row o bb cs rs row = Ok l -> Forall alltop l.
  Proof.
    intros HC H. unfold build_row in H. bind H as a1 E1. bind H as a2 E2. bind H as st E3. bind H as at' E4. bind H as fi E5. bind H as cells E6. injection H as <-.
    assert (HP : forall nm r x, (if dmem (v_styles row) "x-ins" then pi <-? revision_mark nm r ;; Ok [pi] else Ok []) = Ok x -> Forall alltop x).
    { intros nm r x H. destruct (dmem _ _); [|injection H as <-; constructor]. bind H as pi E. injection H as <-.
      unfold revision_mark in E. bind E as aa Ea. injection E as <-. constructor; [apply alltop_pi|constructor]. }
    apply Forall_app. split; [exact (HP _ _ _ E3)|]. constructor; [|exact (HP _ _ _ E5)].
    named. apply rmap_Forall2 in E6. apply Forall_forall. intros x Hx. apply (Forall2_in_r _ _ _ x E6) in Hx as (c & Hc & Hcx).
    destruct bb as [b|]; cbn [rbind] in Hcx; [|discriminate]. exact (entry_top _ _ _ _ _ (HC c Hc) Hcx).
  Qed.
  Lemma cals_top t e : treachable t -> views_exact Rows t ->
    (forall c, In c (t_grid t) -> Forall alltop_piece (content_pieces (c_content c))) -> generate_table_tree o t = Ok e -> alltop e.
  Proof.
    intros HR HX HC H. unfold generate_table_tree in H. bind H as fr E1. bind H as car E2. destruct car as [[cs rs] a].
    bind H as a1 E3. bind H as a2 E4. bind H as a3 E5. bind H as tg E6. injection H as <-. named. constructor; [|constructor].
    unfold build_tgroup in E6. bind E6 as cols F1. bind E6 as car F2. destruct car as [[cs' rs'] a']. bind E6 as at' F3. bind E6 as specs F4. bind E6 as rows F5. bind E6 as bodies F6. injection E6 as <-.
    named. apply Forall_app. split.
    - apply rmap_Forall2 in F4. apply Forall_forall. intros x Hx. apply (Forall2_in_r _ _ _ x F4) in Hx as (v & _ & Hv). unfold build_colspec in Hv.
      bind Hv as b1 G1. bind Hv as b2 G2. bind Hv as b3 G3. bind Hv as b4 G4. injection Hv as <-. named. constructor.
    - apply rmap_Forall2 in F6. apply Forall_forall. intros x Hx. apply (Forall2_in_r _ _ _ x F6) in Hx as (g & Hg & Hb). apply in_sorted in Hg.
      unfold build_tbody in Hb. bind Hb as items G1. injection Hb as <-. apply alltop_elem.
      { unfold group_tag. destruct (fst g) as [n|]; [|cbn; tauto]. cbn [dget GROUP_TAGS]. repeat (destruct (String.eqb _ _); [cbn; tauto|]). cbn. tauto. }
      apply rmap_Forall2 in G1. apply Forall_forall. intros y Hy. apply in_concat in Hy as (l & Hl & Hy). apply (Forall2_in_r _ _ _ l G1) in Hl as (row & Hrow & Hr).
      assert (K : Forall alltop l); [|rewrite Forall_forall in K; apply K, Hy]. apply (row_top _ _ _ row) with (2 := Hr). intros c Hc. apply HC.
      apply (Permutation.Permutation_in _ (owned_all t rows HR HX F5)). apply in_flat_map. exists row. split; [|exact Hc].
      rewrite <- (grouped rows). apply in_flat_map. exists g. auto.
  Qed.
End Tops.
