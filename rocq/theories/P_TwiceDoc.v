(** * Proofs: completed documents are completed again *)
From Verif Require Import Base M_Geometry M_Xml M_Cell M_Grid M_Table M_Str M_Cals M_Formex M_FormexFinal M_FormexFinish M_Transform M_ConvertDoc.
From Verif Require Import S_Grid S_Table S_Builder S_Cals S_Formex S_FormexFinal S_FormexFinished S_Transform S_ConvertDoc S_Twice.
From Verif Require Import P_Table P_Cals P_Builder P_Formex P_FormexNumber P_FormexFinish P_FormexFinished P_FormexFinishedMain P_Transform P_Source P_ConvertDoc P_ConvertFinish P_Nested P_NestedKept P_FinishNames P_Twice.
Open Scope string_scope.
Open Scope list_scope.
Open Scope Z_scope.

Definition not_tbl (s : string) : Prop := s <> "TBL".
Lemma not_tbl_added s : In s ADDED -> not_tbl s.
Proof. unfold not_tbl. cbn. intuition (subst; discriminate). Qed.
Lemma lacks_all n : lacks ["TBL"] n -> all (named_in not_tbl) n.
Proof. intros H m Hm s Es E. subst s. pose proof (lacks_nodes _ _ _ H Hm) as K. inversion K as [? K1 _]; subst. apply (K1 "TBL" Es). cbn. tauto. Qed.
Lemma all_lacks n : all (named_in not_tbl) n -> lacks ["TBL"] n.
Proof.
  induction n as [tag attrs text ch tail IH| |] using xnode_ind'; intros H; [|constructor; [discriminate|intros x []]..]. pose proof (all_children _ _ H) as HC. cbn [x_children] in HC.
  apply lacks_elem; [|rewrite Forall_forall in *; intros x Hx; apply IH; [exact Hx|apply HC, Hx]]. intros [<-|[]]. exact (H _ (nodes_self _) "TBL" eq_refl eq_refl).
Qed.
Lemma later_shaped ns k e e' : shaped k e -> P_ConvertFinish.later ns e = Ok e' -> shaped k e'.
Proof.
  intros (attrs & text & ch & -> & HL & HN) E. unfold P_ConvertFinish.later in E. bind E as x Ex. bind E as y Ey. injection E as <-.
  assert (HA : Forall (all (named_in not_tbl)) ch) by (apply (Forall_impl _ lacks_all HL)).
  unfold extract_gr_notes in Ex. bind Ex as r Er. rewrite extract_elem in Er. bind Er as cn Ec. destruct cn as [ch1 notes]. rewrite String.eqb_refl in Er. bind Er as tc Et. injection Er as <-. injection Ex as <-.
  assert (K1 : Forall (all (named_in not_tbl)) (snd tc)).
  { assert (E1 : extract_in (XElem "X" [] None ch None) = Ok ([XElem "X" [] None ch1 None], notes)) by (rewrite extract_elem, Ec; reflexivity).
    destruct (extract_ok _ not_tbl_added _ _ E1) as [A1 A2]; [apply ok_node; [discriminate|exact HA]|]. cbn [fst snd] in *. inversion A1 as [|? ? A3 _]; subst.
    apply ok_inv in A3 as [_ A3]. exact (insert_notes_ok _ _ _ _ _ Et A3 A2). }
  rewrite insert_elem in Ey. bind Ey as ch2 E2. cbn [String.eqb Ascii.eqb Bool.eqb] in Ey. injection Ey as <-.
  assert (K2 : Forall (all (named_in not_tbl)) ch2).
  { assert (E1 : insert_blk ns (XElem "X" [] None (snd tc) None) = Ok (XElem "X" [] None ch2 None)) by (rewrite insert_elem, E2; reflexivity).
    apply (insert_ok _ not_tbl_added) in E1; [|apply ok_node; [discriminate|exact K1]]. apply ok_inv in E1 as [_ E1]. exact E1. }
  unfold drop_superfluous_attrs. cbn [drop_in]. eexists attrs, _, _. split; [reflexivity|]. split; [|exact HN].
  apply Forall_forall. intros z Hz. apply in_map_iff in Hz as (c & <- & Hc). rewrite Forall_forall in K2. apply all_lacks, drop_ok, K2, Hc.
Qed.

Lemma settled_tail named ns under n t : settled named ns under n -> settled named ns under (x_set_tail n t).
Proof. intros H. destruct n as [tag attrs text ch tail| |]; [|constructor..]. apply settled_inv in H as (H1 & H2 & H3 & H4). constructor; assumption. Qed.

Section Again.
  Variable is_table : xnode -> bool.
  Variables (named : bool) (ns : option string).

  Lemma converted_settled (R : list xnode -> list xnode -> xnode -> xnode -> Prop) :
    (forall b a n e, lacks TAGS n -> R b a n e -> settled named ns false e) ->
    forall n b a d, lacks TAGS n -> converted is_table R b a n d -> settled named ns false d.
  Proof.
    intros HR. induction n as [tag attrs text children tail IH| |] using xnode_ind'; intros b a d HL H.
    - inversion H as [? ? ? e Et Re|? ? ? ? ? ? ch' ? Et Hl| |]; subst; [apply settled_tail; exact (HR _ _ _ _ HL Re)|].
      apply lacks_inv in HL as [Ht HL].
      assert (N : String.eqb tag "TBL" = false) by (destruct (String.eqb_spec tag "TBL") as [->|]; [exfalso; apply Ht; cbn; tauto|reflexivity]).
      constructor.
      + intros ->. exfalso. apply Ht. cbn. tauto.
      + intros ->. exfalso. apply Ht. cbn. tauto.
      + rewrite N. discriminate.
      + rewrite N. cbn [orb]. clear H Et Ht N. revert b ch' Hl. induction children as [|c l IHl]; intros b ch' Hl; inversion Hl as [|? ? ? c' ? l' Hc Hr]; subst; [constructor|].
        inversion IH as [|? ? I1 I2]; subst. inversion HL as [|? ? L1 L2]; subst. constructor; [exact (I1 _ _ _ L1 Hc)|exact (IHl I2 L2 _ _ Hr)].
    - inversion H as [? ? ? e Et Re| | |]; subst; [apply settled_tail; exact (HR _ _ _ _ HL Re)|constructor].
    - inversion H as [? ? ? e Et Re| | |]; subst; [apply settled_tail; exact (HR _ _ _ _ HL Re)|constructor].
  Qed.

  Variable R : list xnode -> list xnode -> xnode -> xnode -> Prop.
  Hypothesis HT : forall b a n e, R b a n e -> x_tag e = Some "TBL".
  Hypothesis HR : forall b a n e, lacks TAGS n -> R b a n e -> shaped (Z.of_nat (numb is_table b)) e.
  Hypothesis H0 : forall b a n e, lacks TAGS n -> R b a n e -> all (P0 named ns) e.

  Lemma later_tag e e' : x_tag e = Some "TBL" -> P_ConvertFinish.later ns e = Ok e' -> x_tag e' = Some "TBL".
  Proof.
    intros Ht E. unfold P_ConvertFinish.later in E. bind E as x Ex. bind E as y Ey. destruct extract_pass as (_ & _ & _ & _ & F1 & _). destruct (insert_pass ns) as (_ & _ & _ & _ & F2 & _).
    destruct (drop_is_pass ns) as (_ & _ & _ & _ & F3 & _). apply (F3 y e'); [|exact E]. apply (F2 x y); [|exact Ey]. exact (F1 e x Ht Ex).
  Qed.
  Theorem again n d0 d1 : flat is_table n -> lacks TAGS n -> converted is_table R [] [] n d0 -> finalize_tree ns d0 = Ok d1 ->
    finalize_tree ns d1 = Ok (untypes d1) /\ finalize_tree ns (untypes d1) = Ok (untypes d1) /\ (named = false -> untypes d1 = d1).
  Proof.
    intros HF HL HC E. set (R1 := fun b a m e' => exists e, R b a m e /\ P_ConvertFinish.later ns e = Ok e').
    assert (C1 : converted is_table R1 [] [] n d1) by (apply (finished is_table R HT HR ns n d1 HF HL); eauto).
    assert (T1 : forall b a n e, R1 b a n e -> x_tag e = Some "TBL") by (intros b a m e (e0 & K1 & K2); exact (later_tag _ _ (HT _ _ _ _ K1) K2)).
    assert (S1 : forall b a n e, lacks TAGS n -> R1 b a n e -> shaped (Z.of_nat (numb is_table b)) e) by (intros b a m e L (e0 & K1 & K2); exact (later_shaped _ _ _ _ (HR _ _ _ _ L K1) K2)).
    assert (G1 : forall b a n e, lacks TAGS n -> R1 b a n e -> settled named ns false e) by (intros b a m e L (e0 & K1 & K2); exact (later_leads _ _ _ _ (HT _ _ _ _ K1) (H0 _ _ _ _ L K1) K2)).
    pose proof (converted_settled R1 G1 n [] [] d1 HL C1) as D1.
    assert (E1 : finalize_tree ns d1 = Ok (untypes d1)) by (rewrite (finalize_kept is_table R1 S1 ns n d1 HF HL C1); exact (later_settled _ _ _ D1)).
    split; [exact E1|]. split; [|intros N; exact (untypes_unnamed _ _ _ N _ D1)].
    set (R2 := fun b a m e' => exists e, R1 b a m e /\ P_ConvertFinish.later ns e = Ok e').
    assert (C2 : converted is_table R2 [] [] n (untypes d1)) by (apply (finished is_table R1 T1 S1 ns n (untypes d1) HF HL); eauto).
    assert (S2 : forall b a n e, lacks TAGS n -> R2 b a n e -> shaped (Z.of_nat (numb is_table b)) e) by (intros b a m e L (e0 & K1 & K2); exact (later_shaped _ _ _ _ (S1 _ _ _ _ L K1) K2)).
    rewrite (finalize_kept is_table R2 S2 ns n (untypes d1) HF HL C2), (later_settled _ _ _ (settled_untypes _ _ _ _ D1)), untypes_twice. reflexivity.
  Qed.
End Again.

Lemma lacks_P0 named ns n : lacks NAMES n -> all (P0 named ns) n.
Proof. intros H m Hm Hc. exfalso. pose proof (lacks_nodes _ _ _ H Hm) as K. inversion K as [? K1 _]; subst. apply (K1 "CORPUS" Hc). cbn. tauto. Qed.
Lemma generated_P0 o k t e : treachable t -> views_exact Rows t -> (forall c, In c (t_grid t) -> Forall clean (content_pieces (c_content c))) -> generate_tbl o k t = Ok e ->
  all (P0 (fo_use_cals o) (co_ns (fo_cals o))) e.
Proof.
  intros H1 H2 H3 H4. destruct (generated o k t e H1 H2 H3 H4) as (a & title & ca & kids & -> & HT & HK & _ & HD).
  apply all_node; [discriminate|]. apply Forall_app. split; [apply (Forall_impl _ (lacks_P0 _ _) HT)|]. constructor; [|constructor].
  apply all_node; [intros _; exact HD|apply (Forall_impl _ (lacks_P0 _ _) HK)].
Qed.
(** no table is found *)
Lemma no_tables_found is_table n : (forall m, In m (tree_nodes n) -> is_table m = false) -> find_all is_table n = [].
Proof.
  intros H. destruct (find_all is_table n) as [|p l] eqn:E; [reflexivity|]. exfalso. destruct (proj1 (find_all_nodes is_table n) p) as (m & _ & Hm & K); [rewrite E; left; reflexivity|].
  rewrite (H m Hm) in K. discriminate K.
Qed.
Lemma untypes_found is_table n : (forall n n', x_tag n = x_tag n' -> is_table n = is_table n') -> find_all is_table n = [] -> find_all is_table (untypes n) = [].
Proof.
  intros HX H. pose proof (proj2 (find_all_nodes is_table n) H) as K. apply no_tables_found. clear H.
  induction n as [tag attrs text ch tail IH| |] using xnode_ind'; [|exact K..]. intros m Hm. cbn [untypes tree_nodes] in Hm. destruct Hm as [<-|Hm].
  - transitivity (is_table (XElem tag attrs text ch tail)); [apply HX; reflexivity|apply K, nodes_self].
  - apply in_flat_map in Hm as (c & Hc & Hm). apply in_map_iff in Hc as (d & <- & Hd). rewrite Forall_forall in IH. apply (IH d Hd); [|exact Hm].
    intros x Hx. apply K. cbn [tree_nodes]. right. apply in_flat_map. eauto.
Qed.
