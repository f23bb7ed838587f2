(** * Proofs: the elements of a finished Formex document *)
From Verif Require Import Base M_Geometry M_Xml M_Cell M_Str M_Cals M_Formex M_FormexFinal M_FormexFinish M_Transform M_ConvertDoc.
From Verif Require Import S_Transform P_Cals P_FormexNumber P_FormexBlk P_FormexFinish P_FormexFinished P_Nested P_NestedKept.
Open Scope string_scope.
Open Scope list_scope.
Open Scope Z_scope.

(** The names of the elements which are added *)
Definition ADDED : list string := ["GR.NOTES"; "BLK"; "TI.BLK"; "STI.BLK"].

Section Names.
  Variable T : string -> Prop.
  Hypothesis T_added : forall s, In s ADDED -> T s.
  Definition named_in (n : xnode) : Prop := forall s, x_tag n = Some s -> T s.
  Notation ok := (all named_in).

  Lemma named_tail n t : named_in (x_set_tail n t) <-> named_in n.
  Proof. destruct n; reflexivity. Qed.
  Lemma ok_node tag attrs text children tail : T tag -> Forall ok children -> ok (XElem tag attrs text children tail).
  Proof. intros H. apply all_node. intros s [= <-]. exact H. Qed.
  Lemma ok_inv tag attrs text children tail : ok (XElem tag attrs text children tail) -> T tag /\ Forall ok children.
  Proof. intros H. split; [apply (H _ (nodes_self _)); reflexivity|apply (all_children named_in _ H)]. Qed.
  Lemma ok_tail n t : ok (x_set_tail n t) <-> ok n.
  Proof. apply all_tail, named_tail. Qed.

  Lemma number_ok n : forall level stack, ok n -> ok (fst (M_FormexFinal.number level n stack)).
  Proof.
    induction n as [tag attrs text children tail IH| |] using xnode_ind'; intros level stack H; [|exact H..].
    apply ok_inv in H as [H1 H2]. rewrite number_elem.
    assert (G : forall level stack, Forall ok (fst (numbers level children stack))).
    { clear -IH H2. induction children as [|c l IHl]; intros level stack; [constructor|]. inversion IH as [|? ? I1 I2]; subst. inversion H2 as [|? ? J1 J2]; subst. cbn [numbers].
      specialize (I1 level stack J1). destruct (M_FormexFinal.number level c stack) as [c' s1]. specialize (IHl I2 J2 level s1). destruct (numbers level l s1) as [r s2]. constructor; assumption. }
    cbv zeta. destruct (String.eqb tag "TBL").
    - specialize (G (S level) (bump (S level) stack)). destruct (numbers _ _ _) as [r s2]. apply ok_node; [exact H1|exact G].
    - specialize (G level stack). destruct (numbers _ _ _) as [r s2]. apply ok_node; [exact H1|exact G].
  Qed.
  Lemma cleanup_ok n : forall under, ok n -> Forall ok (cleanup_in under n).
  Proof.
    induction n as [tag attrs text children tail IH| |] using xnode_ind'; intros under H; [|constructor; [exact H|constructor]..].
    apply ok_inv in H as [H1 H2]. cbn [cleanup_in].
    assert (G : Forall ok (flat_map (cleanup_in (String.eqb tag "TBL")) children)).
    { clear -IH H2. generalize (String.eqb tag "TBL") as b. intros b. induction children as [|c l IHl]; [constructor|]. inversion IH as [|? ? I1 I2]; subst. inversion H2 as [|? ? J1 J2]; subst.
      cbn [flat_map]. apply Forall_app. split; [apply I1, J1|apply IHl; assumption]. }
    destruct (under && _)%bool; [exact G|]. constructor; [|constructor]. apply ok_node; assumption.
  Qed.

  Lemma add_attrs_ok a n : ok n -> ok (x_add_attrs a n).
  Proof. destruct n as [tag attrs text children tail| |]; intros H; try exact H. apply ok_inv in H as [H1 H2]. cbn [x_add_attrs]. apply ok_node; assumption. Qed.
  Lemma update_ok p f : (forall n, ok n -> ok (f n)) -> forall l l', Forall ok l -> update_first p f l = Some l' -> Forall ok l'.
  Proof.
    intros Hf. induction l as [|c l IH]; intros l' H E; [discriminate|]. inversion H as [|? ? H1 H2]; subst. cbn [update_first] in E. destruct (p c); [injection E as <-; constructor; [apply Hf, H1|exact H2]|].
    destruct (update_first p f l) as [r|] eqn:Er; [|discriminate]. injection E as <-. constructor; [exact H1|apply (IH r H2 eq_refl)].
  Qed.
  Definition notes_ok (l : list note) : Prop := Forall (fun x => Forall ok (snd x)) l.
  Lemma note_ok attrs l x : Forall ok l -> note_of attrs l = Ok x -> Forall ok (snd x).
  Proof.
    intros H E. unfold note_of in E. destruct (find _ l) as [cell|] eqn:Ef; [|discriminate]. apply find_some in Ef as [Hi _]. rewrite Forall_forall in H.
    pose proof (all_children named_in cell (H cell Hi)) as HC.
    destruct (update_first _ _ _) as [l'|] eqn:Eu; injection E as <-; cbn [snd].
    - apply (update_ok _ _ (add_attrs_ok attrs) _ _ HC Eu).
    - constructor; [|constructor]. cbn [x_add_attrs]. apply ok_node; [apply T_added; cbn; tauto|exact HC].
  Qed.
  Lemma tail_last_ok s l : Forall ok l -> Forall ok (tail_last s l).
  Proof.
    induction l as [|n l IH]; intros H; [constructor|]. inversion H as [|? ? H1 H2]; subst. cbn [tail_last]. destruct l; [constructor; [apply ok_tail, H1|constructor]|].
    constructor; [exact H1|apply IH, H2].
  Qed.
  Lemma put_notes_ok notes : forall text before, notes_ok notes -> Forall ok before -> Forall ok (snd (put_notes text before notes)).
  Proof.
    induction notes as [|[[s|] nodes] r IH]; intros text before H HB; [exact HB| |]; inversion H as [|? ? H1 H2]; subst; cbn [put_notes snd] in *.
    - destruct before as [|b bs]; [apply IH; assumption|]. apply IH; [exact H2|]. apply Forall_app. split; [apply tail_last_ok, HB|exact H1].
    - apply IH; [exact H2|]. apply Forall_app. split; assumption.
  Qed.
  Lemma split_corpus_ok l a b : split_corpus l = Some (a, b) -> Forall ok l -> Forall ok a /\ Forall ok b.
  Proof.
    revert a b. induction l as [|c l IH]; intros a b E H; [discriminate|]. cbn [split_corpus] in E. destruct (x_has_tag c "CORPUS"); [injection E as <- <-; split; [constructor|exact H]|].
    inversion H as [|? ? H1 H2]; subst. destruct (split_corpus l) as [[a' b']|]; [|discriminate]. injection E as <- <-. destruct (IH a' b' eq_refl H2). split; [constructor; assumption|assumption].
  Qed.
  Lemma insert_notes_ok text l notes r : insert_notes text l notes = Ok r -> Forall ok l -> notes_ok notes -> Forall ok (snd r).
  Proof.
    intros E H HN. unfold insert_notes in E. destruct notes as [|x notes]; [injection E as <-; exact H|]. destruct (split_corpus l) as [[a b]|] eqn:Es; [|discriminate].
    destruct (split_corpus_ok _ _ _ Es H) as [Ha Hb]. pose proof (put_notes_ok _ text a HN Ha) as K. destruct (put_notes text a (x :: notes)) as [t' b']. injection E as <-.
    apply Forall_app. split; [exact K|exact Hb].
  Qed.
  Lemma extract_ok n : forall r, extract_in n = Ok r -> ok n -> Forall ok (fst r) /\ notes_ok (snd r).
  Proof.
    induction n as [tag attrs text children tail IH| |] using xnode_ind'; intros r E H; [|injection E as <-; split; constructor; [exact H|constructor]..].
    rewrite extract_elem in E. apply ok_inv in H as [H1 H2]. bind E as cn En. destruct cn as [ch notes].
    assert (G : Forall ok ch /\ notes_ok notes).
    { clear E. revert ch notes En. clear -IH H2. induction children as [|c l IHl]; intros ch notes En; [injection En as <- <-; split; constructor|].
      inversion IH as [|? ? I1 I2]; subst. inversion H2 as [|? ? J1 J2]; subst. cbn [extract_list] in En. bind En as a Ea. bind En as b Eb. injection En as <- <-.
      destruct (I1 a eq_refl J1) as [K1 K2]. destruct b as [b1 b2]. destruct (IHl I2 J2 b1 b2 eq_refl) as [K3 K4]. split; [apply Forall_app|apply Forall_app]; split; assumption. }
    destruct G as [G1 G2]. destruct (String.eqb tag "TBL").
    { bind E as tc Et. injection E as <-. split; [|constructor]. constructor; [|constructor]. apply ok_node; [exact H1|apply (insert_notes_ok _ _ _ _ Et G1 G2)]. }
    destruct (String.eqb tag "ROW").
    - cbv zeta in E. destruct (dget attrs "TYPE") as [t|].
      + destruct (String.eqb t "__GR.NOTES__").
        * bind E as x Ex. injection E as <-. split; [constructor|]. constructor; [apply (note_ok _ _ _ G1 Ex)|exact G2].
        * injection E as <-. split; [|exact G2]. constructor; [apply ok_node; assumption|constructor].
      + injection E as <-. split; [|exact G2]. constructor; [apply ok_node; assumption|constructor].
    - injection E as <-. split; [|exact G2]. constructor; [apply ok_node; assumption|constructor].
  Qed.

  Lemma set_ok n k v : ok n -> ok (x_set n k v).
  Proof. destruct n as [tag attrs text children tail| |]; intros H; try exact H. apply ok_inv in H as [H1 H2]. cbn [x_set]. apply ok_node; assumption. Qed.
  Lemma blk_item_ok ns info row row' x : In (ri_tag info) ["ROW"; "TI.BLK"; "STI.BLK"] -> ok row' -> blk_item ns info row row' = Ok x -> ok x.
  Proof.
    unfold blk_item. intros HT HR H. destruct (String.eqb_spec (ri_tag info) "ROW") as [Er|Er].
    - destruct (ri_type info) as [t|]; injection H as <-; [|exact HR]. destruct row' as [tag attrs text children tail| |]; try exact HR.
      apply ok_inv in HR as [H1 H2]. apply ok_node; [exact H1|]. apply Forall_forall. intros y Hy. apply in_map_iff in Hy as (c & <- & Hc). rewrite Forall_forall in H2.
      destruct (x_has_tag c "CELL"); [apply set_ok|]; apply H2, Hc.
    - cbv zeta in H. bind H as found Ef. bind H as cell Ec. destruct cell as [c' [a b]]. injection H as <-.
      set (cells := filter _ _) in *.
      assert (HI : exists c, In (c, c') cells).
      { destruct found as [f|].
        - injection Ec as ->. revert Ef. generalize 1%Z. clearbody cells. induction cells as [|[c d] r IH]; intros p; cbn [title_cell_of]; [discriminate|].
          destruct (cell_filled c); [|intros Ef; destruct (IH _ Ef) as (c0 & H0); exists c0; right; exact H0].
          cbv zeta. intros Ef. destruct (truthy _ && truthy _)%bool; [bind Ef as u Eu; bind Ef as v Ev|]; injection Ef as <- <- <-; exists c; left; reflexivity.
        - destruct cells as [|[c d] r]; [discriminate|]. injection Ec as <- <- <-. exists c. left. reflexivity. }
      destruct HI as (c & HI). apply filter_In in HI as [HI _]. apply in_combine_r in HI.
      assert (HC : ok c') by (intros m Hm; apply HR, (nodes_child row' c'); assumption).
      apply ok_node; [|apply (all_children named_in c' HC)]. apply T_added. cbn in HT |- *. intuition congruence.
  Qed.
  Definition stack_ok (st : list (list xnode)) : Prop := Forall (Forall ok) st.
  Lemma close_ok st : stack_ok st -> stack_ok (blk_close st).
  Proof.
    intros H. destruct st as [|f [|g r]]; [exact H..|]. inversion H as [|? ? H1 H2]; subst. inversion H2 as [|? ? H3 H4]; subst. cbn [blk_close]. constructor; [|exact H4].
    apply Forall_app. split; [exact H3|]. constructor; [|constructor]. apply ok_node; [apply T_added; cbn; tauto|exact H1].
  Qed.
  Lemma close_iter_ok k st : stack_ok st -> stack_ok (Nat.iter k blk_close st).
  Proof. intros H. induction k as [|k IH]; [exact H|]. cbn [Nat.iter nat_rect]. apply close_ok, IH. Qed.
  Lemma put_ok x st : ok x -> stack_ok st -> stack_ok (blk_put x st).
  Proof.
    intros Hx H. destruct st as [|f r]; [exact H|]. inversion H as [|? ? H1 H2]; subst. constructor; [|exact H2]. apply Forall_app. split; [exact H1|]. constructor; [exact Hx|constructor].
  Qed.
  Lemma steps_ok_all ns l : forall st st', stack_ok st -> Forall (fun p => ok (snd p)) l -> blk_steps ns st l = Ok st' -> stack_ok st'.
  Proof.
    induction l as [|[row row'] l IH]; intros st st' HS HL H; [injection H as <-; exact HS|]. inversion HL as [|? ? H1 H2]; subst. cbn [snd] in H1. cbn [blk_steps] in H. bind H as s1 E1.
    apply (IH s1 st'); [|exact H2|exact H].
    assert (HX : (exists d x, blk_item ns (guess_row_info (x_get row (qname ns "rowstyle"))) row row' = Ok x /\ s1 = blk_put x (blk_level d st)) \/ s1 = blk_put row' st).
    { unfold blk_step in E1. destruct row; [|right; injection E1 as <-; reflexivity|].
      all: cbv zeta in E1; bind E1 as x Ex; injection E1 as <-; left; eexists; exists x; split; [first [exact Ex|reflexivity]|reflexivity]. }
    destruct HX as [(d & x & Ex & ->)| ->]; [|apply put_ok; assumption].
    apply put_ok.
    - apply (blk_item_ok _ _ _ _ _) with (3 := Ex); [|exact H1]. cbn. destruct (decoded_tag _ _ _ _ _ (decoded_guess ns row)) as [E|[E|E]]; rewrite E; auto.
    - unfold blk_level. apply Forall_app. split; [|apply close_iter_ok, HS]. apply Forall_forall. intros y Hy. apply repeat_spec in Hy as ->. constructor.
  Qed.
  Lemma insert_ok ns n : forall n', ok n -> insert_blk ns n = Ok n' -> ok n'.
  Proof.
    induction n as [tag attrs text children tail IH| |] using xnode_ind'; intros n' H E; [|injection E as <-; exact H..].
    apply ok_inv in H as [H1 H2]. rewrite insert_elem in E. bind E as ch Ec.
    assert (G : Forall ok ch).
    { clear E. revert ch Ec. clear -IH H2. induction children as [|c l IHl]; intros ch Ec; [injection Ec as <-; constructor|].
      inversion IH as [|? ? I1 I2]; subst. inversion H2 as [|? ? J1 J2]; subst. cbn [insert_list] in Ec. bind Ec as a Ea. bind Ec as b Eb. injection Ec as <-.
      constructor; [apply I1; [exact J1|reflexivity]|apply IHl; [exact I2|exact J2|reflexivity]]. }
    destruct (String.eqb tag "CORPUS"); [|injection E as <-; apply ok_node; assumption].
    bind E as ch2 E2. injection E as <-. apply ok_node; [exact H1|]. unfold blk_children in E2. bind E2 as st Es. injection E2 as <-.
    assert (K : stack_ok st).
    { apply (steps_ok_all ns _ [[]] st) with (3 := Es); [constructor; constructor|]. apply Forall_forall. intros [a b] Hab. apply in_combine_r in Hab. rewrite Forall_forall in G. apply G, Hab. }
    apply (close_iter_ok (List.length st - 1)) in K. destruct (Nat.iter _ blk_close st); [constructor|]. inversion K; subst. assumption.
  Qed.
  Lemma drop_ok ns n : forall under, ok n -> ok (drop_in ns under n).
  Proof.
    induction n as [tag attrs text children tail IH| |] using xnode_ind'; intros under H; [|exact H..].
    apply ok_inv in H as [H1 H2]. cbn [drop_in]. apply ok_node; [exact H1|]. apply Forall_forall. intros y Hy. apply in_map_iff in Hy as (c & <- & Hc).
    rewrite Forall_forall in IH, H2. apply IH; [exact Hc|apply H2, Hc].
  Qed.
  Theorem finalize_ok ns n n' : ok n -> finalize_tree ns n = Ok n' -> ok n'.
  Proof.
    intros H E. unfold finalize_tree in E. bind E as d1 E1. bind E as d2 E2. injection E as <-. apply drop_ok. apply (insert_ok ns d1 d2) with (2 := E2).
    apply (number_ok n 0%nat []) in H. unfold update_no_seq in E1.
    assert (K : ok (cleanup_tbl_in_tbl (fst (M_FormexFinal.number 0 n [])))).
    { unfold cleanup_tbl_in_tbl. pose proof (cleanup_ok _ false H) as K. destruct (cleanup_in false _) as [|x [|y l]]; [exact H| |exact H]. inversion K; subst; assumption. }
    unfold extract_gr_notes in E1. bind E1 as r Er. destruct (extract_ok _ _ Er K) as [K1 _]. destruct r as [[|x [|y l]] [|z m]]; try discriminate. injection E1 as <-. inversion K1; subst; assumption.
  Qed.
End Names.
