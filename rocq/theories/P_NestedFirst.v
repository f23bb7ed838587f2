(** * Proofs: which table makes a conversion fail *)
From Verif Require Import Base M_Xml M_Geometry M_Cell M_Grid M_Table M_Cals M_CalsParser M_Formex M_FormexParser M_FormexRead M_FormexFinal M_FormexFinish M_Ooxml M_Transform M_Convert M_ConvertDoc M_Nested.
From Verif Require Import S_Transform S_Nested P_Cals P_Transform P_ConvertDoc P_Nested.
Open Scope string_scope.
Open Scope list_scope.

Section First.
  Variable name : string.
  Variable convert : list xnode -> Z -> xnode -> result xnode.
  Notation tbl n := (x_has_tag n name).
  Notation has_mark := (has_mark name).
  Notation srcs := (srcs name).
  Hypothesis not_table : forall after k n e, convert after k n = Ok e -> tbl e = false.
  Hypothesis kept : forall after k n e, convert after k n = Ok e -> forall m, inside e m -> tbl m = true -> exists m0, inside n m0 /\ same_node m m0.
  Variable doc : xnode.
  Let src : xnode := snd (mark_from name 1 doc).
  Notation pending := (pending name doc).

  (** the turn of the table of rank [S i] *)
  Definition turn_ok (i : nat) : Prop :=
    exists after n n1 e, nth_error (srcs src) i = Some n /\ unlabelled n n1 /\ convert after (Z.of_nat (S i)) n1 = Ok e.
  Definition turn_err (i : nat) (x : exn) : Prop :=
    exists after n n1, nth_error (srcs src) i = Some n /\ unlabelled n n1 /\ convert after (Z.of_nat (S i)) n1 = Err x.

  Lemma one_first k d x : (1 <= k < fst (mark_from name 1 doc))%nat -> pending k d -> nested_one name convert src d k = Err x ->
    turn_err (k - 1) x \/ (tbl d = true /\ x = EAttributeError /\ turn_ok (k - 1)).
  Proof.
    intros Hk HP H. unfold nested_one in H. destruct (find_all_nodes (has_mark k) d) as [F1 F2]. destruct (find_all (has_mark k) d) as [|p ps] eqn:EF.
    - destruct (find _ _) as [n|] eqn:E.
      + apply find_some in E as [H1 H2]. left. pose proof (has_mark_tbl name k n H2) as Ht. assert (Hs : In n (srcs src)) by (apply filter_In; auto).
        apply In_nth_error in Hs as (i & Hi). apply (src_mark name doc i n n k Hi eq_refl Ht) in H2. subst k. exists [], n, (drop_mark n). replace (S i - 1)%nat with i by lia.
        split; [exact Hi|]. split; [apply (unlabelled_same n n n); [apply (mark_form name doc 1 n H1 Ht)|reflexivity..]|]. destruct (convert _ _ _); [discriminate H|exact H].
      + exfalso. destruct (marks name doc 1) as [HM1 HM2]. assert (L : (k - 1 < List.length (srcs src))%nat).
        { apply (f_equal (@List.length _)) in HM2. rewrite !map_length, seq_length in HM2. unfold src. rewrite HM2. lia. }
        destruct (nth_error (srcs src) (k - 1)) as [m|] eqn:En; [|apply nth_error_None in En; lia].
        pose proof (nth_error_In _ _ En) as K. apply filter_In in K as [K1 K2]. pose proof (find_none _ _ E m K1) as K3.
        rewrite (proj2 (src_mark name doc (k - 1) m m k En eq_refl K2)) in K3 by lia. discriminate K3.
    - destruct (F1 p ltac:(left; reflexivity)) as (n & En & Hn & Hm). rewrite En in H. pose proof (has_mark_tbl name k n Hm) as Ht.
      destruct (HP n Hn Ht) as (i & m0 & Hi & H1 & H2). apply (src_mark name doc i n m0 k H1 H2 Ht) in Hm. subst k. replace (S i - 1)%nat with i by lia.
      assert (U : unlabelled m0 (drop_mark n)).
      { pose proof (nth_error_In _ _ H1) as K. apply filter_In in K as [K1 K2]. apply (unlabelled_same n m0 m0); [|exact H2|reflexivity]. exact (mark_form name doc 1 m0 K1 K2). }
      destruct (convert _ _ _) as [e|y] eqn:E; cbn [rbind] in H.
      + right. destruct p as [|a p]; [|discriminate H]. injection H as <-. injection En as ->. split; [exact Ht|]. split; [reflexivity|]. eexists _, m0, (drop_mark n), e. split; [exact H1|]. split; [exact U|exact E].
      + left. injection H as ->. eexists _, m0, (drop_mark n). split; [exact H1|]. split; [exact U|exact E].
  Qed.
  Lemma all_first j : forall k d x, (1 <= k)%nat -> (k + j = fst (mark_from name 1 doc))%nat -> pending k d -> nested_all name convert src d (seq k j) = Err x ->
    exists i, (k <= S i)%nat /\ (turn_err i x \/ (tbl d = true /\ x = EAttributeError /\ turn_ok i)) /\ forall i', (k <= S i' < S i)%nat -> turn_ok i'.
  Proof.
    induction j as [|j IH]; intros k d x Hk Hj HP H; [discriminate|]. cbn [seq nested_all] in H. destruct (nested_one name convert src d k) as [d1|y] eqn:E; cbn [rbind] in H.
    - rewrite <- (root_kept name convert doc _ _ _ E). destruct (IH (S k) d1 x) as (i & H1 & H2 & H3); [lia|lia|apply (one_full name convert not_table kept doc k d d1 Hk HP E)|exact H|].
      exists i. split; [lia|]. split; [exact H2|]. intros i' Hi'. destruct (Nat.eq_dec (S i') k) as [Ek|Ek]; [|apply H3; lia].
      subst k. destruct (one_every name convert doc (S i') d d1 Hk HP E) as (after & m0 & n1 & e & K1 & K2 & K3). replace (S i' - 1)%nat with i' in K1 by lia.
      exists after, m0, n1, e. auto.
    - injection H as ->. exists (k - 1)%nat. split; [lia|]. split; [|intros i' Hi'; lia]. apply (one_first k d x); [lia|exact HP|exact E].
  Qed.
  Theorem nested_first x : nested_tables name convert doc = Err x ->
    exists i, (turn_err i x \/ (tbl src = true /\ x = EAttributeError /\ turn_ok 0)) /\ forall i', (i' < i)%nat -> turn_ok i'.
  Proof.
    intros H. unfold nested_tables in H. destruct (marks name doc 1) as [HM _].
    destruct (all_first (fst (mark_from name 1 doc) - 1) 1 src x) as (i & _ & H1 & H2); [lia|lia| |exact H|].
    - intros m Hm Ht. assert (Hs : In m (srcs src)) by (apply filter_In; auto). apply In_nth_error in Hs as (i & Hi). exists i, m. split; [lia|]. split; [exact Hi|reflexivity].
    - exists i. split; [|intros i' Hi'; apply H2; lia]. destruct H1 as [H1|(H1 & H3 & H4)]; [left; exact H1|right]. split; [exact H1|]. split; [exact H3|]. destruct i as [|i]; [exact H4|apply H2; lia].
  Qed.
End First.
