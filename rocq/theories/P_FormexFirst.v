(** * Proofs: which CORPUS makes a conversion fail *)
From Verif Require Import Base M_Xml M_Geometry M_Cell M_Grid M_Table M_Cals M_CalsParser M_Formex M_FormexParser M_FormexRead M_FormexFinal M_FormexFinish M_Ooxml M_Transform M_Convert M_ConvertDoc M_Nested M_NestedFormex.
From Verif Require Import S_Transform S_Nested S_NestedFormex P_Cals P_Transform P_ConvertDoc P_Nested P_NestedFormex.
Open Scope string_scope.
Open Scope list_scope.

Section First.
  Variable o : pfmx_opts.
  Notation name := (fmx o "CORPUS").
  Notation tbl n := (x_has_tag n name).
  Notation has_mark := (has_mark name).
  Notation srcs := (srcs name).
  Variable doc : xnode.
  Let src : xnode := snd (mark_from name 1 doc).
  Notation pending := (pending name doc).
  Notation orderly := (orderly o doc).
  Notation free := (free o).
  Variable convert : option xnode -> Z -> list xnode -> xnode -> result xnode.
  Hypothesis conv_ok : forall P b bef n e i m0, convert (Some P) b bef (drop_mark n) = Ok e -> Forall free bef -> nth_error (srcs src) i = Some m0 -> same_node n m0 ->
    tbl e = false /\ (forall m, inside e m -> tbl m = true -> exists x, inside m0 x /\ same_node m x) /\ orderly e.
  Hypothesis conv_parent : forall P P' b bef n, x_tag P = x_tag P' -> x_attrs P = x_attrs P' -> convert (Some P) b bef n = convert (Some P') b bef n.
  Notation turn := (turn o convert).
  Notation turns := (turns o convert).

  Definition fturn_ok (i : nat) : Prop :=
    exists parent blks before n n1 e, nth_error (srcs src) i = Some n /\ unlabelled n n1 /\ convert parent blks before n1 = Ok e.
  Definition fturn_err (i : nat) (x : exn) : Prop :=
    exists parent blks before n n1, nth_error (srcs src) i = Some n /\ unlabelled n n1 /\ convert parent blks before n1 = Err x.

  Lemma rank_of j k d c : pending j d -> In c (tree_nodes d) -> has_mark k c = true -> exists m0, (1 <= k)%nat /\ nth_error (srcs src) (k - 1) = Some m0 /\ unlabelled m0 (drop_mark c).
  Proof.
    intros HP Hc Hk. pose proof (has_mark_tbl _ _ _ Hk) as Ht. destruct (HP c Hc Ht) as (i & m0 & _ & H1 & H2). apply (src_mark name doc i c m0 k H1 H2 Ht) in Hk. subst k.
    exists m0. replace (S i - 1)%nat with i by lia. split; [lia|]. split; [exact H1|]. apply nth_error_In, filter_In in H1 as [H1 Ht1].
    apply (unlabelled_same c m0 m0); [exact (mark_form name doc 1 m0 H1 Ht1)|exact H2|reflexivity].
  Qed.
  Lemma not_twice j k d a c : pending j d -> In a (tree_nodes d) -> has_mark k a = true -> inside a c -> has_mark k c = false.
  Proof.
    intros HP Ha Hk Hi. destruct (has_mark k c) eqn:E; [|reflexivity]. exfalso. pose proof (has_mark_tbl _ _ _ Hk) as Ht. pose proof (has_mark_tbl _ _ _ E) as Htc.
    destruct (HP a Ha Ht) as (i & m0 & _ & H1 & H2). apply (src_mark name doc i a m0 k H1 H2 Ht) in Hk. apply (inside_same _ _ _ H2) in Hi.
    destruct (nested_after _ _ _ _ _ H1 Hi Htc) as (j' & Hj & Hj'). apply (src_mark name doc j' c c k Hj' eq_refl Htc) in E. lia.
  Qed.

  Lemma turn_every j k d : forall b d', pending j d -> turn k b d = Ok d' -> has_mark k d = false -> forall c, In c (tree_nodes d) -> has_mark k c = true ->
    exists P b' bef e, convert (Some P) b' bef (drop_mark c) = Ok e.
  Proof.
    induction d as [tag attrs text ch tail IH| |] using xnode_ind'; intros b d' HP H Hd c Hc Hk; [|destruct Hc as [<-|[]]; congruence..].
    rewrite turn_elem in H. cbv zeta in H. set (d := XElem tag attrs text ch tail) in *. bind H as ch' E. clear H.
    apply in_nodes in Hc as [->|Hc]; [congruence|]. apply inside_child in Hc as (y & Hy & Hc). change (In y ch) in Hy.
    assert (G : forall l done r, incl l ch -> In y l -> turns k d (deep o b d) done l = Ok r -> exists P b' bef e, convert (Some P) b' bef (drop_mark c) = Ok e).
    { induction l as [|z l IHl]; intros done r Hl Hyl H; [destruct Hyl|]. rewrite turns_cons in H. assert (Hz : In z ch) by (apply Hl; left; reflexivity).
      assert (Hl' : incl l ch) by (intros w Hw; apply Hl; right; exact Hw). destruct (has_mark k z) eqn:Ez.
      - bind H as e Ee. destruct Hyl as [->|Hyl]; [|exact (IHl _ _ Hl' Hyl H)]. apply in_nodes in Hc as [->|Hc]; [eauto|].
        exfalso. rewrite (not_twice j k d y c HP (nodes_child d y y Hz (nodes_self y)) Ez Hc) in Hk. discriminate Hk.
      - bind H as z' Ee. destruct Hyl as [->|Hyl]; [|exact (IHl _ _ Hl' Hyl H)]. rewrite Forall_forall in IH.
        apply (IH y Hz _ _ (pending_child name doc j d y HP Hz) Ee Ez c Hc Hk). }
    exact (G ch [] ch' (incl_refl _) Hy E).
  Qed.

  Lemma fone_first k d x : pending k d -> fnested_one o convert src d k = Err x -> fturn_err (k - 1) x \/ (tbl d = true /\ x = EAttributeError /\ fturn_ok (k - 1)).
  Proof.
    intros HP H. unfold fnested_one in H. destruct (has_mark k d) eqn:Ek.
    - destruct (convert _ _ _ _) as [e|y] eqn:E; cbn [rbind] in H.
      + right. injection H as <-. split; [exact (has_mark_tbl _ _ _ Ek)|]. split; [reflexivity|]. destruct (rank_of k k d d HP (nodes_self d) Ek) as (n & _ & K1 & K2). exists None, 0%Z, [], n, (drop_mark d), e. auto.
      + injection H as ->. left. destruct (rank_of k k d d HP (nodes_self d) Ek) as (n & _ & K1 & K2). exists None, 0%Z, [], n, (drop_mark d). auto.
    - left. destruct (existsb _ _).
      + apply turn_error in H as (P & b & bef & c & H1 & H2 & H3). destruct (rank_of k k d c HP H1 H2) as (n & _ & K1 & K2). exists (Some P), b, bef, n, (drop_mark c). auto.
      + destruct (turn k 0%Z src) as [y|y] eqn:E; cbn [rbind] in H; [discriminate H|]. injection H as ->. apply turn_error in E as (P & b & bef & c & H1 & H2 & H3).
        pose proof (has_mark_tbl _ _ _ H2) as Ht. assert (Hs : In c (srcs src)) by (apply filter_In; auto). apply In_nth_error in Hs as (i & Hi). apply (src_mark name doc i c c k Hi eq_refl Ht) in H2. subst k.
        exists (Some P), b, bef, c, (drop_mark c). replace (S i - 1)%nat with i by lia. split; [exact Hi|]. split; [|exact H3]. apply (unlabelled_same c c c); [exact (mark_form name doc 1 c H1 Ht)|reflexivity..].
  Qed.
  Lemma fone_ok k d d1 : (1 <= k < fst (mark_from name 1 doc))%nat -> pending k d -> tbl doc = false -> fnested_one o convert src d k = Ok d1 -> fturn_ok (k - 1).
  Proof.
    intros Hk HP Hr H. unfold fnested_one in H. destruct (has_mark k d) eqn:Ek; [destruct (convert _ _ _ _); discriminate H|]. destruct (existsb _ _) eqn:Ex.
    - apply existsb_exists in Ex as (c & Hc & Hkc). destruct (turn_every k k d _ _ HP H Ek c Hc Hkc) as (P & b & bef & e & E).
      destruct (rank_of k k d c HP Hc Hkc) as (n & _ & K1 & K2). exists (Some P), b, bef, n, (drop_mark c), e. auto.
    - destruct (turn k 0%Z src) as [s|y] eqn:E; cbn [rbind] in H; [|discriminate H]. destruct (marks name doc 1) as [HM1 HM2].
      assert (L : (k - 1 < List.length (srcs src))%nat).
      { apply (f_equal (@List.length _)) in HM2. rewrite !map_length, seq_length in HM2. unfold src. rewrite HM2. lia. }
      destruct (nth_error (srcs src) (k - 1)) as [m|] eqn:En; [|apply nth_error_None in En; lia]. pose proof (nth_error_In _ _ En) as K. apply filter_In in K as [K1 K2].
      assert (Hm : has_mark k m = true) by (apply (src_mark name doc (k - 1) m m k En eq_refl K2); lia).
      assert (Hs : has_mark k src = false).
      { destruct (has_mark k src) eqn:Es; [|reflexivity]. apply has_mark_tbl in Es. rewrite (has_tag_tag _ _ _ (src_tag o doc)) in Es. congruence. }
      destruct (turn_every 1 k src _ _ (src_pending o doc) E Hs m K1 Hm) as (P & b & bef & e & Ee). exists (Some P), b, bef, m, (drop_mark m), e. split; [exact En|]. split; [|exact Ee].
      apply (unlabelled_same m m m); [exact (mark_form name doc 1 m K1 K2)|reflexivity..].
  Qed.
  Lemma fall_first j : forall k d x, (1 <= k)%nat -> (k + j = fst (mark_from name 1 doc))%nat -> pending k d -> orderly d -> tbl d = false -> tbl doc = false ->
    fnested_all o convert src d (seq k j) = Err x -> exists i, (k <= S i)%nat /\ fturn_err i x /\ forall i', (k <= S i' < S i)%nat -> fturn_ok i'.
  Proof.
    induction j as [|j IH]; intros k d x Hk Hj HP HO Ht Hr H; [discriminate|]. cbn [seq fnested_all] in H. destruct (fnested_one o convert src d k) as [d1|y] eqn:E; cbn [rbind] in H.
    - destruct (one_step o doc convert conv_ok conv_parent k d d1 HP HO Ht E) as (H1 & H2 & H3 & _). destruct (IH (S k) d1 x) as (i & K1 & K2 & K3); [lia|lia|assumption..|].
      exists i. split; [lia|]. split; [exact K2|]. intros i' Hi'. destruct (Nat.eq_dec (S i') k) as [Ek|Ek]; [|apply K3; lia]. subst k.
      replace i' with (S i' - 1)%nat by lia. apply (fone_ok (S i') d d1); [lia|assumption..].
    - injection H as ->. exists (k - 1)%nat. split; [lia|]. split; [|intros i' Hi'; lia]. apply fone_first in E as [E|[E _]]; [exact E|congruence|exact HP].
  Qed.
  Theorem fnested_first x : fnested_tables o convert doc = Err x ->
    exists i, (fturn_err i x \/ (tbl src = true /\ x = EAttributeError /\ fturn_ok 0)) /\ forall i', (i' < i)%nat -> fturn_ok i'.
  Proof.
    intros H. unfold fnested_tables in H. fold src in H. destruct (marks name doc 1) as [HM _]. pose proof (has_tag_tag src doc name (src_tag o doc)) as ET. destruct (tbl doc) eqn:Er.
    - exists 0%nat. split; [|intros i' Hi'; lia]. assert (H0 : nth_error (srcs src) 0 = Some src) by (unfold P_Nested.srcs; destruct (nodes_cons src) as (l & ->); cbn [filter]; rewrite ET; reflexivity).
      pose proof (src_count _ _ _ _ _ H0) as L. destruct (fst (mark_from name 1 doc) - 1)%nat as [|j] eqn:Ej; [lia|]. cbn [seq fnested_all] in H.
      destruct (fnested_one o convert src src 1) as [d1|y] eqn:E; cbn [rbind] in H.
      + exfalso. unfold fnested_one in E. rewrite (proj2 (src_mark name doc 0 src src 1 H0 eq_refl ET) eq_refl) in E. destruct (convert _ _ _ _); discriminate E.
      + injection H as ->. apply fone_first in E; [|apply src_pending]. rewrite ET in E. destruct E as [E|[_ E]]; [left; exact E|right; auto].
    - destruct (fall_first (fst (mark_from name 1 doc) - 1) 1 src x) as (i & _ & H1 & H2); [lia|lia|apply src_pending|apply src_orderly|exact ET|exact Er|exact H|].
      exists i. split; [left; exact H1|]. intros i' Hi'. apply H2. lia.
  Qed.
End First.
