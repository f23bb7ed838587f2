(** * Proofs: when no table is inside another, the loop with marks is the loop with paths *)
From Verif Require Import Base M_Xml M_Geometry M_Cell M_Grid M_Table M_Cals M_CalsParser M_Formex M_FormexParser M_FormexRead M_FormexFinal M_FormexFinish M_Ooxml M_Transform M_Convert M_ConvertDoc M_Nested.
From Verif Require Import S_Transform S_Nested P_Cals P_Transform P_ConvertDoc P_Nested.
Open Scope string_scope.
Open Scope list_scope.

Section Flat.
  Variable name : string.
  Variable convert : list xnode -> Z -> xnode -> result xnode.
  Notation tbl n := (x_has_tag n name).
  Notation unmark := (unmark name).
  Notation has_mark := (has_mark name).
  Notation put_mark := (put_mark name).

  (** the tables with their paths *)
  Fixpoint tabs (n : xnode) : list (path * xnode) :=
    (if tbl n then [([], n)] else []) ++
    match n with
    | XElem _ _ _ children _ =>
        (fix go (i : nat) (l : list xnode) : list (path * xnode) :=
           match l with
           | [] => []
           | c :: l' => map (fun pn => (i :: fst pn, snd pn)) (tabs c) ++ go (S i) l'
           end) 0%nat children
    | _ => []
    end.
  Fixpoint tabs_list (i : nat) (l : list xnode) : list (path * xnode) :=
    match l with
    | [] => []
    | c :: l' => map (fun pn => (i :: fst pn, snd pn)) (tabs c) ++ tabs_list (S i) l'
    end.
  Lemma tabs_elem tag attrs text children tail : tabs (XElem tag attrs text children tail) =
    (if String.eqb name tag then [([], XElem tag attrs text children tail)] else []) ++ tabs_list 0 children.
  Proof. reflexivity. Qed.

  Lemma tabs_find q n : find_all (fun m => tbl m && q m)%bool n = map fst (filter (fun pn => q (snd pn)) (tabs n)).
  Proof.
    induction n as [tag attrs text children tail IH| |] using xnode_ind'; try reflexivity.
    rewrite find_elem, tabs_elem, filter_app, map_app. f_equal.
    - cbn [x_has_tag]. destruct (String.eqb name tag); cbn [andb filter map snd]; [|reflexivity]. destruct (q _); reflexivity.
    - generalize 0%nat. induction IH as [|c l Hc _ IHl]; intros i; [reflexivity|]. cbn [finds tabs_list]. rewrite filter_app, map_app, <- IHl, Hc. f_equal.
      clear. induction (tabs c) as [|[p m] r IHr]; [reflexivity|]. cbn [map filter snd fst]. destruct (q m); cbn [map fst]; rewrite <- IHr; reflexivity.
  Qed.
  Lemma tabs_nodes n : map snd (tabs n) = srcs name n.
  Proof.
    induction n as [tag attrs text children tail IH| |] using xnode_ind'; try reflexivity.
    rewrite tabs_elem, map_app. unfold srcs. cbn [tree_nodes filter x_has_tag].
    assert (G : forall i, map snd (tabs_list i children) = filter (fun m => tbl m) (flat_map tree_nodes children)).
    { induction IH as [|c l Hc _ IHl]; intros i; [reflexivity|]. cbn [tabs_list flat_map]. rewrite map_app, map_map, filter_app, IHl. f_equal. exact Hc. }
    rewrite G. destruct (String.eqb name tag); reflexivity.
  Qed.
  Lemma tabs_at n p m : In (p, m) (tabs n) -> node_at n p = Some m.
  Proof.
    revert p m. induction n as [tag attrs text children tail IH| |] using xnode_ind'; intros p m H; try destruct H.
    rewrite tabs_elem in H. apply in_app_or in H as [H|H].
    - destruct (String.eqb name tag); [|destruct H]. destruct H as [[= <- <-]|[]]. reflexivity.
    - assert (G : forall l pre, children = pre ++ l -> In (p, m) (tabs_list (List.length pre) l) -> node_at (XElem tag attrs text children tail) p = Some m).
      { induction l as [|c l IHl]; intros pre E HI; [destruct HI|]. cbn [tabs_list] in HI. apply in_app_or in HI as [HI|HI].
        - apply in_map_iff in HI as ([q m'] & E' & HI). cbn [fst snd] in E'. injection E' as <- <-. cbn [node_at x_children]. rewrite E, nth_error_app2, Nat.sub_diag by lia. cbn [nth_error].
          rewrite Forall_forall in IH. apply IH; [rewrite E; apply in_or_app; right; left; reflexivity|exact HI].
        - apply (IHl (pre ++ [c])); [rewrite <- app_assoc; exact E|]. rewrite app_length, Nat.add_1_r. exact HI. }
      exact (G children [] eq_refl H).
  Qed.

  (** *** Marks removed *)
  Lemma unmark_none n : (forall m, In m (tree_nodes n) -> tbl m = false) -> unmark n = n.
  Proof.
    induction n as [tag attrs text children tail IH| |] using xnode_ind'; intros H; try reflexivity.
    cbn [M_Nested.unmark]. pose proof (H _ (nodes_self _)) as E. cbn [x_has_tag] in E. rewrite E. f_equal. rewrite <- (map_id children) at 2. apply map_ext_in. intros c Hc.
    rewrite Forall_forall in IH. apply (IH c Hc). intros m Hm. apply H, (nodes_child _ c); assumption.
  Qed.
  Lemma unmark_table n : tbl n = true -> (forall m, inside n m -> tbl m = false) -> unmark n = drop_mark n.
  Proof.
    intros Ht H. destruct n as [tag attrs text children tail| |]; try discriminate. cbn [M_Nested.unmark]. cbn [x_has_tag] in Ht. rewrite Ht. do 2 f_equal.
    rewrite <- (map_id children) at 2. apply map_ext_in. intros c Hc. apply unmark_none. intros m Hm. apply H. apply in_nodes in Hm as [->|Hm]; [apply in_child, Hc|apply (in_deep _ c); assumption].
  Qed.
  Lemma unmark_children n : x_children (unmark n) = map unmark (x_children n).
  Proof.
    destruct n as [tag attrs text children tail| |]; try reflexivity. cbn [M_Nested.unmark x_children]. destruct (String.eqb name tag); [|reflexivity].
    destruct attrs as [|[a v] attrs]; cbn [drop_mark]; [reflexivity|]. destruct (String.eqb a mark_name); reflexivity.
  Qed.
  Lemma unmark_tail n : x_tail (unmark n) = x_tail n.
  Proof.
    destruct n as [tag attrs text children tail| |]; try reflexivity. cbn [M_Nested.unmark x_tail]. destruct (String.eqb name tag); [|reflexivity].
    destruct attrs as [|[a v] attrs]; cbn [drop_mark]; [reflexivity|]. destruct (String.eqb a mark_name); reflexivity.
  Qed.
  Lemma unmark_at p : forall n, node_at (unmark n) p = option_map unmark (node_at n p).
  Proof.
    induction p as [|i p IH]; intros n; [reflexivity|]. cbn [node_at]. rewrite unmark_children, nth_error_map. destruct (nth_error (x_children n) i); [apply IH|reflexivity].
  Qed.
  Lemma unmark_after p : forall n, after_at (unmark n) p = map unmark (after_at n p).
  Proof.
    induction p as [|i p IH]; intros n; [reflexivity|]. cbn [after_at]. rewrite unmark_children, nth_error_map. destruct (nth_error (x_children n) i); [|reflexivity].
    cbn [option_map]. rewrite IH, map_app. f_equal. clear. generalize (x_children n) as l. intros l. revert i. induction l as [|c l IHl]; intros [|i]; try reflexivity. exact (IHl i).
  Qed.
  Lemma replace_nth_map {A B} (f : A -> B) (g : A -> A) (h : B -> B) l : (forall x, f (g x) = h (f x)) -> forall i, map f (replace_nth i g l) = replace_nth i h (map f l).
  Proof. intros H. induction l as [|a l IH]; intros [|i]; try reflexivity; cbn [replace_nth map]; [rewrite H; reflexivity|rewrite IH; reflexivity]. Qed.
  Lemma unmark_replace p x : forall n, unmark (replace_at n p x) = replace_at (unmark n) p (unmark x).
  Proof.
    induction p as [|i p IH]; intros n; [reflexivity|]. destruct n as [tag attrs text children tail| |]; try reflexivity.
    cbn [replace_at M_Nested.unmark].
    rewrite (replace_nth_map unmark _ (fun c => replace_at c p (unmark x)) children (fun c => IH c)).
    destruct (String.eqb name tag); [|reflexivity]. destruct attrs as [|[a v] attrs]; cbn [drop_mark replace_at]; [reflexivity|]. destruct (String.eqb a mark_name); reflexivity.
  Qed.

  (** *** One turn *)
  Lemma put_replace k e n : forall p m, find_all (has_mark k) n = [p] -> node_at n p = Some m -> put_mark k e n = replace_at n p (x_set_tail e (x_tail m)).
  Proof.
    induction n as [tag attrs text children tail IH| |] using xnode_ind'; intros p m H Hm; try discriminate H.
    rewrite find_elem in H. cbn [M_Nested.put_mark]. destruct (has_mark k (XElem tag attrs text children tail)).
    - cbn [app] in H. injection H as <- _. injection Hm as <-. reflexivity.
    - cbn [app] in H. rewrite Forall_forall in IH.
      assert (N : forall l i, (forall c, In c l -> In c children) -> finds (has_mark k) i l = [] -> map (put_mark k e) l = l).
      { induction l as [|c l IHl]; intros i Hl E; [reflexivity|]. cbn [finds] in E. apply app_eq_nil in E as [E1 E2]. apply map_eq_nil in E1. cbn [map].
        rewrite (IHl (S i)); [|intros x Hx; apply Hl; right; exact Hx|exact E2]. rewrite put_none; [reflexivity|]. destruct (find_all_nodes (has_mark k) c) as [_ F]. exact (F E1). }
      assert (G : forall l pre, children = pre ++ l -> finds (has_mark k) (List.length pre) l = [p] ->
        exists i p', p = (List.length pre + i)%nat :: p' /\ map (put_mark k e) l = replace_nth i (fun c => replace_at c p' (x_set_tail e (x_tail m))) l).
      { induction l as [|c l IHl]; intros pre E HF; [discriminate|]. cbn [finds] in HF. destruct (find_all (has_mark k) c) as [|p' ps] eqn:Ef.
        - cbn [map app] in HF. destruct (IHl (pre ++ [c])) as (i & p' & E1 & E2); [rewrite <- app_assoc; exact E|rewrite app_length, Nat.add_1_r; exact HF|].
          exists (S i), p'. split; [rewrite E1, app_length; cbn [List.length]; f_equal; lia|]. cbn [map replace_nth]. rewrite E2. f_equal.
          apply put_none. destruct (find_all_nodes (has_mark k) c) as [_ F]. exact (F Ef).
        - cbn [map app] in HF. injection HF as HF1 HF2. apply app_eq_nil in HF2 as [F1 F2]. apply map_eq_nil in F1. subst ps.
          exists 0%nat, p'. split; [rewrite Nat.add_0_r; symmetry; exact HF1|]. cbn [map replace_nth].
          assert (Hc : In c children) by (rewrite E; apply in_or_app; right; left; reflexivity).
          assert (Hn : node_at c p' = Some m).
          { rewrite <- HF1 in Hm. cbn [node_at x_children] in Hm. rewrite E, nth_error_app2, Nat.sub_diag in Hm by lia. exact Hm. }
          f_equal; [apply (IH c Hc p' m Ef Hn)|]. apply (N l (S (List.length pre))); [|exact F2]. intros x Hx. rewrite E. apply in_or_app. right. right. exact Hx. }
      destruct (G children [] eq_refl H) as (i & p' & -> & E). cbn [List.length Nat.add] in *. cbn [replace_at]. rewrite E. reflexivity.
  Qed.

  Lemma put_tabs k e : (forall m, In m (tree_nodes e) -> tbl m = false) -> forall n, (forall p m, In (p, m) (tabs n) -> forall x, inside m x -> tbl x = false) ->
    tabs (put_mark k e n) = filter (fun pn => negb (has_mark k (snd pn))) (tabs n).
  Proof.
    intros He. assert (Z : forall n, (forall m, In m (tree_nodes n) -> tbl m = false) -> tabs n = []).
    { intros n H. pose proof (tabs_nodes n) as E. destruct (tabs n) as [|[p m] l]; [reflexivity|]. exfalso. assert (K : In m (srcs name n)) by (rewrite <- E; left; reflexivity).
      apply filter_In in K as [K1 K2]. cbn beta in K2. rewrite (H m K1) in K2. discriminate K2. }
    induction n as [tag attrs text children tail IH| |] using xnode_ind'; intros HF; try reflexivity.
    set (n := XElem tag attrs text children tail) in *. cbn [M_Nested.put_mark n]. fold n.
    destruct (tbl n) eqn:Et.
    - assert (Hi : forall x, inside n x -> tbl x = false).
      { apply (HF [] n). unfold n. rewrite tabs_elem. cbn [n x_has_tag] in Et. rewrite Et. left. reflexivity. }
      assert (HC : tabs_list 0 children = []).
      { assert (G : forall l i, (forall c, In c l -> In c children) -> tabs_list i l = []); [|apply G; auto]. induction l as [|c l IHl]; intros i Hl; [reflexivity|]. cbn [tabs_list].
        rewrite (Z c); [apply (IHl (S i)); intros x Hx; apply Hl; right; exact Hx|]. intros m Hm. apply Hi. pose proof (Hl c ltac:(left; reflexivity)) as Hc.
        apply in_nodes in Hm as [->|Hm]; [apply in_child; exact Hc|apply (in_deep _ c); [exact Hc|exact Hm]]. }
      assert (ET : tabs n = [([], n)]) by (unfold n; rewrite tabs_elem, HC; cbn [n x_has_tag] in Et; rewrite Et; reflexivity).
      rewrite ET. cbn [filter snd]. destruct (has_mark k n) eqn:Ek; cbn [negb].
      + apply Z. intros m Hm. apply in_nodes in Hm as [->|Hm]; [assert (E : tbl (x_set_tail e (x_tail n)) = tbl e) by (destruct e; reflexivity); rewrite E; apply He, nodes_self|].
        apply He, in_nodes. right. apply (inside_tail e (x_tail n)), Hm.
      + pose proof (put_none name k e n) as E. unfold n in E at 2. cbn [M_Nested.put_mark] in E. fold n in E. rewrite Ek in E. rewrite E; [exact ET|].
        intros m Hm. apply in_nodes in Hm as [->|Hm]; [exact Ek|]. unfold M_Nested.has_mark. rewrite (Hi m Hm). reflexivity.
    - assert (Ek : has_mark k n = false) by (unfold M_Nested.has_mark; rewrite Et; reflexivity). rewrite Ek. unfold n. rewrite !tabs_elem. cbn [n x_has_tag] in Et. rewrite Et. cbn [app].
      assert (HF' : forall p m, In (p, m) (tabs_list 0 children) -> forall x, inside m x -> tbl x = false).
      { intros p m Hp. apply (HF p m). unfold n. rewrite tabs_elem, Et. exact Hp. }
      clear -IH HF'. revert HF'. generalize 0%nat. induction IH as [|c l Hc _ IHl]; intros i HF'; [reflexivity|]. cbn [map tabs_list]. rewrite filter_app.
      rewrite IHl by (intros p m Hp; apply (HF' p m); cbn [tabs_list]; apply in_or_app; right; exact Hp).
      rewrite Hc by (intros p m Hp; apply (HF' (i :: p) m); cbn [tabs_list]; apply in_or_app; left; apply in_map_iff; exists (p, m); auto). f_equal.
      clear. induction (tabs c) as [|[p m] r IHr]; [reflexivity|]. cbn [filter map snd fst]. destruct (has_mark k m); cbn [negb map snd fst]; rewrite IHr; reflexivity.
  Qed.

  Hypothesis not_table : forall after k n e, convert after k n = Ok e -> tbl e = false.
  Hypothesis kept : forall after k n e, convert after k n = Ok e -> forall m, inside e m -> tbl m = true -> exists m0, inside n m0 /\ same_node m m0.

  Lemma all_flat src j : forall k d, (forall p m, In (p, m) (tabs d) -> p <> [] /\ forall x, inside m x -> tbl x = false) ->
    map (fun pn => x_get (snd pn) mark_name) (tabs d) = map (fun i => Some (unary i)) (seq k j) ->
    nested_all name convert src d (seq k j) = (doc_all convert (unmark d) (Z.of_nat k) (map fst (tabs d))).
  Proof.
    induction j as [|j IH]; intros k d HF HM.
    - destruct (tabs d) as [|pn l] eqn:E; [|discriminate]. cbn [seq nested_all map doc_all]. rewrite unmark_none; [reflexivity|].
      intros m Hm. destruct (tbl m) eqn:Et; [|reflexivity]. exfalso. assert (K : In m (srcs name d)) by (apply filter_In; auto). rewrite <- tabs_nodes, E in K. destruct K.
    - destruct (tabs d) as [|[p m] l] eqn:E; [discriminate|]. cbn [seq map snd fst] in HM |- *. injection HM as HM1 HM2.
      assert (Hpm : In (p, m) (tabs d)) by (rewrite E; left; reflexivity). rewrite <- E in HF.
      destruct (HF p m Hpm) as [Hp Hx].
      assert (Hmt : tbl m = true).
      { assert (K : In m (srcs name d)) by (rewrite <- tabs_nodes; apply in_map_iff; exists (p, m); auto). apply filter_In in K as [_ K]. exact K. }
      assert (Hk : forall q x i, In (q, x) (tabs d) -> x_get x mark_name = Some (unary i) -> has_mark k x = (k =? i)%nat).
      { intros q x i Hq Hxi. assert (K : In x (srcs name d)) by (rewrite <- tabs_nodes; apply in_map_iff; exists (q, x); auto). apply filter_In in K as [_ K]. cbn beta in K.
        unfold M_Nested.has_mark. rewrite K, Hxi. cbn [andb]. destruct (Nat.eqb_spec k i) as [->|N]; [apply String.eqb_refl|]. apply String.eqb_neq. intros H. apply N. symmetry. apply unary_inj, H. }
      assert (Hl : forall pn, In pn l -> has_mark k (snd pn) = false).
      { intros [q x] Hq. assert (Hin : In (x_get x mark_name) (map (fun pn => x_get (snd pn) mark_name) l)) by (apply in_map_iff; exists (q, x); auto).
        rewrite HM2 in Hin. apply in_map_iff in Hin as (i & Ei & Hi). apply in_seq in Hi. cbn [snd].
        rewrite (Hk q x i); [apply Nat.eqb_neq; lia|rewrite E; right; exact Hq|symmetry; exact Ei]. }
      assert (Hm : has_mark k m = true) by (rewrite (Hk p m k Hpm HM1); apply Nat.eqb_refl).
      assert (EF : find_all (has_mark k) d = [p]).
      { unfold M_Nested.has_mark. rewrite (tabs_find (fun n => match x_get n mark_name with Some v => String.eqb v (unary k) | None => false end)), E. cbn [filter snd]. rewrite HM1, String.eqb_refl. cbn [map fst].
        f_equal. rewrite (filter_ext_in _ (fun _ => false)); [clear; induction l as [|x l IHl]; [reflexivity|apply IHl]|].
        intros [q x] Hq. pose proof (Hl (q, x) Hq) as K. unfold M_Nested.has_mark in K. cbn [snd] in *.
        assert (K' : In x (srcs name d)) by (rewrite <- tabs_nodes, E; right; apply in_map_iff; exists (q, x); auto). apply filter_In in K' as [_ K']. cbn beta in K'. rewrite K' in K. exact K. }
      pose proof (tabs_at _ _ _ Hpm) as Hat. cbn [nested_all doc_all]. unfold nested_one, doc_one. rewrite EF, Hat, unmark_at, Hat. cbn [option_map].
      rewrite unmark_after, (unmark_table m Hmt Hx). destruct (convert _ _ (drop_mark m)) as [e|] eqn:Ec; cbn [rbind]; [|reflexivity].
      destruct p as [|i p]; [congruence|]. cbn [rbind].
      assert (He : forall x, In x (tree_nodes e) -> tbl x = false).
      { intros x Hxe. apply in_nodes in Hxe as [->|Hxe]; [apply (not_table _ _ _ _ Ec)|]. destruct (tbl x) eqn:Ex; [|reflexivity]. exfalso.
        destruct (kept _ _ _ _ Ec x Hxe Ex) as (x0 & Hx0 & Hs). apply inside_drop, Hx in Hx0. rewrite (tbl_same name _ _ Hs) in Ex. congruence. }
      assert (ET : tabs (put_mark k e d) = l).
      { rewrite put_tabs; [|exact He|intros q x Hq; apply (HF q x Hq)]. rewrite E. cbn [filter snd]. rewrite Hm. cbn [negb].
        rewrite (filter_ext_in _ (fun _ => true)); [clear; induction l as [|x l IHl]; [reflexivity|cbn; rewrite IHl; reflexivity]|]. intros pn Hpn. rewrite (Hl pn Hpn). reflexivity. }
      rewrite IH; rewrite ET.
      + f_equal; [|lia]. rewrite (put_replace k e d _ _ EF Hat), unmark_replace. f_equal.
        assert (Et : x_tail (drop_mark m) = x_tail m) by (rewrite <- (unmark_table m Hmt Hx); apply unmark_tail). rewrite Et.
        rewrite unmark_none; [reflexivity|]. intros x Hxe. apply in_nodes in Hxe as [->|Hxe].
        * assert (E' : tbl (x_set_tail e (x_tail m)) = tbl e) by (destruct e; reflexivity). rewrite E'. apply He, nodes_self.
        * apply He, in_nodes. right. apply (inside_tail e (x_tail m)), Hxe.
      + intros q x Hq. apply HF. rewrite E. right. exact Hq.
      + exact HM2.
  Qed.
  Lemma mark_paths n : forall k, map fst (tabs (snd (mark_from name k n))) = map fst (tabs n).
  Proof.
    induction n as [tag attrs text children tail IH| |] using xnode_ind'; intros k; try reflexivity.
    rewrite mark_elem. cbn [snd]. rewrite !tabs_elem, !map_app. f_equal; [destruct (String.eqb name tag); reflexivity|].
    generalize (if String.eqb name tag then S k else k) as k'. generalize 0%nat as i. induction IH as [|c l Hc _ IHl]; intros i k'; [reflexivity|].
    cbn [mark_list snd tabs_list]. rewrite !map_app, !map_map, IHl. f_equal. specialize (Hc k'). cbn [fst].
    transitivity (map (cons i) (map fst (tabs (snd (mark_from name k' c))))); [rewrite map_map; reflexivity|]. rewrite Hc, map_map. reflexivity.
  Qed.
  Lemma mark_inside n : forall k m, inside (snd (mark_from name k n)) m -> exists j x, inside n x /\ m = snd (mark_from name j x).
  Proof.
    induction n as [tag attrs text children tail IH| |] using xnode_ind'; intros k m H.
    - rewrite mark_elem in H. cbn [snd] in H. apply inside_child in H as (c & Hc & Hm). cbn [x_children] in Hc.
      revert Hc. generalize (if String.eqb name tag then S k else k) as k'. clear k. intros k' Hc.
      assert (G : exists j y, In y children /\ c = snd (mark_from name j y)).
      { clear -Hc. revert k' Hc. induction children as [|y l IHl]; intros k' Hc; [destruct Hc|]. cbn [mark_list snd] in Hc. destruct Hc as [<-|Hc].
        - exists k', y. split; [left; reflexivity|reflexivity].
        - destruct (IHl _ Hc) as (j & z & Hz & E). exists j, z. split; [right; exact Hz|exact E]. }
      destruct G as (j & y & Hy & ->). apply in_nodes in Hm as [->|Hm]; [exists j, y; split; [apply in_child, Hy|reflexivity]|].
      rewrite Forall_forall in IH. destruct (IH y Hy j m Hm) as (j' & x & Hx & E). exists j', x. split; [apply (in_deep _ y); assumption|exact E].
    - inversion H as [? c Hc|? c ? Hc _]; destruct Hc.
    - inversion H as [? c Hc|? c ? Hc _]; destruct Hc.
  Qed.
  Lemma mark_tbl n k : tbl (snd (mark_from name k n)) = tbl n.
  Proof. destruct n; reflexivity. Qed.
  Theorem nested_flat doc : tbl doc = false -> not_nested (fun n => tbl n) doc -> nested_tables name convert doc = doc_tables (fun n => tbl n) convert doc.
  Proof.
    intros Hr Hn. unfold nested_tables. set (src := snd (mark_from name 1 doc)). destruct (marks name doc 1) as [HM1 HM2]. fold src in HM2.
    rewrite all_flat.
    - unfold doc_tables. unfold src at 1. rewrite unmark_mark. unfold src. rewrite mark_paths. f_equal.
      assert (E : forall p q n, (forall x, p x = q x) -> find_all p n = find_all q n).
      { clear. intros p q n H. induction n as [tag attrs text children tail IH| |] using xnode_ind'; try (cbn; rewrite H; reflexivity).
        rewrite !find_elem, H. f_equal. generalize 0%nat. induction IH as [|c l Hc _ IHl]; intros i; [reflexivity|]. cbn [finds]. rewrite Hc, IHl. reflexivity. }
      rewrite (E (fun n => tbl n) (fun n => tbl n && true)%bool) by (intros x; rewrite andb_true_r; reflexivity).
      rewrite (tabs_find (fun _ => true)). f_equal. clear. induction (tabs doc) as [|x l IHl]; [reflexivity|]. cbn. rewrite <- IHl. reflexivity.
    - intros p m Hp. assert (K : In m (srcs name src)) by (rewrite <- tabs_nodes; apply in_map_iff; exists (p, m); auto). apply filter_In in K as [K1 K2]. cbn beta in K2.
      apply in_nodes in K1 as [->|K1]; [exfalso; unfold src in K2; rewrite mark_tbl in K2; congruence|]. split.
      + intros ->. apply tabs_at in Hp. injection Hp as <-. unfold src in K2. rewrite mark_tbl in K2. congruence.
      + apply mark_inside in K1 as (j & y & Hy & ->). intros x Hx. apply mark_inside in Hx as (j' & z & Hz & ->). rewrite mark_tbl in *. apply (Hn y z); [split; assumption|exact Hz].
    - rewrite <- (map_map snd (fun n => x_get n mark_name)), tabs_nodes. exact HM2.
  Qed.
End Flat.
