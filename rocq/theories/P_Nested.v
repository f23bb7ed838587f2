(** * Proofs: the conversion of a document which has tables inside tables *)
From Verif Require Import Base M_Xml M_Geometry M_Cell M_Grid M_Table M_Cals M_CalsParser M_Formex M_FormexParser M_FormexRead M_FormexFinal M_FormexFinish M_Ooxml M_Transform M_Convert M_ConvertDoc M_Nested.
From Verif Require Import S_Transform S_Nested P_Cals P_Transform P_ConvertDoc.
Open Scope string_scope.
Open Scope list_scope.

(** ** Nodes *)
Lemma in_nodes n m : In m (tree_nodes n) <-> (m = n \/ inside n m).
Proof.
  split.
  - revert m. induction n as [tag attrs text children tail IH| |] using xnode_ind'; intros m H; cbn [tree_nodes] in H.
    + destruct H as [<-|H]; [auto|]. right. apply in_flat_map in H as (c & Hc & H). rewrite Forall_forall in IH.
      destruct (IH c Hc m H) as [->|Hi]; [apply in_child, Hc|apply (in_deep _ c); assumption].
    + destruct H as [<-|[]]; auto.
    + destruct H as [<-|[]]; auto.
  - intros [->|H]; [destruct n; left; reflexivity|]. induction H as [n c Hc|n c m Hc _ IH]; destruct n; cbn [x_children] in Hc; try (destruct Hc; fail); cbn [tree_nodes]; right; apply in_flat_map; exists c; (split; [exact Hc|]).
    + destruct c; left; reflexivity.
    + exact IH.
Qed.
Lemma nodes_child n c m : In c (x_children n) -> In m (tree_nodes c) -> In m (tree_nodes n).
Proof. intros Hc Hm. destruct n; cbn [x_children] in Hc; try (destruct Hc; fail). cbn [tree_nodes]. right. apply in_flat_map. eauto. Qed.
Lemma nodes_self n : In n (tree_nodes n).
Proof. destruct n; left; reflexivity. Qed.
Lemma inside_child n m : inside n m -> exists c, In c (x_children n) /\ In m (tree_nodes c).
Proof. intros H. inversion H as [? c Hc|? c ? Hc Hi]; subst; [exists m|exists c]; (split; [exact Hc|]); apply in_nodes; auto. Qed.
Lemma inside_tail n t m : inside (x_set_tail n t) m <-> inside n m.
Proof.
  assert (E : x_children (x_set_tail n t) = x_children n) by (destruct n; reflexivity).
  split; intros H; inversion H as [? c Hc|? c ? Hc Hi]; subst; rewrite ?E in Hc; try (apply in_child; rewrite ?E; exact Hc); apply (in_deep _ c); rewrite ?E; assumption.
Qed.
Lemma inside_same n m x : same_node n m -> inside n x -> inside m x.
Proof. intros H Hi. apply (inside_tail m None). rewrite <- H. apply inside_tail, Hi. Qed.
Lemma inside_drop n m : inside (drop_mark n) m <-> inside n m.
Proof.
  assert (E : x_children (drop_mark n) = x_children n) by (destruct n as [tag [|[a v] attrs] text children tail| |]; cbn; try reflexivity; destruct (String.eqb a mark_name); reflexivity).
  split; intros H; inversion H as [? c Hc|? c ? Hc Hi]; subst; rewrite ?E in Hc; try (apply in_child; rewrite ?E; exact Hc); apply (in_deep _ c); rewrite ?E; assumption.
Qed.
Lemma same_sym n m : same_node n m -> same_node m n.
Proof. unfold same_node. auto. Qed.
Lemma same_trans n m p : same_node n m -> same_node m p -> same_node n p.
Proof. unfold same_node. congruence. Qed.
Lemma same_tail n t : same_node (x_set_tail n t) n.
Proof. destruct n; reflexivity. Qed.
Lemma set_tail_twice n a b : x_set_tail (x_set_tail n a) b = x_set_tail n b.
Proof. destruct n; reflexivity. Qed.
Lemma tail_set n t : x_tail (x_set_tail n t) = t.
Proof. destruct n; reflexivity. Qed.

Lemma unary_length k : String.length (unary k) = k.
Proof. induction k as [|k IH]; cbn; congruence. Qed.
Lemma unary_inj a b : unary a = unary b -> a = b.
Proof. intros H. rewrite <- (unary_length a), H. apply unary_length. Qed.

(** Paths *)
Lemma find_all_nodes p n : (forall q, In q (find_all p n) -> exists m, node_at n q = Some m /\ In m (tree_nodes n) /\ p m = true) /\
  (find_all p n = [] -> forall m, In m (tree_nodes n) -> p m = false).
Proof.
  assert (L : forall n, ([] : path) = [] -> p n = true -> exists m, node_at n [] = Some m /\ In m (tree_nodes n) /\ p m = true).
  { intros x _ H. exists x. split; [reflexivity|]. split; [apply nodes_self|exact H]. }
  induction n as [tag attrs text children tail IH| |] using xnode_ind'.
  - rewrite (find_elem p). set (n := XElem tag attrs text children tail) in *.
    assert (G : forall l pre, children = pre ++ l ->
      (forall q, In q (finds p (List.length pre) l) -> exists m, node_at n q = Some m /\ In m (tree_nodes n) /\ p m = true) /\
      (finds p (List.length pre) l = [] -> forall c m, In c l -> In m (tree_nodes c) -> p m = false)).
    { induction l as [|c l IHl]; intros pre E; cbn [finds]; [split; [intros q []|intros _ c m []]|].
      assert (Hc : In c children) by (rewrite E; apply in_or_app; right; left; reflexivity).
      rewrite Forall_forall in IH. destruct (IH c Hc) as [I1 I2].
      destruct (IHl (pre ++ [c])) as [J1 J2]; [rewrite <- app_assoc; exact E|].
      rewrite app_length in J1, J2. cbn [List.length] in J1, J2. rewrite Nat.add_1_r in J1, J2. split.
      - intros q Hq. apply in_app_or in Hq as [Hq|Hq]; [|apply J1, Hq]. apply in_map_iff in Hq as (q' & <- & Hq).
        destruct (I1 q' Hq) as (m & H1 & H2 & H3). exists m. split; [|split; [apply (nodes_child n c); [exact Hc|exact H2]|exact H3]].
        cbn [node_at x_children n]. rewrite E, nth_error_app2 by lia. rewrite Nat.sub_diag. cbn [nth_error]. exact H1.
      - intros H. apply app_eq_nil in H as [H1 H2]. apply map_eq_nil in H1. intros d m [<-|Hd] Hm; [apply (I2 H1), Hm|]. exact (J2 H2 d m Hd Hm). }
    destruct (G children [] eq_refl) as [G1 G2]. cbn [List.length] in G1, G2. split.
    + intros q Hq. apply in_app_or in Hq as [Hq|Hq]; [|apply G1, Hq]. destruct (p n) eqn:En; [|destruct Hq]. destruct Hq as [<-|[]]. apply L; [reflexivity|exact En].
    + intros H. apply app_eq_nil in H as [H1 H2]. intros m Hm. unfold n in Hm. cbn [tree_nodes] in Hm. destruct Hm as [<-|Hm]; [fold n; destruct (p n); [discriminate|reflexivity]|].
      apply in_flat_map in Hm as (c & Hc & Hm). exact (G2 H2 c m Hc Hm).
  - cbn [find_all]. rewrite app_nil_r. split.
    + intros q Hq. destruct (p _) eqn:En; [|destruct Hq]. destruct Hq as [<-|[]]. apply L; [reflexivity|exact En].
    + intros H m [<-|[]]. destruct (p _); [discriminate|reflexivity].
  - cbn [find_all]. rewrite app_nil_r. split.
    + intros q Hq. destruct (p _) eqn:En; [|destruct Hq]. destruct Hq as [<-|[]]. apply L; [reflexivity|exact En].
    + intros H m [<-|[]]. destruct (p _); [discriminate|reflexivity].
Qed.

(** ** Document order: what is in a node comes after it *)
Lemma nodes_segment l a m : nth_error (flat_map tree_nodes l) a = Some m -> exists rest, skipn a (flat_map tree_nodes l) = tree_nodes m ++ rest.
Proof.
  assert (T : forall n a m, nth_error (tree_nodes n) a = Some m -> exists rest, skipn a (tree_nodes n) = tree_nodes m ++ rest).
  { assert (F : forall l, Forall (fun n => forall a m, nth_error (tree_nodes n) a = Some m -> exists rest, skipn a (tree_nodes n) = tree_nodes m ++ rest) l ->
      forall a m, nth_error (flat_map tree_nodes l) a = Some m -> exists rest, skipn a (flat_map tree_nodes l) = tree_nodes m ++ rest).
    { induction 1 as [|c l0 Hc _ IH]; intros a' m'; [destruct a'; discriminate|]. cbn [flat_map]. intros H.
      destruct (Nat.lt_ge_cases a' (List.length (tree_nodes c))) as [Hl|Hl].
      - rewrite nth_error_app1 in H by exact Hl. destruct (Hc _ _ H) as (r & Hr). exists (r ++ flat_map tree_nodes l0).
        rewrite skipn_app, Hr. replace (a' - _)%nat with 0%nat by lia. cbn [skipn]. rewrite app_assoc. reflexivity.
      - rewrite nth_error_app2 in H by exact Hl. destruct (IH _ _ H) as (r & Hr). exists r. rewrite skipn_app, Hr, skipn_all2 by exact Hl. reflexivity. }
    induction n as [tag attrs text children tail IH| |] using xnode_ind'; intros a' m' H.
    - destruct a' as [|a']; [injection H as <-; exists []; cbn [skipn]; rewrite app_nil_r; reflexivity|]. cbn [tree_nodes nth_error] in H. cbn [tree_nodes skipn]. exact (F children IH a' m' H).
    - destruct a' as [|a']; [injection H as <-; exists []; reflexivity|destruct a'; discriminate H].
    - destruct a' as [|a']; [injection H as <-; exists []; reflexivity|destruct a'; discriminate H]. }
  revert a m. induction l as [|c l IH]; intros a m; [destruct a; discriminate|]. cbn [flat_map]. intros H.
  destruct (Nat.lt_ge_cases a (List.length (tree_nodes c))) as [Hl|Hl].
  - rewrite nth_error_app1 in H by exact Hl. destruct (T _ _ _ H) as (r & Hr). exists (r ++ flat_map tree_nodes l).
    rewrite skipn_app, Hr. replace (a - _)%nat with 0%nat by lia. cbn [skipn]. rewrite app_assoc. reflexivity.
  - rewrite nth_error_app2 in H by exact Hl. destruct (IH _ _ H) as (r & Hr). exists r. rewrite skipn_app, Hr, skipn_all2 by exact Hl. reflexivity.
Qed.
Lemma filter_split {A} (f : A -> bool) l i x : nth_error (filter f l) i = Some x -> exists pre post, l = pre ++ x :: post /\ List.length (filter f pre) = i.
Proof.
  revert i. induction l as [|a l IH]; intros i H; [destruct i; discriminate|]. cbn [filter] in H. destruct (f a) eqn:E.
  - destruct i as [|i]; [injection H as ->; exists [], l; auto|]. destruct (IH i H) as (pre & post & -> & Hl). exists (a :: pre), post. cbn [filter]. rewrite E. cbn. auto.
  - destruct (IH i H) as (pre & post & -> & Hl). exists (a :: pre), post. cbn [filter]. rewrite E. auto.
Qed.
Lemma nested_after f n i m x : nth_error (filter f (tree_nodes n)) i = Some m -> inside m x -> f x = true ->
  exists j, (i < j)%nat /\ nth_error (filter f (tree_nodes n)) j = Some x.
Proof.
  intros H Hi Hx. assert (Hm : f m = true) by (apply nth_error_In, filter_In in H; tauto). apply filter_split in H as (pre & post & E & Hl).
  assert (E' : tree_nodes n = flat_map tree_nodes [n]) by (cbn [flat_map]; rewrite app_nil_r; reflexivity).
  destruct (nodes_segment [n] (List.length pre) m) as (rest & Hr).
  { rewrite <- E', E, nth_error_app2 by lia. rewrite Nat.sub_diag. reflexivity. }
  rewrite <- E', E, skipn_app, skipn_all, Nat.sub_diag in Hr. cbn [skipn app] in Hr.
  assert (Hin : In x post).
  { apply inside_child in Hi as (c & Hc & Hcx). destruct m as [tag attrs text children tail| |]; try (destruct Hc; fail).
    cbn [tree_nodes app] in Hr. injection Hr as ->. apply in_or_app. left. apply in_flat_map. eauto. }
  assert (Hf : In x (filter f post)) by (apply filter_In; auto). apply In_nth_error in Hf as (j & Hj).
  exists (S (List.length (filter f pre) + j)). split; [lia|]. rewrite E, filter_app. cbn [filter]. rewrite Hm.
  rewrite nth_error_app2 by lia. replace (S (List.length (filter f pre) + j) - List.length (filter f pre))%nat with (S j) by lia. exact Hj.
Qed.

(** ** The loop *)
Section Loop.
  Variable name : string.
  Variable convert : list xnode -> Z -> xnode -> result xnode.
  Notation tbl n := (x_has_tag n name).
  Notation mark_from := (mark_from name).
  Notation has_mark := (has_mark name).
  Notation put_mark := (put_mark name).

  (** *** The marks *)
  Fixpoint mark_list (k : nat) (l : list xnode) : nat * list xnode :=
    match l with
    | [] => (k, [])
    | c :: l' => let r1 := mark_from k c in let r2 := mark_list (fst r1) l' in (fst r2, snd r1 :: snd r2)
    end.
  Lemma mark_elem k tag attrs text children tail : mark_from k (XElem tag attrs text children tail) =
    (fst (mark_list (if String.eqb name tag then S k else k) children),
     XElem tag (if String.eqb name tag then (mark_name, unary k) :: attrs else attrs) text (snd (mark_list (if String.eqb name tag then S k else k) children)) tail).
  Proof. reflexivity. Qed.
  Definition srcs (n : xnode) : list xnode := filter (fun m => tbl m) (tree_nodes n).
  Lemma filter_flat {A B} (f : B -> bool) (g : A -> list B) l : filter f (flat_map g l) = flat_map (fun x => filter f (g x)) l.
  Proof. induction l as [|a l IH]; [reflexivity|]. cbn [flat_map]. rewrite filter_app, IH. reflexivity. Qed.
  Lemma marks n : forall k, (k <= fst (mark_from k n))%nat /\
    map (fun m => x_get m mark_name) (srcs (snd (mark_from k n))) = map (fun i => Some (unary i)) (seq k (fst (mark_from k n) - k)).
  Proof.
    induction n as [tag attrs text children tail IH| |] using xnode_ind'; intros k; try (cbn; rewrite Nat.sub_diag; auto; fail).
    rewrite mark_elem. cbn [fst snd].
    assert (G : forall k, (k <= fst (mark_list k children))%nat /\
      map (fun m => x_get m mark_name) (flat_map srcs (snd (mark_list k children))) = map (fun i => Some (unary i)) (seq k (fst (mark_list k children) - k))).
    { clear k. induction IH as [|c l Hc _ IHl]; intros k; [cbn; rewrite Nat.sub_diag; auto|]. cbn [mark_list fst snd flat_map].
      destruct (Hc k) as [H1 H2]. destruct (IHl (fst (mark_from k c))) as [H3 H4]. split; [lia|]. rewrite map_app, H2, H4, <- map_app.
      replace (fst (mark_list (fst (mark_from k c)) l) - k)%nat with ((fst (mark_from k c) - k) + (fst (mark_list (fst (mark_from k c)) l) - fst (mark_from k c)))%nat by lia.
      rewrite seq_app. replace (k + (fst (mark_from k c) - k))%nat with (fst (mark_from k c)) by lia. reflexivity. }
    unfold srcs at 1. cbn [tree_nodes filter x_has_tag]. destruct (String.eqb name tag).
    - destruct (G (S k)) as [G1 G2]. split; [lia|]. cbn [map]. rewrite filter_flat. fold srcs. rewrite G2.
      replace (fst (mark_list (S k) children) - k)%nat with (S (fst (mark_list (S k) children) - S k)) by lia. reflexivity.
    - destruct (G k) as [G1 G2]. split; [exact G1|]. rewrite filter_flat. exact G2.
  Qed.
  Lemma unmark_mark n : forall k, unmark name (snd (mark_from k n)) = n.
  Proof.
    induction n as [tag attrs text children tail IH| |] using xnode_ind'; intros k; try reflexivity.
    rewrite mark_elem. cbn [snd unmark].
    assert (G : forall k, map (unmark name) (snd (mark_list k children)) = children).
    { clear k. induction IH as [|c l Hc _ IHl]; intros k; [reflexivity|]. cbn [mark_list snd map]. rewrite Hc, IHl. reflexivity. }
    rewrite G. destruct (String.eqb name tag); [cbn|]; reflexivity.
  Qed.
  Lemma mark_src n k i m : nth_error (srcs (snd (mark_from k n))) i = Some m -> x_get m mark_name = Some (unary (k + i)).
  Proof.
    intros H. destruct (marks n k) as [_ E]. apply (map_nth_error (fun m => x_get m mark_name)) in H. rewrite E in H.
    assert (Hi : (i < fst (mark_from k n) - k)%nat).
    { assert (H' : nth_error (map (fun i => Some (unary i)) (seq k (fst (mark_from k n) - k))) i <> None) by congruence.
      apply nth_error_Some in H'. rewrite map_length, seq_length in H'. exact H'. }
    assert (K : nth_error (seq k (fst (mark_from k n) - k)) i = Some (k + i)%nat).
    { rewrite (nth_error_nth' _ 0%nat) by (rewrite seq_length; exact Hi). rewrite seq_nth by exact Hi. reflexivity. }
    apply (map_nth_error (fun i => Some (unary i))) in K. congruence.
  Qed.
  Lemma src_count n k i m : nth_error (srcs (snd (mark_from k n))) i = Some m -> (i < fst (mark_from k n) - k)%nat.
  Proof.
    intros H. destruct (marks n k) as [_ E]. apply (f_equal (@List.length _)) in E. rewrite !map_length, seq_length in E. rewrite <- E. apply nth_error_Some. congruence.
  Qed.

  Lemma mark_labelled n : forall k, labelled (fun m => tbl m) n (snd (mark_from k n)).
  Proof.
    induction n as [tag attrs text children tail IH| |] using xnode_ind'; intros k; [|apply labelled_pi|apply labelled_comment].
    rewrite mark_elem. cbn [snd].
    assert (G : forall k, labelled_list (fun m => tbl m) children (snd (mark_list k children))).
    { clear k. induction IH as [|c l Hc _ IHl]; intros k; [apply labelled_nil|]. cbn [mark_list snd]. apply labelled_cons; [apply Hc|apply IHl]. }
    destruct (String.eqb name tag) eqn:E; [apply labelled_table|apply labelled_elem]; try exact E; apply G.
  Qed.
  Lemma mark_form n : forall k m, In m (tree_nodes (snd (mark_from k n))) -> tbl m = true ->
    exists tag v attrs text ch tail, m = XElem tag ((mark_name, v) :: attrs) text ch tail.
  Proof.
    induction n as [tag attrs text children tail IH| |] using xnode_ind'; intros k m H Ht; [|destruct H as [<-|[]]; discriminate..].
    rewrite mark_elem in H. cbn [snd] in H. cbn [tree_nodes] in H. destruct H as [<-|H].
    - cbn [x_has_tag] in Ht. rewrite Ht. eauto 10.
    - revert H. generalize (if String.eqb name tag then S k else k) as k'. induction IH as [|c l Hc _ IHl]; intros k' H; [destruct H|].
      cbn [mark_list snd flat_map] in H. apply in_app_or in H as [H|H]; [exact (Hc _ _ H Ht)|exact (IHl _ H)].
  Qed.
  Lemma unlabelled_same n x m0 : (exists tag v attrs text ch tail, m0 = XElem tag ((mark_name, v) :: attrs) text ch tail) -> same_node n m0 -> same_node x m0 -> unlabelled x (drop_mark n).
  Proof.
    intros (tag & v & attrs & text & ch & tail & ->) H1 H2. unfold same_node in *. destruct n; try discriminate H1. destruct x; try discriminate H2.
    cbn [x_set_tail] in *. injection H1 as -> -> -> ->. injection H2 as -> -> -> ->. exists tag, v, attrs, text, ch. do 2 eexists. split; reflexivity.
  Qed.

  (** *** Nodes and their marks *)
  Lemma has_mark_same k n m : same_node n m -> has_mark k n = has_mark k m.
  Proof. unfold same_node. destruct n, m; cbn; intros H; try discriminate; try reflexivity. injection H as -> -> _ _. reflexivity. Qed.
  Lemma tbl_same n m : same_node n m -> tbl n = tbl m.
  Proof. unfold same_node. destruct n, m; cbn; intros H; try discriminate; try reflexivity. injection H as -> _ _ _. reflexivity. Qed.
  Lemma has_mark_tbl k n : has_mark k n = true -> tbl n = true.
  Proof. unfold M_Nested.has_mark. intros H. apply andb_prop in H. tauto. Qed.
  Lemma put_none k e n : (forall m, In m (tree_nodes n) -> has_mark k m = false) -> put_mark k e n = n.
  Proof.
    induction n as [tag attrs text children tail IH| |] using xnode_ind'; intros H.
    - cbn [M_Nested.put_mark]. rewrite (H _ (nodes_self _)). f_equal. rewrite <- (map_id children) at 2. apply map_ext_in. intros c Hc.
      rewrite Forall_forall in IH. apply (IH c Hc). intros m Hm. apply H. apply (nodes_child _ c); assumption.
    - cbn [M_Nested.put_mark]. rewrite (H _ (nodes_self _)). reflexivity.
    - cbn [M_Nested.put_mark]. rewrite (H _ (nodes_self _)). reflexivity.
  Qed.

  (** The result has the tables which are inside the source, and is not a table *)
  Hypothesis not_table : forall after k n e, convert after k n = Ok e -> tbl e = false.
  Hypothesis kept : forall after k n e, convert after k n = Ok e -> forall m, inside e m -> tbl m = true -> exists m0, inside n m0 /\ same_node m m0.

  Definition R (n e : xnode) : Prop := exists after k n1, unlabelled n n1 /\ convert after k n1 = Ok e.

  Variable doc : xnode.
  Let src : xnode := snd (mark_from 1 doc).

  (** the tables which are left in a tree, from turn [k] on *)
  Definition pending (k : nat) (n : xnode) : Prop :=
    forall m, In m (tree_nodes n) -> tbl m = true -> exists i m0, (k <= S i)%nat /\ nth_error (srcs src) i = Some m0 /\ same_node m m0.
  Lemma pending_child k n c : pending k n -> In c (x_children n) -> pending k c.
  Proof. intros H Hc m Hm. apply H, (nodes_child n c); assumption. Qed.
  Lemma src_mark i m m0 j : nth_error (srcs src) i = Some m0 -> same_node m m0 -> tbl m = true -> (has_mark j m = true <-> j = S i).
  Proof.
    intros H1 H2 H3. rewrite (has_mark_same _ _ _ H2). rewrite (tbl_same _ _ H2) in H3. unfold M_Nested.has_mark. rewrite H3. cbn [andb].
    rewrite (mark_src _ _ _ _ H1). cbn [Nat.add]. split; [intros H; apply String.eqb_eq, unary_inj in H; congruence|]. intros ->. apply String.eqb_refl.
  Qed.
  (** a table of a later turn has no table of this turn in it *)
  Lemma later k n : pending k n -> tbl n = true -> has_mark k n = false -> forall m, In m (tree_nodes n) -> has_mark k m = false.
  Proof.
    intros HP Ht Hk m Hm. destruct (has_mark k m) eqn:E; [|reflexivity]. exfalso.
    destruct (HP n (nodes_self n) Ht) as (i & n0 & Hi & H1 & H2).
    apply in_nodes in Hm as [->|Hm]; [congruence|]. apply (inside_same _ _ _ H2) in Hm.
    pose proof (has_mark_tbl _ _ E) as Em. destruct (nested_after _ _ _ _ _ H1 Hm Em) as (j & Hj & Hj').
    apply (src_mark j m m k Hj' eq_refl Em) in E. subst k.
    assert (S i = S j) by (assert (Hs : has_mark (S i) n = true) by (apply (src_mark i n n0 (S i) H1 H2 Ht); reflexivity); lia). lia.
  Qed.

  Lemma full_tail n n' t : tbl n = false -> full (fun m => tbl m) R (x_set_tail n t) n' -> exists n1, n' = x_set_tail n1 t /\ full (fun m => tbl m) R n n1.
  Proof.
    intros Ht H. inversion H as [? e e' H1 H2 H3 E|tag attrs text children children' tail H1 H2 E|target pitext tail H1 E|ctext tail H1 E]; subst.
    - exfalso. assert (tbl (x_set_tail n t) = tbl n) by (destruct n; reflexivity). congruence.
    - destruct n; cbn in E; try discriminate. injection E as -> -> -> -> ->. eexists (XElem _ _ _ children' _). split; [reflexivity|]. apply full_elem; [exact Ht|exact H2].
    - destruct n; cbn in E; try discriminate. injection E as -> -> ->. eexists (XPI _ _ _). split; [reflexivity|]. apply full_pi, Ht.
    - destruct n; cbn in E; try discriminate. injection E as -> ->. eexists (XComment _ _). split; [reflexivity|]. apply full_comment, Ht.
  Qed.

  Lemma put_full k e : tbl e = false -> forall d, pending k d ->
    (forall n, In n (tree_nodes d) -> has_mark k n = true -> R n e) -> forall d', full (fun m => tbl m) R (put_mark k e d) d' -> full (fun m => tbl m) R d d'.
  Proof.
    intros He. induction d as [tag attrs text children tail IH| |] using xnode_ind'; intros HP HR d' H; cbn [M_Nested.put_mark] in H.
    - set (d := XElem tag attrs text children tail) in *. destruct (has_mark k d) eqn:Ek.
      + apply (full_tail _ _ _ He) in H as (n1 & -> & H). apply (full_table _ _ d e n1); [apply (has_mark_tbl k), Ek|apply HR; [apply nodes_self|exact Ek]|exact H].
      + destruct (tbl d) eqn:Et.
        * pose proof (put_none k e d (later k d HP Et Ek)) as E. unfold d in E at 1. cbn [M_Nested.put_mark] in E. fold d in E. rewrite Ek in E. rewrite E in H. exact H.
        * unfold d in *. inversion H as [? ? ? H1 _ _|? ? ? ? ch' ? H1 H2| |]; subst; [cbn [x_has_tag] in *; congruence|]. apply full_elem; [exact Et|].
          assert (HP' : forall c, In c children -> pending k c) by (intros c Hc; apply (pending_child k _ c HP), Hc).
          assert (HR' : forall c, In c children -> forall n, In n (tree_nodes c) -> has_mark k n = true -> R n e) by (intros c Hc n Hn; apply HR, (nodes_child d c); assumption).
          clear -IH H2 HP' HR'. revert ch' H2. induction children as [|c l IHl]; intros ch' H2; inversion H2; subst; [apply full_nil|].
          inversion IH as [|? ? I1 I2]; subst. apply full_cons.
          -- apply I1; [apply HP'; left; reflexivity|apply HR'; left; reflexivity|assumption].
          -- apply IHl; [exact I2|intros y Hy; apply HP'; right; exact Hy|intros y Hy; apply HR'; right; exact Hy|assumption].
    - cbn in H. exact H.
    - cbn in H. exact H.
  Qed.

  (** *** One turn *)
  Lemma put_pending k e n0 m0 : (exists after j, convert after j (drop_mark n0) = Ok e) -> nth_error (srcs src) (k - 1) = Some m0 -> same_node n0 m0 -> (1 <= k)%nat ->
    forall d, pending k d -> pending (S k) (put_mark k e d).
  Proof.
    intros (after & j & Hc) Hm0 Hs Hk. pose proof (not_table _ _ _ _ Hc) as He.
    assert (PE : forall t, pending (S k) (x_set_tail e t)).
    { intros t m Hm Ht. apply in_nodes in Hm as [->|Hm]; [exfalso; assert (tbl (x_set_tail e t) = tbl e) by (destruct e; reflexivity); congruence|].
      apply (inside_tail e t) in Hm. destruct (kept _ _ _ _ Hc m Hm Ht) as (x & Hx & Hmx). apply inside_drop, (inside_same _ _ _ Hs) in Hx.
      assert (Hxt : tbl x = true) by (rewrite <- (tbl_same _ _ Hmx); exact Ht). destruct (nested_after _ _ _ _ _ Hm0 Hx Hxt) as (i & Hi & Hi').
      exists i, x. split; [lia|]. split; [exact Hi'|exact Hmx]. }
    induction d as [tag attrs text children tail IH| |] using xnode_ind'; intros HP; cbn [M_Nested.put_mark].
    - set (d := XElem tag attrs text children tail) in *. destruct (has_mark k d) eqn:Ek; [apply PE|].
      destruct (tbl d) eqn:Et.
      + pose proof (put_none k e d (later k d HP Et Ek)) as E. unfold d in E at 1. cbn [M_Nested.put_mark] in E. fold d in E. rewrite Ek in E. rewrite E.
        intros m Hm Hmt. destruct (HP m Hm Hmt) as (i & x & Hi & H1 & H2). exists i, x. split; [|auto].
        assert (K : has_mark k m = false) by (apply (later k d HP Et Ek), Hm).
        destruct (Nat.eq_dec k (S i)) as [Ei|Ei]; [|lia]. exfalso. rewrite (proj2 (src_mark i m x k H1 H2 Hmt) Ei) in K. discriminate K.
      + intros m Hm Hmt. apply in_nodes in Hm as [->|Hm]; [exfalso; unfold d in Et; cbn [x_has_tag] in *; congruence|].
        assert (G : exists c, In c children /\ In m (tree_nodes (put_mark k e c))).
        { apply inside_child in Hm as (y & Hy & Hmy). cbn [x_children] in Hy. apply in_map_iff in Hy as (c & <- & Hc'). eauto. }
        destruct G as (c & Hcc & Hmc). rewrite Forall_forall in IH. apply (IH c Hcc); [apply (pending_child k d c HP), Hcc|exact Hmc|exact Hmt].
    - intros m [<-|[]] Hmt. discriminate Hmt.
    - intros m [<-|[]] Hmt. discriminate Hmt.
  Qed.

  Lemma one_full k d d1 : (1 <= k)%nat -> pending k d -> nested_one name convert src d k = Ok d1 ->
    pending (S k) d1 /\ forall d', full (fun m => tbl m) R d1 d' -> full (fun m => tbl m) R d d'.
  Proof.
    intros Hk HP H. unfold nested_one in H. destruct (find_all_nodes (has_mark k) d) as [F1 F2]. destruct (find_all (has_mark k) d) as [|p ps].
    - destruct (find _ _) as [x|]; [|discriminate]. bind H as e E. injection H as <-. split; [|auto].
      intros m Hm Ht. destruct (HP m Hm Ht) as (i & x' & Hi & H1 & H2). exists i, x'. split; [|auto].
      destruct (Nat.eq_dec k (S i)) as [Ei|Ei]; [|lia]. exfalso. pose proof (F2 eq_refl m Hm) as K. rewrite (proj2 (src_mark i m x' k H1 H2 Ht) Ei) in K. discriminate K.
    - destruct (F1 p ltac:(left; reflexivity)) as (n & En & Hn & Hm). rewrite En in H. bind H as e E. destruct p as [|a p]; [discriminate|]. injection H as <-.
      destruct (HP n Hn (has_mark_tbl _ _ Hm)) as (i & m0 & Hi & H1 & H2).
      apply (src_mark i n m0 k H1 H2 (has_mark_tbl _ _ Hm)) in Hm. subst k. split.
      + apply (put_pending (S i) e n m0); [eauto| |exact H2|lia|exact HP]. replace (S i - 1)%nat with i by lia. exact H1.
      + apply put_full; [exact (not_table _ _ _ _ E)|exact HP|]. intros x Hx Hxm. exists (map (unmark name) (after_at d (a :: p))), (Z.of_nat (S i)), (drop_mark n). split; [|exact E].
        destruct (HP x Hx (has_mark_tbl _ _ Hxm)) as (i' & m' & Hi' & H1' & H2'). apply (src_mark i' x m' (S i) H1' H2' (has_mark_tbl _ _ Hxm)) in Hxm. injection Hxm as <-.
        rewrite H1 in H1'. injection H1' as <-. apply (unlabelled_same n x m0); [|exact H2|exact H2'].
        apply nth_error_In, filter_In in H1 as [H1 Ht1]. exact (mark_form doc 1 m0 H1 Ht1).
  Qed.
  Lemma all_full j : forall k d d', (1 <= k)%nat -> (k + j = fst (mark_from 1 doc))%nat -> pending k d -> nested_all name convert src d (seq k j) = Ok d' ->
    full (fun m => tbl m) R d d' /\ pending (fst (mark_from 1 doc)) d'.
  Proof.
    induction j as [|j IH]; intros k d d' Hk Hj HP H.
    - injection H as <-. replace (fst (mark_from 1 doc)) with k by lia. split; [|exact HP]. 
      assert (HN : forall m, In m (tree_nodes d) -> tbl m = false).
      { intros m Hm. destruct (tbl m) eqn:E; [|reflexivity]. destruct (HP m Hm E) as (i & m0 & Hi & H1 & _). apply src_count in H1. lia. }
      clear -HN. induction d as [tag attrs text children tail IH| |] using xnode_ind'.
      + apply full_elem; [apply HN, nodes_self|].
        assert (HN' : forall c, In c children -> forall m, In m (tree_nodes c) -> tbl m = false) by (intros c Hc m Hm; apply HN, (nodes_child _ c); assumption).
        clear HN. induction IH as [|c l Hc _ IHl]; [apply full_nil|]. apply full_cons; [apply Hc, HN'; left; reflexivity|apply IHl; intros x Hx; apply HN'; right; exact Hx].
      + apply full_pi. reflexivity.
      + apply full_comment. reflexivity.
    - cbn [seq nested_all] in H. bind H as d1 E. destruct (one_full k d d1 Hk HP E) as [H1 H2].
      destruct (IH (S k) d1 d') as [H3 H4]; [lia|lia|exact H1|exact H|]. split; [apply H2, H3|exact H4].
  Qed.
  Theorem nested_full d' : nested_tables name convert doc = Ok d' -> full (fun m => tbl m) R src d'.
  Proof.
    intros H. unfold nested_tables in H. destruct (marks doc 1) as [HM _]. apply (all_full (fst (mark_from 1 doc) - 1) 1 src d'); [lia|lia| |exact H].
    intros m Hm Ht. assert (Hs : In m (srcs src)) by (apply filter_In; auto). apply In_nth_error in Hs as (i & Hi). exists i, m. split; [lia|]. split; [exact Hi|reflexivity].
  Qed.

  (** *** Every table has its turn *)
  Lemma one_every k d d1 : (1 <= k)%nat -> pending k d -> nested_one name convert src d k = Ok d1 ->
    exists after m0 n1 e, nth_error (srcs src) (k - 1) = Some m0 /\ unlabelled m0 n1 /\ convert after (Z.of_nat k) n1 = Ok e.
  Proof.
    intros Hk HP H. unfold nested_one in H. destruct (find_all_nodes (has_mark k) d) as [F1 F2]. destruct (find_all (has_mark k) d) as [|p ps].
    - destruct (find _ _) as [n|] eqn:En; [|discriminate]. bind H as e E. apply find_some in En as [H1 H2]. pose proof (has_mark_tbl k n H2) as Ht.
      assert (Hs : In n (srcs src)) by (apply filter_In; auto). apply In_nth_error in Hs as (i & Hi). apply (src_mark i n n k Hi eq_refl Ht) in H2. subst k.
      exists [], n, (drop_mark n), e. split; [replace (S i - 1)%nat with i by lia; exact Hi|]. split; [|exact E].
      apply (unlabelled_same n n n); [|reflexivity..]. apply (mark_form doc 1 n H1 Ht).
    - destruct (F1 p ltac:(left; reflexivity)) as (n & En & Hn & Hm). rewrite En in H. bind H as e E.
      destruct (HP n Hn (has_mark_tbl _ _ Hm)) as (i & m0 & Hi & H1 & H2). apply (src_mark i n m0 k H1 H2 (has_mark_tbl _ _ Hm)) in Hm. subst k.
      eexists _, m0, (drop_mark n), e. split; [replace (S i - 1)%nat with i by lia; exact H1|]. split; [|exact E].
      apply nth_error_In, filter_In in H1 as [H1 Ht1]. apply (unlabelled_same n m0 m0); [|exact H2|reflexivity]. exact (mark_form doc 1 m0 H1 Ht1).
  Qed.
  Lemma all_every j : forall k d d', (1 <= k)%nat -> pending k d -> nested_all name convert src d (seq k j) = Ok d' ->
    forall i, (k <= S i < k + j)%nat -> exists after m0 n1 e, nth_error (srcs src) i = Some m0 /\ unlabelled m0 n1 /\ convert after (Z.of_nat (S i)) n1 = Ok e.
  Proof.
    induction j as [|j IH]; intros k d d' Hk HP H i Hi; [lia|]. cbn [seq nested_all] in H. bind H as d1 E.
    destruct (Nat.eq_dec k (S i)) as [->|Hne].
    - destruct (one_every (S i) d d1 Hk HP E) as (after & m0 & n1 & e & H1 & H2). replace (S i - 1)%nat with i in H1 by lia. eauto 6.
    - apply (IH (S k) d1 d'); [lia|apply (one_full k d d1 Hk HP E)|exact H|lia].
  Qed.
  Theorem nested_every d' i m0 : nested_tables name convert doc = Ok d' -> nth_error (srcs src) i = Some m0 ->
    exists after n1 e, unlabelled m0 n1 /\ convert after (Z.of_nat (S i)) n1 = Ok e.
  Proof.
    intros H Hi. unfold nested_tables in H. pose proof (src_count _ _ _ _ Hi) as Hc. destruct (marks doc 1) as [HM _].
    destruct (all_every (fst (mark_from 1 doc) - 1) 1 src d') with (i := i) as (after & m1 & n1 & e & H1 & H2 & H3); [lia| |exact H|lia|].
    - intros m Hm Ht. assert (Hs : In m (srcs src)) by (apply filter_In; auto). apply In_nth_error in Hs as (x & Hx). exists x, m. split; [lia|]. split; [exact Hx|reflexivity].
    - rewrite Hi in H1. injection H1 as <-. eauto.
  Qed.

  (** *** Errors *)
  Lemma root_kept k d d1 : nested_one name convert src d k = Ok d1 -> tbl d1 = tbl d.
  Proof.
    intros H. unfold nested_one in H. destruct (find_all_nodes (has_mark k) d) as [F1 F2]. destruct (find_all (has_mark k) d) as [|p ps] eqn:EF.
    - destruct (find _ _); [|discriminate]. bind H as e E. injection H as <-. reflexivity.
    - destruct (F1 p ltac:(left; reflexivity)) as (n & En & Hn & Hm). rewrite En in H. bind H as e E. destruct p as [|a p]; [discriminate|]. injection H as <-.
      destruct d as [tag attrs text children tail| |]; [|reflexivity..]. cbn [M_Nested.put_mark]. destruct (has_mark k (XElem tag attrs text children tail)) eqn:Ek; [|reflexivity].
      exfalso. rewrite find_elem, Ek in EF. discriminate EF.
  Qed.
  Lemma one_error k d x : (1 <= k < fst (mark_from 1 doc))%nat -> pending k d -> nested_one name convert src d k = Err x ->
    (exists after n n1, In n (tree_nodes src) /\ tbl n = true /\ unlabelled n n1 /\ convert after (Z.of_nat k) n1 = Err x) \/ (tbl d = true /\ x = EAttributeError).
  Proof.
    intros Hk HP H. unfold nested_one in H. destruct (find_all_nodes (has_mark k) d) as [F1 F2]. destruct (find_all (has_mark k) d) as [|p ps] eqn:EF.
    - destruct (find _ _) as [n|] eqn:E.
      + apply find_some in E as [H1 H2]. left. exists [], n, (drop_mark n). split; [exact H1|]. split; [apply (has_mark_tbl k), H2|]. split.
        * apply (unlabelled_same n n n); [|reflexivity..]. apply (mark_form doc 1 n H1), (has_mark_tbl k), H2.
        * destruct (convert _ _ _); [discriminate H|exact H].
      + exfalso. destruct (marks doc 1) as [HM1 HM2]. assert (L : (k - 1 < List.length (srcs src))%nat).
        { apply (f_equal (@List.length _)) in HM2. rewrite !map_length, seq_length in HM2. unfold src. rewrite HM2. lia. }
        destruct (nth_error (srcs src) (k - 1)) as [m|] eqn:En; [|apply nth_error_None in En; lia].
        pose proof (nth_error_In _ _ En) as K. apply filter_In in K as [K1 K2]. pose proof (find_none _ _ E m K1) as K3.
        rewrite (proj2 (src_mark (k - 1) m m k En eq_refl K2)) in K3 by lia. discriminate K3.
    - destruct (F1 p ltac:(left; reflexivity)) as (n & En & Hn & Hm). rewrite En in H. destruct (convert _ _ _) as [e|y] eqn:E; cbn [rbind] in H.
      + destruct p as [|a p]; [|discriminate]. right. injection H as <-. split; [|reflexivity]. injection En as <-. apply (has_mark_tbl k), Hm.
      + injection H as ->. left. destruct (HP n Hn (has_mark_tbl _ _ Hm)) as (i & m0 & Hi & H1 & H2). apply nth_error_In, filter_In in H1 as [H1 Ht1].
        eexists _, m0, (drop_mark n). split; [exact H1|]. split; [exact Ht1|]. split; [|exact E]. apply (unlabelled_same n m0 m0); [|exact H2|reflexivity]. exact (mark_form doc 1 m0 H1 Ht1).
  Qed.
  Lemma all_error j : forall k d x, (1 <= k)%nat -> (k + j = fst (mark_from 1 doc))%nat -> pending k d -> nested_all name convert src d (seq k j) = Err x ->
    (exists after i n n1, In n (tree_nodes src) /\ tbl n = true /\ unlabelled n n1 /\ convert after i n1 = Err x) \/ (tbl d = true /\ x = EAttributeError).
  Proof.
    induction j as [|j IH]; intros k d x Hk Hj HP H; [discriminate|]. cbn [seq nested_all] in H. destruct (nested_one name convert src d k) as [d1|y] eqn:E; cbn [rbind] in H.
    - rewrite <- (root_kept _ _ _ E). apply (IH (S k) d1 x); [lia|lia| |exact H]. apply (one_full k d d1 Hk HP E).
    - injection H as ->. apply one_error in E as [(after & n & n1 & E)|E]; [left; eauto 8|right; exact E|lia|exact HP].
  Qed.
  Theorem nested_error x : nested_tables name convert doc = Err x ->
    (exists after i n n1, In n (tree_nodes src) /\ tbl n = true /\ unlabelled n n1 /\ convert after i n1 = Err x) \/ (tbl doc = true /\ x = EAttributeError).
  Proof.
    intros H. unfold nested_tables in H. destruct (marks doc 1) as [HM _].
    replace (tbl doc) with (tbl src) by (unfold src; destruct doc; reflexivity).
    apply (all_error (fst (mark_from 1 doc) - 1) 1 src x); [lia|lia| |exact H].
    intros m Hm Ht. assert (Hs : In m (srcs src)) by (apply filter_In; auto). apply In_nth_error in Hs as (i & Hi). exists i, m. split; [lia|]. split; [exact Hi|reflexivity].
  Qed.
End Loop.
