(** * Proofs: the conversion of a Formex document which has tables inside tables *)
From Verif Require Import Base M_Xml M_Geometry M_Cell M_Grid M_Table M_Cals M_CalsParser M_FormexParser M_FormexRead M_Transform M_Convert M_ConvertDoc M_Nested M_NestedFormex.
From Verif Require Import S_Transform S_Nested S_NestedFormex P_Cals P_Transform P_ConvertDoc P_Nested.
Open Scope string_scope.
Open Scope list_scope.

Lemma tree_segment n m : In m (tree_nodes n) -> exists pre post, tree_nodes n = pre ++ tree_nodes m ++ post.
Proof.
  intros H. apply In_nth_error in H as (a & H). assert (E : tree_nodes n = flat_map tree_nodes [n]) by (cbn [flat_map]; rewrite app_nil_r; reflexivity).
  rewrite E in *. destruct (nodes_segment [n] a m H) as (rest & Hr). exists (firstn a (flat_map tree_nodes [n])), rest. rewrite <- Hr. symmetry. apply firstn_skipn.
Qed.
Lemma nodes_cons n : exists l, tree_nodes n = n :: l.
Proof. destruct n; cbn [tree_nodes]; eexists; reflexivity. Qed.

Lemma F2_right {A B} (P : A -> B -> Prop) l m y : Forall2 P l m -> In y m -> exists x, In x l /\ P x y.
Proof.
  induction 1 as [|a b l m H _ IH]; intros Hy; [destruct Hy|]. destruct Hy as [<-|Hy]; [exists a; split; [left; reflexivity|exact H]|].
  destruct (IH Hy) as (x & H1 & H2). exists x. split; [right; exact H1|exact H2].
Qed.
Lemma F2_split {A B} (P : A -> B -> Prop) l m1 y m2 : Forall2 P l (m1 ++ y :: m2) -> exists l1 x l2, l = l1 ++ x :: l2 /\ Forall2 P l1 m1 /\ P x y /\ Forall2 P l2 m2.
Proof.
  revert l. induction m1 as [|a m1 IH]; intros l H; inversion H as [|x ? l' ? H1 H2]; subst; [exists [], x, l'; auto|].
  destruct (IH _ H2) as (l1 & z & l2 & -> & K1 & K2 & K3). exists (x :: l1), z, l2. split; [reflexivity|]. split; [constructor; assumption|auto].
Qed.

Section Loop.
  Variable o : pfmx_opts.
  Notation name := (fmx o "CORPUS").
  Notation tbl n := (x_has_tag n name).
  Notation mark_from := (mark_from name).
  Notation has_mark := (has_mark name).
  Notation srcs := (srcs name).
  Variable doc : xnode.
  Let src : xnode := snd (mark_from 1 doc).
  Notation pending := (pending name doc).

  (** ** Ranks *)
  Definition count (n : xnode) : nat := List.length (srcs n).
  Definition at_rank (i : nat) (m : xnode) : Prop := exists m0, nth_error (srcs src) i = Some m0 /\ same_node m m0.
  Lemma srcs_at pre m post : tree_nodes src = pre ++ tree_nodes m ++ post -> tbl m = true ->
    nth_error (srcs src) (List.length (filter (fun x => tbl x) pre)) = Some m.
  Proof.
    intros E H. unfold P_Nested.srcs. rewrite E, filter_app, nth_error_app2 by lia. rewrite Nat.sub_diag. destruct (nodes_cons m) as (l & ->).
    cbn [app filter]. rewrite H. reflexivity.
  Qed.
  Lemma rank_one i j m : at_rank i m -> tbl m = true -> nth_error (srcs src) j = Some m -> i = j.
  Proof.
    intros (m0 & H1 & H2) Ht H. assert (K : has_mark (S j) m = true) by (apply (src_mark name doc j m m (S j) H eq_refl Ht); reflexivity).
    apply (src_mark name doc i m m0 (S j) H1 H2 Ht) in K. lia.
  Qed.
  Lemma count_same m m0 : same_node m m0 -> count m = count m0.
  Proof.
    unfold same_node, count, P_Nested.srcs. destruct m as [tag attrs text ch tail| |], m0 as [tag0 attrs0 text0 ch0 tail0| |]; cbn [x_set_tail]; intros H; try discriminate; try reflexivity.
    injection H as -> -> -> ->. cbn [tree_nodes filter x_has_tag]. destruct (String.eqb _ _); reflexivity.
  Qed.
  Lemma count_pos m : tbl m = true -> (1 <= count m)%nat.
  Proof. intros H. unfold count, P_Nested.srcs. destruct (nodes_cons m) as (l & ->). cbn [filter]. rewrite H. cbn [List.length]. lia. Qed.
  Lemma inner_rank i m0 x : nth_error (srcs src) i = Some m0 -> inside m0 x -> tbl x = true ->
    exists j, nth_error (srcs src) j = Some x /\ (i < j)%nat /\ (j + count x <= i + count m0)%nat.
  Proof.
    intros H Hi Hx. assert (Ht : tbl m0 = true) by (apply nth_error_In, filter_In in H; tauto).
    pose proof H as H'. unfold P_Nested.srcs in H'. apply filter_split in H' as (pre & post & E & Hl).
    destruct (nodes_segment [src] (List.length pre) m0) as (rest & Hr).
    { cbn [flat_map]. rewrite app_nil_r, E, nth_error_app2 by lia. rewrite Nat.sub_diag. reflexivity. }
    cbn [flat_map] in Hr. rewrite app_nil_r, E, skipn_app, skipn_all, Nat.sub_diag in Hr. cbn [skipn app] in Hr.
    apply inside_child in Hi as (c & Hc & Hcx). assert (Hd : exists l, tree_nodes m0 = m0 :: l /\ In c (x_children m0) /\ l = flat_map tree_nodes (x_children m0)).
    { destruct m0; try (destruct Hc; fail). cbn [tree_nodes]. eexists. split; [reflexivity|]. split; [exact Hc|reflexivity]. }
    destruct Hd as (l & El & _ & ->). apply in_split in Hc as (c1 & c2 & Ec). apply tree_segment in Hcx as (p1 & p2 & Ep).
    set (f := fun x => tbl x) in *.
    assert (E1 : tree_nodes m0 = (m0 :: flat_map tree_nodes c1 ++ p1) ++ tree_nodes x ++ (p2 ++ flat_map tree_nodes c2)).
    { rewrite El, Ec, flat_map_app. cbn [flat_map]. rewrite Ep. cbn [app]. rewrite <- !app_assoc. reflexivity. }
    assert (E2 : tree_nodes src = (pre ++ m0 :: flat_map tree_nodes c1 ++ p1) ++ tree_nodes x ++ (p2 ++ flat_map tree_nodes c2 ++ rest)).
    { rewrite E. rewrite Hr. rewrite E1. rewrite <- !app_assoc. cbn [app]. rewrite <- !app_assoc. reflexivity. }
    exists (List.length (filter f (pre ++ m0 :: flat_map tree_nodes c1 ++ p1))). split; [apply (srcs_at _ _ _ E2 Hx)|].
    assert (F : f m0 = true) by exact Ht. unfold count, P_Nested.srcs. fold f. rewrite E1. rewrite !filter_app. cbn [filter]. rewrite F.
    rewrite !app_length. cbn [List.length]. rewrite !filter_app, !app_length. lia.
  Qed.

  (** ** The order of the tables around a table *)
  Definition local (p : xnode) : Prop := forall l1 c l2 i, x_children p = l1 ++ c :: l2 -> tbl c = true -> at_rank i c ->
    forall y m j, In y l1 -> In m (tree_nodes y) -> tbl m = true -> at_rank j m -> (j + count m <= i)%nat.
  Definition orderly (d : xnode) : Prop := forall p, In p (tree_nodes d) -> local p.

  Lemma src_orderly : orderly src.
  Proof.
    intros p Hp l1 c l2 i E Hc Hi y m j Hy Hm Ht Hj. apply tree_segment in Hp as (A & B & EA).
    assert (EP : tree_nodes p = p :: flat_map tree_nodes (l1 ++ c :: l2)) by (destruct p; cbn [x_children] in E; try (destruct l1; discriminate E); cbn [tree_nodes]; rewrite E; reflexivity).
    apply in_split in Hy as (u & v & ->). apply tree_segment in Hm as (U & V & EU). set (f := fun x => tbl x).
    rewrite !flat_map_app in EP. cbn [flat_map] in EP. rewrite EU in EP. rewrite EP in EA.
    assert (E1 : tree_nodes src = (A ++ p :: flat_map tree_nodes u ++ U) ++ tree_nodes m ++ (V ++ flat_map tree_nodes v ++ tree_nodes c ++ flat_map tree_nodes l2 ++ B)).
    { rewrite EA. cbn [app]. rewrite <- !app_assoc. cbn [app]. rewrite <- !app_assoc. reflexivity. }
    assert (E2 : tree_nodes src = (A ++ p :: flat_map tree_nodes u ++ U ++ tree_nodes m ++ V ++ flat_map tree_nodes v) ++ tree_nodes c ++ (flat_map tree_nodes l2 ++ B)).
    { rewrite EA. cbn [app]. rewrite <- !app_assoc. cbn [app]. rewrite <- !app_assoc. reflexivity. }
    pose proof (rank_one _ _ _ Hj Ht (srcs_at _ _ _ E1 Ht)) as Ej.
    pose proof (rank_one _ _ _ Hi Hc (srcs_at _ _ _ E2 Hc)) as Ei. rewrite Ei, Ej. unfold count, P_Nested.srcs.
    rewrite !filter_app. cbn [filter]. destruct (tbl p); rewrite ?app_length; cbn [List.length]; rewrite !filter_app, !app_length; lia.
  Qed.
  Lemma orderly_child d c : orderly d -> In c (x_children d) -> orderly c.
  Proof. intros H Hc p Hp. apply H, (nodes_child d c); assumption. Qed.

  (** ** The notes of the tables inside *)
  Notation strip := (strip o).
  Notation notes_taken := (notes_taken o).
  Lemma strip_tag n : x_tag (strip n) = x_tag n.
  Proof. destruct n as [tag attrs text ch tail| |]; cbn [M_NestedFormex.strip]; [|reflexivity..]. destruct (is_corpus _ _); reflexivity. Qed.
  Lemma has_tag_tag n m t : x_tag n = x_tag m -> x_has_tag n t = x_has_tag m t.
  Proof. destruct n, m; cbn; intros H; try discriminate; try reflexivity. injection H as ->. reflexivity. Qed.
  Lemma strip_tbl n : tbl (strip n) = tbl n.
  Proof. apply has_tag_tag, strip_tag. Qed.
  Lemma strip_table n : tbl n = true -> strip n = n.
  Proof. intros H. destruct n; try discriminate. cbn [M_NestedFormex.strip]. unfold is_corpus. rewrite H. reflexivity. Qed.
  Lemma strip_tail n t : strip (x_set_tail n t) = x_set_tail (strip n) t.
  Proof. destruct n as [tag attrs text ch tail| |]; [|reflexivity..]. cbn [M_NestedFormex.strip x_set_tail is_corpus x_has_tag]. unfold is_corpus. cbn [x_has_tag]. destruct (String.eqb _ _); reflexivity. Qed.
  Lemma taken_split l : forall l1 c l2, notes_taken l = l1 ++ c :: l2 -> exists m1 m2, l = m1 ++ c :: m2 /\ incl l1 m1.
  Proof.
    induction l as [|x l IH]; intros l1 c l2 H; [destruct l1; discriminate H|]. cbn [M_NestedFormex.notes_taken] in H. destruct (_ && _).
    - destruct (IH _ _ _ H) as (m1 & m2 & -> & Hi). exists (x :: m1), m2. split; [reflexivity|]. intros y Hy. right. apply Hi, Hy.
    - destruct l1 as [|y l1]; cbn [app] in H; injection H as -> H; [exists [], l; split; [reflexivity|intros y []]|].
      destruct (IH _ _ _ H) as (m1 & m2 & -> & Hi). exists (y :: m1), m2. split; [reflexivity|]. intros z [<-|Hz]; [left; reflexivity|right; apply Hi, Hz].
  Qed.
  Lemma taken_in l c : In c (notes_taken l) -> In c l.
  Proof. intros H. apply in_split in H as (l1 & l2 & H). apply taken_split in H as (m1 & m2 & -> & _). apply in_or_app. right. left. reflexivity. Qed.
  Lemma strip_nodes n : forall m, In m (tree_nodes (strip n)) -> tbl m = true -> In m (tree_nodes n).
  Proof.
    induction n as [tag attrs text ch tail IH| |] using xnode_ind'; intros m H Ht; [|exact H..].
    cbn [M_NestedFormex.strip] in H. destruct (is_corpus o _) eqn:E; [exact H|]. cbn [tree_nodes] in H. destruct H as [<-|H]; [exfalso; unfold is_corpus in E; cbn [x_has_tag] in *; congruence|].
    apply in_flat_map in H as (c & Hc & H). apply taken_in, in_map_iff in Hc as (x & <- & Hx). rewrite Forall_forall in IH. apply (nodes_child _ x); [exact Hx|exact (IH x Hx m H Ht)].
  Qed.
  Lemma map_split {A B} (f : A -> B) l l1 c l2 : map f l = l1 ++ c :: l2 -> exists m1 x m2, l = m1 ++ x :: m2 /\ l1 = map f m1 /\ c = f x.
  Proof.
    revert l. induction l1 as [|y l1 IH]; intros l H; (destruct l as [|a l]; [discriminate|]); cbn [map app] in H; injection H as H1 H2.
    - exists [], a, l. auto.
    - destruct (IH _ H2) as (m1 & x & m2 & -> & -> & ->). exists (a :: m1), x, m2. cbn [map]. rewrite H1. auto.
  Qed.
  Lemma strip_orderly n : orderly n -> orderly (strip n).
  Proof.
    induction n as [tag attrs text ch tail IH| |] using xnode_ind'; intros HO; [|exact HO..]. cbn [M_NestedFormex.strip]. destruct (is_corpus o _) eqn:E; [exact HO|].
    intros p Hp. cbn [tree_nodes] in Hp. destruct Hp as [<-|Hp].
    - intros l1 c l2 i Hl Hc Hi y m j Hy Hm Ht Hj. cbn [x_children] in Hl. apply taken_split in Hl as (m1 & m2 & Hl & Hin). apply map_split in Hl as (k1 & x & k2 & -> & -> & ->).
      rewrite strip_tbl in Hc. rewrite strip_table in Hi by exact Hc. apply Hin, in_map_iff in Hy as (z & <- & Hz).
      apply (HO _ (nodes_self _) k1 x k2 i eq_refl Hc Hi z m j Hz (strip_nodes _ _ Hm Ht) Ht Hj).
    - apply in_flat_map in Hp as (c & Hc & Hp). apply taken_in, in_map_iff in Hc as (x & <- & Hx). rewrite Forall_forall in IH.
      apply (IH x Hx); [|exact Hp]. apply (orderly_child _ x HO), Hx.
  Qed.

  (** ** One turn *)
  Definition free (n : xnode) : Prop := forall m, In m (tree_nodes n) -> tbl m = false.
  Variable convert : option xnode -> Z -> list xnode -> xnode -> result xnode.
  Hypothesis conv_ok : forall P b bef n e i m0, convert (Some P) b bef (drop_mark n) = Ok e -> Forall free bef -> nth_error (srcs src) i = Some m0 -> same_node n m0 ->
    tbl e = false /\ (forall m, inside e m -> tbl m = true -> exists x, inside m0 x /\ same_node m x) /\ orderly e.
  Notation turn := (turn o convert).
  Definition is_blk (n : xnode) : bool := x_has_tag n (fmx o "BLK").
  Definition deep (b : Z) (n : xnode) : Z := (if is_blk n then b + 1 else b)%Z.

  Definition turns (k : nat) (P : xnode) (b : Z) : list xnode -> list xnode -> result (list xnode) :=
    fix go (done l : list xnode) {struct l} : result (list xnode) :=
    match l with
    | [] => Ok done
    | c :: l' =>
        if has_mark k c then
          e <-? convert (Some P) b done (drop_mark c) ;;
          go (without_notes o done ++ [x_set_tail (strip e) (x_tail c)]) l'
        else
          c' <-? turn k b c ;;
          go (done ++ [c']) l'
    end.
  Lemma turns_cons k P b done c l : turns k P b done (c :: l) =
    if has_mark k c then
      e <-? convert (Some P) b done (drop_mark c) ;;
      turns k P b (without_notes o done ++ [x_set_tail (strip e) (x_tail c)]) l
    else
      c' <-? turn k b c ;;
      turns k P b (done ++ [c']) l.
  Proof. reflexivity. Qed.
  Lemma turns_nil k P b done : turns k P b done [] = Ok done.
  Proof. reflexivity. Qed.
  Lemma turn_elem k b tag attrs text ch tail : let n := XElem tag attrs text ch tail in
    turn k b n = (ch' <-? turns k n (deep b n) [] ch ;; Ok (XElem tag attrs text ch' tail)).
  Proof.
    cbv zeta. assert (E : (b + (if x_has_tag (XElem tag attrs text ch tail) (fmx o "BLK") then 1 else 0))%Z = deep b (XElem tag attrs text ch tail)).
    { unfold deep, is_blk. destruct (x_has_tag _ _); lia. }
    rewrite <- E. reflexivity.
  Qed.
  Lemma turn_same k n : (forall m, In m (tree_nodes n) -> has_mark k m = false) -> forall b, turn k b n = Ok n.
  Proof.
    induction n as [tag attrs text ch tail IH| |] using xnode_ind'; intros H b; [|reflexivity..]. rewrite turn_elem. cbv zeta.
    set (n := XElem tag attrs text ch tail) in *. assert (G : forall l done, incl l ch -> turns k n (deep b n) done l = Ok (done ++ l)).
    { induction l as [|c l IHl]; intros done Hl; rewrite ?turns_nil, ?turns_cons; [rewrite app_nil_r; reflexivity|]. assert (Hc : In c ch) by (apply Hl; left; reflexivity).
      rewrite (H c) by (apply (nodes_child n c); [exact Hc|apply nodes_self]). rewrite Forall_forall in IH. rewrite (IH c Hc) by (intros m Hm; apply H, (nodes_child n c); assumption).
      cbn [rbind]. rewrite IHl by (intros x Hx; apply Hl; right; exact Hx). rewrite <- app_assoc. reflexivity. }
    rewrite G by apply incl_refl. reflexivity.
  Qed.
  Lemma free_marks k n : free n -> forall m, In m (tree_nodes n) -> has_mark k m = false.
  Proof. intros H m Hm. destruct (has_mark k m) eqn:E; [|reflexivity]. apply has_mark_tbl in E. rewrite (H m Hm) in E. discriminate E. Qed.

  Lemma turns_none k P b l : Forall (fun c => has_mark k c = false) l -> forall done r, turns k P b done l = Ok r ->
    exists l', r = done ++ l' /\ Forall2 (fun c c' => turn k b c = Ok c') l l'.
  Proof.
    induction 1 as [|c l Hc _ IH]; intros done r H; rewrite ?turns_nil, ?turns_cons in H; [injection H as <-; exists []; split; [symmetry; apply app_nil_r|constructor]|].
    rewrite Hc in H. bind H as c' Ec. apply IH in H as (l' & -> & HF). exists (c' :: l'). rewrite <- app_assoc. split; [reflexivity|constructor; assumption].
  Qed.
  Lemma turns_first k P b l1 c l2 : has_mark k c = true -> Forall free l1 -> forall done r, turns k P b done (l1 ++ c :: l2) = Ok r ->
    exists e, convert (Some P) b (done ++ l1) (drop_mark c) = Ok e /\ turns k P b (without_notes o (done ++ l1) ++ [x_set_tail (strip e) (x_tail c)]) l2 = Ok r.
  Proof.
    intros Hc. induction 1 as [|x l1 Hx _ IH]; intros done r H; cbn [app] in H; rewrite turns_cons in H.
    - rewrite Hc in H. bind H as e E. exists e. rewrite app_nil_r. auto.
    - rewrite (free_marks k x Hx x (nodes_self x)) in H. rewrite (turn_same k x (free_marks k x Hx)) in H. cbn [rbind] in H.
      apply IH in H as (e & H1 & H2). rewrite <- !app_assoc in H1, H2. exists e. auto.
  Qed.
  Lemma first_such {A} (f : A -> bool) l : Forall (fun x => f x = false) l \/ exists l1 c l2, l = l1 ++ c :: l2 /\ Forall (fun x => f x = false) l1 /\ f c = true.
  Proof.
    induction l as [|x l IH]; [left; constructor|]. destruct (f x) eqn:E; [right; exists [], x, l; auto|].
    destruct IH as [IH|(l1 & c & l2 & -> & H1 & H2)]; [left; constructor; assumption|right]. exists (x :: l1), c, l2. auto.
  Qed.

  Section Turn.
  Variables (i0 : nat) (m0 : xnode).
  Let k := S i0.
  Hypothesis Hm0 : nth_error (srcs src) i0 = Some m0.

  Lemma mark_rank d c : pending k d -> In c (tree_nodes d) -> has_mark k c = true -> tbl c = true /\ same_node c m0.
  Proof.
    intros HP Hc Hk. pose proof (has_mark_tbl _ _ _ Hk) as Ht. destruct (HP c Hc Ht) as (i & x & Hi & H1 & H2). apply (src_mark name doc i c x k H1 H2 Ht) in Hk.
    unfold k in Hk. injection Hk as <-. split; [exact Ht|]. assert (E : Some x = Some m0) by (rewrite <- H1; exact Hm0). injection E as ->. exact H2.
  Qed.
  Definition T (b : Z) (c c' : xnode) : Prop := turn k b c = Ok c'.
  Lemma turn_shape b tag attrs text ch tail d1 : let d := XElem tag attrs text ch tail in pending k d -> local d -> turn k b d = Ok d1 ->
    exists ch', d1 = XElem tag attrs text ch' tail /\
    ((Forall (fun c => has_mark k c = false) ch /\ Forall2 (T (deep b d)) ch ch') \/
     exists l1 c l2 l2' e, ch = l1 ++ c :: l2 /\ Forall free l1 /\ has_mark k c = true /\ convert (Some d) (deep b d) l1 (drop_mark c) = Ok e /\
       Forall (fun c => has_mark k c = false) l2 /\ Forall2 (T (deep b d)) l2 l2' /\ ch' = without_notes o l1 ++ x_set_tail (strip e) (x_tail c) :: l2').
  Proof.
    intros d HP HL H. unfold d in H. rewrite turn_elem in H. cbv zeta in H. fold d in H. bind H as ch' E. injection H as <-. exists ch'. split; [reflexivity|].
    destruct (first_such (has_mark k) ch) as [HN|(l1 & c & l2 & Ech & HN & Hc)].
    - left. split; [exact HN|]. apply turns_none in E as (l' & -> & HF); [|exact HN]. exact HF.
    - right. assert (Hin : forall y, In y ch -> In y (tree_nodes d)) by (intros y Hy; apply (nodes_child d y); [exact Hy|apply nodes_self]).
      assert (Hcd : In c (tree_nodes d)) by (apply Hin; rewrite Ech; apply in_or_app; right; left; reflexivity).
      destruct (mark_rank d c HP Hcd Hc) as [Ht Hs]. assert (Hr : at_rank i0 c) by (exists m0; auto).
      assert (HF : Forall free l1).
      { apply Forall_forall. intros y Hy m Hm. destruct (tbl m) eqn:Em; [|reflexivity]. exfalso.
        assert (Hyd : In y (x_children d)) by (unfold d; cbn [x_children]; rewrite Ech; apply in_or_app; left; exact Hy).
        destruct (HP m (nodes_child d y m Hyd Hm) Em) as (i & x & Hi & H1 & H2).
        assert (K : (i + count m <= i0)%nat) by (apply (HL l1 c l2 i0 Ech Ht Hr y m i Hy Hm Em); exists x; auto). pose proof (count_pos m Em). unfold k in Hi. lia. }
      assert (HN2 : Forall (fun c => has_mark k c = false) l2).
      { apply Forall_forall. intros z Hz. destruct (has_mark k z) eqn:Ez; [|reflexivity]. exfalso.
        assert (Hzd : In z (tree_nodes d)) by (apply Hin; rewrite Ech; apply in_or_app; right; right; exact Hz). destruct (mark_rank d z HP Hzd Ez) as [Hzt Hzs].
        apply in_split in Hz as (a & b' & ->). assert (K : (i0 + count c <= i0)%nat).
        { refine (HL (l1 ++ c :: a) z b' i0 _ Hzt _ c c i0 _ (nodes_self c) Ht Hr); [unfold d; cbn [x_children]; rewrite Ech, <- app_assoc; reflexivity|exists m0; auto|apply in_or_app; right; left; reflexivity]. }
        pose proof (count_pos c Ht). lia. }
      rewrite Ech in E. apply turns_first in E as (e & H1 & H2); [|exact Hc|exact HF]. cbn [app] in H1, H2.
      apply turns_none in H2 as (l2' & -> & HF2); [|exact HN2]. exists l1, c, l2, l2', e. rewrite <- app_assoc. auto 8.
  Qed.
  (** the tables of the new element *)
  Definition inner (m : xnode) : Prop := exists j x, nth_error (srcs src) j = Some x /\ same_node m x /\ (i0 < j)%nat /\ (j + count x <= i0 + count m0)%nat.
  Lemma new_tables d P b bef c e t m : pending k d -> In c (tree_nodes d) -> has_mark k c = true -> Forall free bef -> convert (Some P) b bef (drop_mark c) = Ok e ->
    tbl (strip e) = false /\ orderly (x_set_tail (strip e) t) /\ (In m (tree_nodes (x_set_tail (strip e) t)) -> tbl m = true -> inner m).
  Proof.
    intros HP Hc Hk HB E. destruct (mark_rank d c HP Hc Hk) as [Ht Hs]. destruct (conv_ok _ _ _ _ _ _ _ E HB Hm0 Hs) as (K1 & K2 & K3). split; [rewrite strip_tbl; exact K1|].
    rewrite <- strip_tail. split.
    - apply strip_orderly. intros p Hp. apply in_nodes in Hp as [->|Hp].
      + intros l1 c' l2 i El. replace (x_children (x_set_tail e t)) with (x_children e) in El by (destruct e; reflexivity). exact (K3 e (nodes_self e) l1 c' l2 i El).
      + apply inside_tail in Hp. apply K3, in_nodes. right. exact Hp.
    - intros Hm Htm. apply strip_nodes in Hm; [|exact Htm]. apply in_nodes in Hm as [->|Hm]; [exfalso; assert (tbl (x_set_tail e t) = tbl e) by (destruct e; reflexivity); congruence|].
      apply inside_tail in Hm. destruct (K2 m Hm Htm) as (x & Hx & Hsx). assert (Hxt : tbl x = true) by (rewrite <- (tbl_same name _ _ Hsx); exact Htm).
      destruct (inner_rank i0 m0 x Hm0 Hx Hxt) as (j & Hj & H1 & H2). exists j, x. auto.
  Qed.
  Lemma turn_table b d d1 : pending k d -> tbl d = true -> has_mark k d = false -> turn k b d = Ok d1 -> d1 = d.
  Proof. intros HP Ht Hk H. rewrite turn_same in H; [injection H as <-; reflexivity|]. apply (later name doc k d HP Ht Hk). Qed.
  Lemma notes_in l x : In x (without_notes o l) -> In x l.
  Proof. intros H. apply filter_In in H. tauto. Qed.
  Lemma turn_tables d : forall b d1 m, pending k d -> orderly d -> has_mark k d = false -> turn k b d = Ok d1 -> In m (tree_nodes d1) -> tbl m = true ->
    (In m (tree_nodes d) /\ has_mark k m = false) \/ (inner m /\ exists q, In q (tree_nodes d) /\ has_mark k q = true).
  Proof.
    induction d as [tag attrs text ch tail IH| |] using xnode_ind'; intros b d1 m HP HO Hk H Hm Ht; [|injection H as <-; destruct Hm as [<-|[]]; discriminate Ht..].
    set (d := XElem tag attrs text ch tail) in *. destruct (tbl d) eqn:Etd.
    { apply (turn_table b d d1 HP Etd Hk) in H as ->. left. split; [exact Hm|]. exact (later name doc k d HP Etd Hk m Hm). }
    pose proof (turn_shape b tag attrs text ch tail d1 HP (HO d (nodes_self d)) H) as (ch' & -> & Hch).
    cbn [tree_nodes] in Hm. destruct Hm as [<-|Hm]; [exfalso; unfold d in Etd; cbn [x_has_tag] in *; congruence|]. apply in_flat_map in Hm as (y' & Hy' & Hm).
    rewrite Forall_forall in IH.
    assert (G : forall y, In y ch -> has_mark k y = false -> T (deep b d) y y' -> (In m (tree_nodes d) /\ has_mark k m = false) \/ (inner m /\ exists q, In q (tree_nodes d) /\ has_mark k q = true)).
    { intros y Hy Hky HT. destruct (IH y Hy _ y' m (pending_child name doc k d y HP Hy) (orderly_child d y HO Hy) Hky HT Hm Ht) as [[K1 K2]|(K1 & q & K2 & K3)].
      - left. split; [apply (nodes_child d y); assumption|exact K2].
      - right. split; [exact K1|]. exists q. split; [apply (nodes_child d y); assumption|exact K3]. }
    destruct Hch as [[HN HF]|(l1 & c & l2 & l2' & e & -> & H1 & H2 & H3 & HN & HF & ->)].
    - rewrite Forall_forall in HN. apply (F2_right _ _ _ y' HF) in Hy' as (y & Hy & HT). exact (G y Hy (HN y Hy) HT).
    - apply in_app_or in Hy' as [Hy'|[<-|Hy']].
      + exfalso. apply notes_in in Hy'. rewrite Forall_forall in H1. rewrite (H1 y' Hy' m Hm) in Ht. discriminate Ht.
      + assert (Hc : In c (tree_nodes d)) by (apply (nodes_child d c); [apply in_or_app; right; left; reflexivity|apply nodes_self]).
        destruct (new_tables d _ _ _ c e (x_tail c) m HP Hc H2 H1 H3) as (_ & _ & K). right. split; [exact (K Hm Ht)|]. exists c. auto.
      + rewrite Forall_forall in HN. apply (F2_right _ _ _ y' HF) in Hy' as (y & Hy & HT). apply (G y); [apply in_or_app; right; right; exact Hy|exact (HN y Hy)|exact HT].
  Qed.
  Lemma turn_pending d b d1 : pending k d -> orderly d -> has_mark k d = false -> turn k b d = Ok d1 -> pending (S k) d1.
  Proof.
    intros HP HO Hk H m Hm Ht. destruct (turn_tables d b d1 m HP HO Hk H Hm Ht) as [[K1 K2]|((j & x & K1 & K2 & K3 & _) & _)].
    - destruct (HP m K1 Ht) as (i & x & Hi & H1 & H2). exists i, x. split; [|auto]. destruct (Nat.eq_dec k (S i)) as [E|E]; [|lia].
      exfalso. rewrite (proj2 (src_mark name doc i m x k H1 H2 Ht) E) in K2. discriminate K2.
    - exists j, x. split; [unfold k; lia|auto].
  Qed.
  Lemma inner_at m j : inner m -> tbl m = true -> at_rank j m -> (j + count m <= i0 + count m0)%nat.
  Proof.
    intros (i & x & H1 & H2 & _ & H3) Ht (x' & K1 & K2). assert (E : has_mark (S i) m = true) by (apply (src_mark name doc i m x (S i) H1 H2 Ht); reflexivity).
    apply (src_mark name doc j m x' (S i) K1 K2 Ht) in E. injection E as ->. rewrite (count_same m x H2). exact H3.
  Qed.
  Lemma turn_tag d : forall b d1, turn k b d = Ok d1 -> x_tag d1 = x_tag d.
  Proof. destruct d as [tag attrs text ch tail| |]; intros b d1 H; [|injection H as <-; reflexivity..]. rewrite turn_elem in H. cbv zeta in H. bind H as ch' E. injection H as <-. reflexivity. Qed.
  Lemma turn_orderly d : forall b d1, pending k d -> orderly d -> has_mark k d = false -> turn k b d = Ok d1 -> orderly d1.
  Proof.
    induction d as [tag attrs text ch tail IH| |] using xnode_ind'; intros b d1 HP HO Hk H; [|injection H as <-; exact HO..].
    set (d := XElem tag attrs text ch tail) in *. destruct (tbl d) eqn:Etd; [apply (turn_table b d d1 HP Etd Hk) in H as ->; exact HO|].
    pose proof (HO d (nodes_self d)) as HL. pose proof (turn_shape b tag attrs text ch tail d1 HP HL H) as (ch' & -> & Hch). rewrite Forall_forall in IH.
    assert (HPc : forall c, In c ch -> pending k c) by (intros c Hc; exact (pending_child name doc k d c HP Hc)).
    assert (HOc : forall c, In c ch -> orderly c) by (intros c Hc; exact (orderly_child d c HO Hc)).
    (* a table which is a child was one *)
    assert (GT : forall c c', In c ch -> has_mark k c = false -> T (deep b d) c c' -> tbl c' = true -> c' = c).
    { intros c c' Hc Hkc HT Ht. rewrite (has_tag_tag _ _ _ (turn_tag _ _ _ HT)) in Ht. exact (turn_table _ _ _ (HPc c Hc) Ht Hkc HT). }
    (* the tables in a child come before a later table *)
    assert (GB : forall l1 c l2 i y y' m j, ch = l1 ++ c :: l2 -> tbl c = true -> at_rank i c -> In y l1 -> has_mark k y = false -> T (deep b d) y y' ->
      In m (tree_nodes y') -> tbl m = true -> at_rank j m -> (j + count m <= i)%nat).
    { intros l1 c l2 i y y' m j El Ht Hi Hy Hky HT Hm Htm Hj. assert (Hyc : In y ch) by (rewrite El; apply in_or_app; left; exact Hy).
      destruct (turn_tables y _ y' m (HPc y Hyc) (HOc y Hyc) Hky HT Hm Htm) as [[K1 K2]|(K1 & q & K2 & K3)].
      - exact (HL l1 c l2 i El Ht Hi y m j Hy K1 Htm Hj).
      - destruct (mark_rank y q (HPc y Hyc) K2 K3) as [Hqt Hqs]. assert (K : (i0 + count q <= i)%nat) by (apply (HL l1 c l2 i El Ht Hi y q i0 Hy K2 Hqt); exists m0; auto).
        pose proof (inner_at m j K1 Htm Hj). rewrite (count_same q m0 Hqs) in K. lia. }
    intros p Hp. cbn [tree_nodes] in Hp. destruct Hp as [<-|Hp].
    - intros l1 c' l2 i El Ht Hi y' m j Hy' Hm Htm Hj. cbn [x_children] in El.
      destruct Hch as [[HN HF]|(a1 & t & a2 & a2' & e & Ech & H1 & H2 & H3 & HN & HF & Ech')].
      + rewrite El in HF. apply F2_split in HF as (m1 & c & m2 & Ech & F1 & F2 & F3). rewrite Forall_forall in HN.
        assert (Hc : In c ch) by (rewrite Ech; apply in_or_app; right; left; reflexivity). pose proof (GT c c' Hc (HN c Hc) F2 Ht) as ->.
        apply (F2_right _ _ _ y' F1) in Hy' as (y & Hy & HT). apply (GB m1 c m2 i y y' m j Ech Ht Hi Hy); [|exact HT|exact Hm|exact Htm|exact Hj].
        apply HN. rewrite Ech. apply in_or_app. left. exact Hy.
      + assert (Htd : In t (tree_nodes d)) by (apply (nodes_child d t); [unfold d; cbn [x_children]; rewrite Ech; apply in_or_app; right; left; reflexivity|apply nodes_self]).
        destruct (new_tables d _ _ _ t e (x_tail t) m HP Htd H2 H1 H3) as (N1 & _ & N2). destruct (mark_rank d t HP Htd H2) as [Htt Hts].
        (* where the table is *)
        assert (Hw : exists l3, l1 = without_notes o a1 ++ x_set_tail (strip e) (x_tail t) :: l3 /\ a2' = l3 ++ c' :: l2).
        { rewrite Ech' in El. clear -El Ht H1 N1. rewrite Forall_forall in H1.
          assert (Hf : forall x, In x (without_notes o a1) -> tbl x = false) by (intros x Hx; apply (H1 x (notes_in _ _ Hx)), nodes_self). revert El Hf. generalize (without_notes o a1) as w.
          intros w. revert l1. induction w as [|x w IHw]; intros l1 El Hf.
          - destruct l1 as [|z l1]; cbn [app] in El; injection El as E1 E2; [exfalso; subst c'; assert (tbl (x_set_tail (strip e) (x_tail t)) = tbl (strip e)) by (destruct (strip e); reflexivity); congruence|].
            exists l1. subst. auto.
          - destruct l1 as [|z l1]; cbn [app] in El; injection El as E1 E2; [exfalso; subst c'; rewrite (Hf x ltac:(left; reflexivity)) in Ht; discriminate Ht|].
            destruct (IHw l1 E2) as (l3 & -> & ->); [intros x' Hx'; apply Hf; right; exact Hx'|]. exists l3. subst z. auto. }
        destruct Hw as (l3 & -> & E2). rewrite E2 in HF. apply F2_split in HF as (m1 & c & m2 & Ea2 & F1 & F2 & F3). rewrite Forall_forall in HN.
        assert (Hc2 : In c a2) by (rewrite Ea2; apply in_or_app; right; left; reflexivity). assert (Hc : In c ch) by (rewrite Ech; apply in_or_app; right; right; exact Hc2).
        pose proof (GT c c' Hc (HN c Hc2) F2 Ht) as ->. assert (Ech2 : ch = (a1 ++ t :: m1) ++ c :: m2) by (rewrite Ech, Ea2, <- app_assoc; reflexivity).
        apply in_app_or in Hy' as [Hy'|[<-|Hy']].
        * exfalso. apply notes_in in Hy'. rewrite Forall_forall in H1. rewrite (H1 y' Hy' m Hm) in Htm. discriminate Htm.
        * pose proof (inner_at m j (N2 Hm Htm) Htm Hj) as K. assert (K2 : (i0 + count t <= i)%nat).
          { refine (HL (a1 ++ t :: m1) c m2 i Ech2 Ht Hi t t i0 _ (nodes_self t) Htt _); [apply in_or_app; right; left; reflexivity|exists m0; auto]. }
          rewrite (count_same t m0 Hts) in K2. lia.
        * apply (F2_right _ _ _ y' F1) in Hy' as (y & Hy & HT). apply (GB (a1 ++ t :: m1) c m2 i y y' m j Ech2 Ht Hi); [apply in_or_app; right; right; exact Hy| |exact HT|exact Hm|exact Htm|exact Hj].
          apply HN. rewrite Ea2. apply in_or_app. left. exact Hy.
    - apply in_flat_map in Hp as (y' & Hy' & Hp).
      destruct Hch as [[HN HF]|(a1 & t & a2 & a2' & e & Ech & H1 & H2 & H3 & HN & HF & Ech')]; rewrite Forall_forall in HN.
      + apply (F2_right _ _ _ y' HF) in Hy' as (y & Hy & HT). exact (IH y Hy _ y' (HPc y Hy) (HOc y Hy) (HN y Hy) HT p Hp).
      + assert (Hin : forall y, In y a1 \/ y = t \/ In y a2 -> In y ch) by (intros y Hy; rewrite Ech; apply in_or_app; cbn; intuition).
        rewrite Ech' in Hy'. apply in_app_or in Hy' as [Hy'|[<-|Hy']].
        * apply (HOc y'); [apply Hin; left; exact (notes_in _ _ Hy')|exact Hp].
        * assert (Htd : In t (tree_nodes d)) by (apply (nodes_child d t); [apply Hin; auto|apply nodes_self]).
          destruct (new_tables d _ _ _ t e (x_tail t) p HP Htd H2 H1 H3) as (_ & N & _). exact (N p Hp).
        * apply (F2_right _ _ _ y' HF) in Hy' as (y & Hy & HT). assert (Hy2 : In y ch) by (apply Hin; auto). exact (IH y Hy2 _ y' (HPc y Hy2) (HOc y Hy2) (HN y Hy) HT p Hp).
  Qed.
End Turn.

  (** ** What the turns do together *)
  Hypothesis conv_parent : forall P P' b bef n, x_tag P = x_tag P' -> x_attrs P = x_attrs P' -> convert (Some P) b bef n = convert (Some P') b bef n.
  Definition R (P : xnode) (b : Z) (bef : list xnode) (n e : xnode) : Prop :=
    exists n1 e0, label_off n n1 /\ convert (Some P) b bef n1 = Ok e0 /\ e = strip e0.
  Notation FF := (ffull (fun m => tbl m) (is_notes o) is_blk R).
  Notation FC := (ffull_children (fun m => tbl m) (is_notes o) is_blk R).

  Lemma R_parent P P' b bef n e : x_tag P = x_tag P' -> x_attrs P = x_attrs P' -> R P b bef n e -> R P' b bef n e.
  Proof. intros H1 H2 (n1 & e0 & K1 & K2 & K3). exists n1, e0. rewrite <- (conv_parent P P' b bef n1 H1 H2). auto. Qed.
  Lemma FC_parent P P' b done l r : x_tag P = x_tag P' -> x_attrs P = x_attrs P' -> FC P b done l r -> FC P' b done l r.
  Proof.
    intros H1 H2 H. induction H as [P b done|P b done c e e' l r Hc HR HF H IH|P b done c c' l r Hc HF H IH].
    - apply ffc_end.
    - eapply ffc_table; [exact Hc|exact (R_parent _ _ _ _ _ _ H1 H2 HR)|exact HF|apply IH; assumption].
    - eapply ffc_other; [exact Hc|exact HF|apply IH; assumption].
  Qed.
  Lemma free_child n c : free n -> In c (x_children n) -> free c.
  Proof. intros H Hc m Hm. apply H, (nodes_child n c); assumption. Qed.
  Lemma FF_free n : free n -> forall b, FF b n n.
  Proof.
    induction n as [tag attrs text ch tail IH| |] using xnode_ind'; intros H b; [|apply ff_pi|apply ff_comment]. apply ff_elem; [apply H, nodes_self|].
    set (n := XElem tag attrs text ch tail) in *. fold (deep b n). assert (G : forall l done, incl l ch -> FC n (deep b n) done l (done ++ l)).
    { induction l as [|c l IHl]; intros done Hl; [rewrite app_nil_r; apply ffc_end|]. assert (Hc : In c ch) by (apply Hl; left; reflexivity). rewrite Forall_forall in IH.
      apply (ffc_other _ _ _ _ _ _ _ c c); [apply (free_child n c H Hc), nodes_self|apply (IH c Hc), (free_child n c H Hc)|].
      replace (done ++ c :: l) with ((done ++ [c]) ++ l) by (rewrite <- app_assoc; reflexivity). apply IHl. intros x Hx. apply Hl. right. exact Hx. }
    exact (G ch [] (incl_refl _)).
  Qed.
  Lemma FF_free_inv n : free n -> forall b n', FF b n n' -> n' = n.
  Proof.
    induction n as [tag attrs text ch tail IH| |] using xnode_ind'; intros H b n' HF; inversion HF as [? ? ? ? ? ch' ? H1 H2| |]; subst; [|reflexivity..].
    f_equal. set (n := XElem tag attrs text ch tail) in *. fold (deep b n) in H2. clear HF. assert (G : forall l done r, incl l ch -> FC n (deep b n) done l r -> r = done ++ l).
    { clear H2. induction l as [|c l IHl]; intros done r Hl HC; inversion HC as [|? ? ? ? e e' ? ? Hc HR HF HC'|? ? ? ? c' ? ? Hc HF HC']; subst; [rewrite app_nil_r; reflexivity| |].
      - assert (K : In c ch) by (apply Hl; left; reflexivity). pose proof (free_child n c H K c (nodes_self c)). congruence.
      - assert (K : In c ch) by (apply Hl; left; reflexivity). rewrite Forall_forall in IH. pose proof (IH c K (free_child n c H K) _ _ HF) as ->.
        apply IHl in HC' as ->; [rewrite <- app_assoc; reflexivity|intros x Hx; apply Hl; right; exact Hx]. }
    exact (G ch [] ch' (incl_refl _) H2).
  Qed.
  Lemma FC_free P b l l2 : Forall free l -> forall done r, FC P b done (l ++ l2) r <-> FC P b (done ++ l) l2 r.
  Proof.
    induction 1 as [|c l Hc _ IH]; intros done r; cbn [app]; [rewrite app_nil_r; reflexivity|].
    replace (done ++ c :: l) with ((done ++ [c]) ++ l) by (rewrite <- app_assoc; reflexivity). rewrite <- IH. split; intros H.
    - inversion H as [|? ? ? ? e e' ? ? K HR HF HC'|? ? ? ? c' ? ? K HF HC']; subst; [pose proof (Hc c (nodes_self c)); congruence|].
      apply (FF_free_inv c Hc) in HF as ->. exact HC'.
    - apply (ffc_other _ _ _ _ _ _ _ c c); [apply Hc, nodes_self|apply FF_free, Hc|exact H].
  Qed.
  Lemma FF_tail e t b x : FF b (x_set_tail e t) x -> exists e', x = x_set_tail e' t /\ FF b e e'.
  Proof.
    intros H. destruct e as [tag attrs text ch tail| |]; cbn [x_set_tail] in H; inversion H as [? ? ? ? ? ch' ? H1 H2| |]; subst.
    - exists (XElem tag attrs text ch' tail). split; [reflexivity|]. apply ff_elem; [exact H1|]. apply (FC_parent (XElem tag attrs text ch t)); [reflexivity..|exact H2].
    - eexists (XPI _ _ _). split; [reflexivity|apply ff_pi].
    - eexists (XComment _ _). split; [reflexivity|apply ff_comment].
  Qed.
  Lemma label_dropped i m0 c : nth_error (srcs src) i = Some m0 -> same_node c m0 -> label_off c (drop_mark c).
  Proof.
    intros H Hs. apply nth_error_In, filter_In in H as [H1 H2]. destruct (mark_form name doc 1 m0 H1 H2) as (tag & v & attrs & text & ch & tail & ->).
    unfold same_node in Hs. destruct c; try discriminate Hs. cbn [x_set_tail] in Hs. injection Hs as -> -> -> ->. do 6 eexists. split; reflexivity.
  Qed.

  Lemma steps_full i0 P P' b l l' : x_tag P' = x_tag P -> x_attrs P' = x_attrs P ->
    (forall c c', In c l -> T i0 b c c' -> (tbl c = true -> c' = c) /\ (tbl c = false -> forall x, FF b c' x -> FF b c x)) ->
    Forall2 (T i0 b) l l' -> forall done r, FC P' b done l' r -> FC P b done l r.
  Proof.
    intros HP1 HP2 HI HF. induction HF as [|c c' l l' Hc HF IH]; intros done r H; [inversion H; subst; apply ffc_end|].
    assert (HI' : forall x x', In x l -> T i0 b x x' -> (tbl x = true -> x' = x) /\ (tbl x = false -> forall y, FF b x' y -> FF b x y)) by (intros x x' Hx; apply HI; right; exact Hx).
    destruct (HI c c' ltac:(left; reflexivity) Hc) as [I1 I2]. inversion H as [|? ? ? ? e e' ? ? K HR HE HC|? ? ? ? x ? ? K HE HC]; subst.
    - pose proof K as K2. rewrite (has_tag_tag _ _ _ (turn_tag _ _ _ _ Hc)) in K2. rewrite (I1 K2) in *. eapply ffc_table; [exact K|exact (R_parent _ _ _ _ _ _ HP1 HP2 HR)|exact HE|apply IH; assumption].
    - rewrite (has_tag_tag _ _ _ (turn_tag _ _ _ _ Hc)) in K. eapply ffc_other; [exact K|exact (I2 K x HE)|apply IH; assumption].
  Qed.
  Lemma turn_full i0 m0 : nth_error (srcs src) i0 = Some m0 -> forall d b d1 d', pending (S i0) d -> orderly d -> tbl d = false ->
    turn (S i0) b d = Ok d1 -> FF b d1 d' -> FF b d d'.
  Proof.
    intros Hm0. induction d as [tag attrs text ch tail IH| |] using xnode_ind'; intros b d1 d' HP HO Htd H HF; [|injection H as <-; exact HF..].
    set (d := XElem tag attrs text ch tail) in *. pose proof (HO d (nodes_self d)) as HL.
    pose proof (turn_shape i0 m0 Hm0 b tag attrs text ch tail d1 HP HL H) as (ch' & -> & Hch). rewrite Forall_forall in IH.
    inversion HF as [? ? ? ? ? r ? H1 H2| |]; subst. apply ff_elem; [exact Htd|]. fold d. fold (deep b d).
    assert (ED : (if is_blk (XElem tag attrs text ch' tail) then b + 1 else b)%Z = deep b d) by reflexivity. rewrite ED in H2. clear ED.
    assert (HI : forall l, incl l ch -> Forall (fun c => has_mark (S i0) c = false) l -> forall c c', In c l -> T i0 (deep b d) c c' -> (tbl c = true -> c' = c) /\ (tbl c = false -> forall x, FF (deep b d) c' x -> FF (deep b d) c x)).
    { intros l Hl HN c c' Hc HT. rewrite Forall_forall in HN. pose proof (pending_child name doc (S i0) d c HP (Hl c Hc)) as HPc. split.
      - intros Ht. exact (turn_table i0 _ _ _ HPc Ht (HN c Hc) HT).
      - intros Ht x Hx. exact (IH c (Hl c Hc) _ c' x HPc (orderly_child d c HO (Hl c Hc)) Ht HT Hx). }
    destruct Hch as [[HN HF2]|(l1 & c & l2 & l2' & e & Ech & K1 & K2 & K3 & HN & HF2 & Ech')].
    - refine (steps_full i0 d _ _ _ _ _ _ (HI ch (incl_refl _) HN) HF2 [] r H2); reflexivity.
    - assert (Hc : In c (tree_nodes d)) by (apply (nodes_child d c); [unfold d; cbn [x_children]; rewrite Ech; apply in_or_app; right; left; reflexivity|apply nodes_self]).
      destruct (mark_rank i0 m0 Hm0 d c HP Hc K2) as [Ht Hs]. destruct (new_tables i0 m0 Hm0 d _ _ _ c e (x_tail c) c HP Hc K2 K1 K3) as (N1 & _ & _).
      rewrite Ech' in H2. apply FC_free in H2; [|apply Forall_forall; intros y Hy; rewrite Forall_forall in K1; exact (K1 y (notes_in _ _ Hy))]. cbn [app] in H2.
      assert (N2 : tbl (x_set_tail (strip e) (x_tail c)) = false) by (transitivity (tbl (strip e)); [destruct (strip e); reflexivity|exact N1]).
      inversion H2 as [|? ? ? ? ? ? ? ? K HR HE HC|? ? ? ? x ? ? K HE HC]; subst; [cbn beta in K; congruence|].
      apply FF_tail in HE as (e' & -> & HE). apply FC_free; [exact K1|]. cbn [app].
      apply (ffc_table _ _ _ _ _ _ _ c (strip e) e'); [exact Ht| |exact HE|].
      + exists (drop_mark c), e. split; [exact (label_dropped i0 m0 c Hm0 Hs)|]. split; [exact K3|reflexivity].
      + refine (steps_full i0 d _ _ _ _ _ _ (HI l2 _ HN) HF2 _ r HC); [reflexivity..|]. intros y Hy. apply in_or_app. right. right. exact Hy.
  Qed.

  (** ** The loop *)
  Lemma root_same k d d1 : fnested_one o convert src d k = Ok d1 -> tbl d1 = tbl d /\ has_mark k d = false.
  Proof.
    unfold fnested_one. destruct (has_mark k d) eqn:Ek; [destruct (convert _ _ _ _); discriminate|]. destruct (existsb _ _).
    - intros H. split; [|reflexivity]. destruct k as [|i0]; [|exact (has_tag_tag _ _ _ (turn_tag i0 _ _ _ H))].
      destruct d as [tag attrs text ch tail| |]; [|injection H as <-; reflexivity..]. rewrite turn_elem in H. cbv zeta in H. bind H as ch' E. injection H as <-. reflexivity.
    - intros H. bind H as x E. injection H as <-. auto.
  Qed.
  Lemma one_step k d d1 : pending k d -> orderly d -> tbl d = false -> fnested_one o convert src d k = Ok d1 ->
    pending (S k) d1 /\ orderly d1 /\ tbl d1 = false /\ forall d', FF 0 d1 d' -> FF 0 d d'.
  Proof.
    intros HP HO Ht H. destruct (root_same k d d1 H) as [Hr Hk]. unfold fnested_one in H. rewrite Hk in H. destruct (existsb _ _) eqn:Ex.
    - apply existsb_exists in Ex as (c & Hc & Hkc). destruct (HP c Hc (has_mark_tbl _ _ _ Hkc)) as (i & m0 & Hi & H1 & H2).
      apply (src_mark name doc i c m0 k H1 H2 (has_mark_tbl _ _ _ Hkc)) in Hkc. subst k.
      split; [exact (turn_pending i m0 H1 d 0%Z d1 HP HO Hk H)|]. split; [exact (turn_orderly i m0 H1 d 0%Z d1 HP HO Hk H)|]. split; [congruence|].
      intros d' HF. exact (turn_full i m0 H1 d 0%Z d1 d' HP HO Ht H HF).
    - bind H as x E. injection H as <-. split; [|auto]. intros m Hm Htm. destruct (HP m Hm Htm) as (i & x' & Hi & H1 & H2). exists i, x'. split; [|auto].
      destruct (Nat.eq_dec k (S i)) as [Ei|Ei]; [|lia]. exfalso.
      assert (K : existsb (has_mark k) (tree_nodes d) = true) by (apply existsb_exists; exists m; split; [exact Hm|apply (src_mark name doc i m x' k H1 H2 Htm), Ei]). congruence.
  Qed.
  Lemma all_steps j : forall k d d', (k + j = fst (mark_from 1 doc))%nat -> pending k d -> orderly d -> tbl d = false ->
    fnested_all o convert src d (seq k j) = Ok d' -> FF 0 d d' /\ free d'.
  Proof.
    induction j as [|j IH]; intros k d d' Hj HP HO Ht H.
    - injection H as <-. assert (HN : free d).
      { intros m Hm. destruct (tbl m) eqn:E; [|reflexivity]. destruct (HP m Hm E) as (i & m0 & Hi & H1 & _). apply src_count in H1. lia. }
      split; [apply FF_free, HN|exact HN].
    - cbn [seq fnested_all] in H. bind H as d1 E. destruct (one_step k d d1 HP HO Ht E) as (H1 & H2 & H3 & H4).
      destruct (IH (S k) d1 d') as [K1 K2]; [lia|assumption..|]. split; [apply H4, K1|exact K2].
  Qed.
  Lemma src_pending : pending 1 src.
  Proof. intros m Hm Ht. assert (Hs : In m (srcs src)) by (apply filter_In; auto). apply In_nth_error in Hs as (i & Hi). exists i, m. split; [lia|]. split; [exact Hi|reflexivity]. Qed.
  Lemma src_tag : x_tag src = x_tag doc.
  Proof. assert (G : forall d, x_tag (snd (mark_from 1 d)) = x_tag d) by (intros []; reflexivity). apply G. Qed.
  Lemma root_fails : tbl doc = true -> exists x, fnested_tables o convert doc = Err x.
  Proof.
    intros Ht. unfold fnested_tables. fold src. assert (Hs : tbl src = true) by (rewrite (has_tag_tag _ _ _ src_tag); exact Ht).
    assert (H0 : nth_error (srcs src) 0 = Some src) by (unfold P_Nested.srcs; destruct (nodes_cons src) as (l & ->); cbn [filter]; rewrite Hs; reflexivity).
    pose proof (src_count _ _ _ _ _ H0) as L. destruct (fst (mark_from 1 doc) - 1)%nat as [|j] eqn:Ej; [lia|]. cbn [seq fnested_all]. unfold fnested_one.
    rewrite (proj2 (src_mark name doc 0 src src 1 H0 eq_refl Hs) eq_refl). destruct (convert _ _ _ _); cbn [rbind]; eauto.
  Qed.
  Theorem fnested_full d' : fnested_tables o convert doc = Ok d' -> FF 0 src d' /\ free d'.
  Proof.
    intros H. destruct (tbl doc) eqn:Et; [destruct (root_fails Et) as (x & E); congruence|]. unfold fnested_tables in H. fold src in H. destruct (marks name doc 1) as [HM _].
    apply (all_steps (fst (mark_from 1 doc) - 1) 1 src d'); [lia|apply src_pending|apply src_orderly| |exact H]. rewrite (has_tag_tag _ _ _ src_tag). exact Et.
  Qed.

  (** ** Errors *)
  Lemma turn_error k d : forall b x, turn k b d = Err x -> exists P b' bef c, In c (tree_nodes d) /\ has_mark k c = true /\ convert (Some P) b' bef (drop_mark c) = Err x.
  Proof.
    induction d as [tag attrs text ch tail IH| |] using xnode_ind'; intros b x H; [|discriminate H..]. rewrite turn_elem in H. cbv zeta in H. set (d := XElem tag attrs text ch tail) in *.
    assert (G : forall l done, incl l ch -> turns k d (deep b d) done l = Err x -> exists P b' bef c, In c (tree_nodes d) /\ has_mark k c = true /\ convert (Some P) b' bef (drop_mark c) = Err x).
    { clear H. induction l as [|c l IHl]; intros done Hl H; [discriminate H|]. rewrite turns_cons in H. assert (Hc : In c ch) by (apply Hl; left; reflexivity).
      assert (Hl' : incl l ch) by (intros y Hy; apply Hl; right; exact Hy). destruct (has_mark k c) eqn:Ek.
      - destruct (convert _ _ _ _) as [e|y] eqn:E; cbn [rbind] in H; [exact (IHl _ Hl' H)|]. injection H as ->. exists d, (deep b d), done, c.
        split; [apply (nodes_child d c); [exact Hc|apply nodes_self]|auto].
      - destruct (turn k (deep b d) c) as [c'|y] eqn:E; cbn [rbind] in H; [exact (IHl _ Hl' H)|]. injection H as ->. rewrite Forall_forall in IH.
        destruct (IH c Hc _ _ E) as (P & b' & bef & z & K1 & K2 & K3). exists P, b', bef, z. split; [apply (nodes_child d c); assumption|auto]. }
    destruct (turns k d (deep b d) [] ch) as [ch'|y] eqn:E; cbn [rbind] in H; [discriminate H|]. injection H as ->. exact (G ch [] (incl_refl _) E).
  Qed.
  Lemma one_error k d x : pending k d -> fnested_one o convert src d k = Err x ->
    (exists P b bef n n1, In n (tree_nodes src) /\ tbl n = true /\ unlabelled n n1 /\ convert P b bef n1 = Err x) \/ (tbl d = true /\ x = EAttributeError).
  Proof.
    intros HP H. assert (G : forall c, In c (tree_nodes d) -> has_mark k c = true -> exists n, In n (tree_nodes src) /\ tbl n = true /\ unlabelled n (drop_mark c)).
    { intros c Hc Hk. pose proof (has_mark_tbl _ _ _ Hk) as Ht. destruct (HP c Hc Ht) as (i & m0 & _ & H1 & H2). exists m0. apply nth_error_In, filter_In in H1 as [H1 Ht1].
      split; [exact H1|]. split; [exact Ht1|]. apply (unlabelled_same c m0 m0); [exact (mark_form name doc 1 m0 H1 Ht1)|exact H2|reflexivity]. }
    unfold fnested_one in H. destruct (has_mark k d) eqn:Ek.
    - destruct (convert _ _ _ _) as [e|y] eqn:E; cbn [rbind] in H.
      + right. injection H as <-. split; [exact (has_mark_tbl _ _ _ Ek)|reflexivity].
      + injection H as ->. left. destruct (G d (nodes_self d) Ek) as (n & K1 & K2 & K3). exists None, 0%Z, [], n, (drop_mark d). auto.
    - left. destruct (existsb _ _).
      + apply turn_error in H as (P & b & bef & c & H1 & H2 & H3). destruct (G c H1 H2) as (n & K1 & K2 & K3). exists (Some P), b, bef, n, (drop_mark c). auto.
      + destruct (turn k 0%Z src) as [y|y] eqn:E; cbn [rbind] in H; [discriminate H|]. injection H as ->. apply turn_error in E as (P & b & bef & c & H1 & H2 & H3).
        pose proof (has_mark_tbl _ _ _ H2) as Ht. exists (Some P), b, bef, c, (drop_mark c). split; [exact H1|]. split; [exact Ht|]. split; [|exact H3].
        apply (unlabelled_same c c c); [exact (mark_form name doc 1 c H1 Ht)|reflexivity..].
  Qed.
  Lemma all_error j : forall k d x, pending k d -> orderly d -> fnested_all o convert src d (seq k j) = Err x ->
    (exists P b bef n n1, In n (tree_nodes src) /\ tbl n = true /\ unlabelled n n1 /\ convert P b bef n1 = Err x) \/ (tbl d = true /\ x = EAttributeError).
  Proof.
    induction j as [|j IH]; intros k d x HP HO H; [discriminate|]. cbn [seq fnested_all] in H. destruct (fnested_one o convert src d k) as [d1|y] eqn:E; cbn [rbind] in H.
    - destruct (tbl d) eqn:Et.
      + destruct (root_same _ _ _ E) as [Hr Hk].
        assert (K : pending (S k) d1 /\ orderly d1).
        { unfold fnested_one in E. rewrite Hk in E. destruct (existsb _ _) eqn:Ex.
          - apply existsb_exists in Ex as (c & Hc & Hkc). exfalso. rewrite (later name doc k d HP Et Hk c Hc) in Hkc. discriminate Hkc.
          - bind E as z Ez. injection E as <-. split; [|exact HO]. intros m Hm Htm. destruct (HP m Hm Htm) as (i & x' & Hi & H1 & H2). exists i, x'. split; [|auto].
            destruct (Nat.eq_dec k (S i)) as [Ei|Ei]; [|lia]. exfalso.
            assert (K : existsb (has_mark k) (tree_nodes d) = true) by (apply existsb_exists; exists m; split; [exact Hm|apply (src_mark name doc i m x' k H1 H2 Htm), Ei]). congruence. }
        destruct (IH (S k) d1 x (proj1 K) (proj2 K) H) as [G|[_ G]]; [left; exact G|right; auto].
      + destruct (one_step k d d1 HP HO Et E) as (H1 & H2 & H3 & _). destruct (IH (S k) d1 x H1 H2 H) as [G|[G _]]; [left; exact G|congruence].
    - injection H as ->. exact (one_error k d x HP E).
  Qed.
  Theorem fnested_error x : fnested_tables o convert doc = Err x ->
    (exists P b bef n n1, In n (tree_nodes src) /\ tbl n = true /\ unlabelled n n1 /\ convert P b bef n1 = Err x) \/ (tbl doc = true /\ x = EAttributeError).
  Proof.
    intros H. unfold fnested_tables in H. fold src in H. rewrite <- (has_tag_tag _ _ _ src_tag). exact (all_error _ 1 src x src_pending src_orderly H).
  Qed.
End Loop.
