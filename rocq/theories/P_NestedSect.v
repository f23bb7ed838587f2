(** * Proofs: the section used for a Word table, also inside another one *)
From Verif Require Import Base M_Xml M_Geometry M_Cell M_Grid M_Table M_Cals M_CalsParser M_Formex M_FormexParser M_FormexRead M_FormexFinal M_FormexFinish M_Ooxml M_Transform M_Convert M_ConvertDoc M_Nested.
From Verif Require Import S_Transform S_ConvertDoc S_Nested P_Cals P_Transform P_ConvertDoc P_Nested.
Open Scope string_scope.
Open Scope list_scope.

(** ** Places *)
Lemma place_trans B A d B1 A1 m B2 A2 y : place B A d B1 A1 m -> place B1 A1 m B2 A2 y -> place B A d B2 A2 y.
Proof. induction 1 as [|? ? ? ? ? ? ? ? ? ? ? ? _ IH]; intros H; [exact H|apply place_in, IH, H]. Qed.
Lemma place_node B A d B1 A1 m : place B A d B1 A1 m -> In m (tree_nodes d).
Proof.
  induction 1 as [|? ? ? ? ? l c r ? ? ? n _ IH]; [apply nodes_self|]. apply (nodes_child _ c); [apply in_or_app; right; left; reflexivity|exact IH].
Qed.
Lemma node_place p : forall d m B A, node_at d p = Some m -> exists B1, place B A d B1 (after_at d p ++ A) m.
Proof.
  induction p as [|i p IH]; intros d m B A H; cbn [node_at after_at] in *.
  - injection H as <-. exists B. apply place_here.
  - destruct (nth_error (x_children d) i) as [c|] eqn:Ec; [|discriminate].
    destruct (nth_error_split _ _ Ec) as (l & r & El & Hl). destruct d as [tag attrs text children tail| |]; cbn [x_children] in *; [|destruct l; discriminate..]. subst children.
    destruct (IH c m (B ++ l) (r ++ A) H) as (B1 & HB). exists B1. apply place_in. replace (skipn (S i) (l ++ c :: r)) with r; [rewrite <- app_assoc; exact HB|].
    subst i. clear. induction l as [|x l IHl]; [reflexivity|exact IHl].
Qed.
(** A tree without marks: the same nodes *)
Lemma unmark_tag name s n : x_has_tag (unmark name n) s = x_has_tag n s.
Proof.
  destruct n as [tag attrs text children tail| |]; cbn [unmark]; [|reflexivity..]. destruct (String.eqb name tag); [|reflexivity].
  destruct attrs as [|[a v] attrs]; cbn [drop_mark]; [reflexivity|]. destruct (String.eqb a mark_name); reflexivity.
Qed.
Lemma unmark_children name n : x_children (unmark name n) = map (unmark name) (x_children n).
Proof.
  destruct n as [tag attrs text children tail| |]; cbn [unmark]; [|reflexivity..]. destruct (String.eqb name tag); [|reflexivity].
  destruct attrs as [|[a v] attrs]; cbn [drop_mark]; [reflexivity|]. destruct (String.eqb a mark_name); reflexivity.
Qed.
Lemma unmark_inside name n m : inside n m -> inside (unmark name n) (unmark name m).
Proof.
  induction 1 as [n c Hc|n c m Hc _ IH]; [apply in_child|apply (in_deep _ (unmark name c)); [|exact IH]]; rewrite unmark_children; apply in_map, Hc.
Qed.
Lemma unmark_none name n : (forall m, In m (tree_nodes n) -> x_has_tag m name = false) -> unmark name n = n.
Proof.
  induction n as [tag attrs text children tail IH| |] using xnode_ind'; intros H; [|reflexivity..]. cbn [unmark].
  pose proof (H _ (nodes_self _)) as E. cbn [x_has_tag] in E. rewrite E. f_equal.
  assert (H' : forall c, In c children -> forall m, In m (tree_nodes c) -> x_has_tag m name = false) by (intros c Hc m Hm; apply H, (nodes_child _ c); assumption).
  clear H. induction IH as [|c l Hc _ IHl]; [reflexivity|]. cbn [map]. f_equal; [apply Hc, H'; left; reflexivity|apply IHl; intros x Hx; apply H'; right; exact Hx].
Qed.

Section Sections.
  Variables name sname : string.
  Variable convert : list xnode -> Z -> xnode -> result xnode.
  Notation tbl n := (x_has_tag n name).
  Notation sect n := (x_has_tag n sname).
  Notation has_mark := (has_mark name).
  Notation put_mark := (put_mark name).
  Hypothesis other : sname <> name.

  Definition secs (n : xnode) : list xnode := filter (fun m => sect m) (tree_nodes n).
  Definition secl (l : list xnode) : list xnode := flat_map secs l.
  Lemma secl_app l r : secl (l ++ r) = secl l ++ secl r.
  Proof. apply flat_map_app. Qed.
  Lemma secs_none n : (forall m, In m (tree_nodes n) -> sect m = false) -> secs n = [].
  Proof.
    unfold secs. intros H. induction (tree_nodes n) as [|m l IH]; [reflexivity|]. cbn [filter]. rewrite (H m) by (left; reflexivity).
    apply IH. intros x Hx. apply H. right. exact Hx.
  Qed.
  Lemma secs_elem tag attrs text ch tail : sect (XElem tag attrs text ch tail) = false -> secs (XElem tag attrs text ch tail) = secl ch.
  Proof. intros H. unfold secs. cbn [tree_nodes filter]. rewrite H. unfold secl. rewrite filter_flat. reflexivity. Qed.
  Lemma tbl_sect n : tbl n = true -> sect n = false.
  Proof. destruct n; cbn [x_has_tag]; [|discriminate..]. intros H. apply String.eqb_eq in H. apply String.eqb_neq. congruence. Qed.
  Lemma has_mark_table k n : has_mark k n = true -> tbl n = true.
  Proof. unfold M_Nested.has_mark. intros H. apply andb_true_iff in H. apply H. Qed.

  (** no section inside a table; no table inside a section *)
  Definition no_sect (n : xnode) : Prop := forall x, inside n x -> sect x = false.
  Definition tables_plain (d : xnode) : Prop := forall m, In m (tree_nodes d) -> tbl m = true -> no_sect m.
  Definition sections_plain (d : xnode) : Prop := forall s, In s (tree_nodes d) -> sect s = true -> forall m, In m (tree_nodes s) -> tbl m = false.
  Lemma tables_child d c : tables_plain d -> In c (x_children d) -> tables_plain c.
  Proof. intros H Hc m Hm. apply H, (nodes_child d c); assumption. Qed.
  Lemma sections_child d c : sections_plain d -> In c (x_children d) -> sections_plain c.
  Proof. intros H Hc m Hm. apply H, (nodes_child d c); assumption. Qed.

  Lemma inside_place m y : inside m y -> forall B A, exists B1 A1, place B A m B1 A1 y /\ (no_sect m -> secl A1 = secl A).
  Proof.
    induction 1 as [m c Hc|m c y Hc Hy IH]; intros B A; destruct m as [tag attrs text ch tail| |]; cbn [x_children] in Hc; try destruct Hc as [].
    - apply in_split in Hc as (l & r & ->). exists (B ++ l), (r ++ A). split; [apply place_in, place_here|]. intros H. rewrite secl_app.
      assert (E : secl r = []); [|rewrite E; reflexivity]. assert (H' : forall x, In x r -> secs x = []).
      { intros x Hx. apply secs_none. intros z Hz. apply H. apply in_nodes in Hz as [->|Hz]; [apply in_child|apply (in_deep _ x); [|exact Hz]]; apply in_or_app; right; right; exact Hx. }
      clear -H'. induction r as [|x r IH]; [reflexivity|]. unfold secl. cbn [flat_map]. rewrite (H' x) by (left; reflexivity). apply IH. intros z Hz. apply H'. right. exact Hz.
    - apply in_split in Hc as (l & r & ->). destruct (IH (B ++ l) (r ++ A)) as (B1 & A1 & HP & HS). exists B1, A1. split; [apply place_in, HP|]. intros H.
      rewrite HS, secl_app.
      + assert (E : secl r = []); [|rewrite E; reflexivity]. assert (H' : forall x, In x r -> secs x = []).
        { intros x Hx. apply secs_none. intros z Hz. apply H. apply in_nodes in Hz as [->|Hz]; [apply in_child|apply (in_deep _ x); [|exact Hz]]; apply in_or_app; right; right; exact Hx. }
        clear -H'. induction r as [|x r IH]; [reflexivity|]. unfold secl. cbn [flat_map]. rewrite (H' x) by (left; reflexivity). apply IH. intros z Hz. apply H'. right. exact Hz.
      + intros x Hx. apply H, (in_deep _ c); [apply in_or_app; right; left; reflexivity|exact Hx].
  Qed.
  Lemma secs_unmark n : sections_plain n -> secs (unmark name n) = secs n.
  Proof.
    induction n as [tag attrs text children tail IH| |] using xnode_ind'; intros H; [|reflexivity..]. set (n := XElem tag attrs text children tail) in *.
    destruct (sect n) eqn:Es; [rewrite unmark_none; [reflexivity|]; apply (H n (nodes_self n) Es)|].
    pose proof (unmark_tag name sname n) as E. rewrite Es in E. pose proof (unmark_children name n) as Ec.
    destruct (unmark name n) as [tag' attrs' text' ch' tail'| |] eqn:En.
    - rewrite (secs_elem _ _ _ _ _ E). cbn [x_children] in Ec. unfold n in *. rewrite (secs_elem _ _ _ _ _ Es). subst ch'. cbn [x_children].
      assert (H' : forall c, In c children -> sections_plain c) by (intros c Hc; apply (sections_child _ c H), Hc).
      clear -IH H'. unfold secl. induction IH as [|c l Hc _ IHl]; [reflexivity|]. cbn [map flat_map]. f_equal; [apply Hc, H'; left; reflexivity|apply IHl; intros x Hx; apply H'; right; exact Hx].
    - exfalso. unfold n in En. cbn [unmark] in En. destruct (String.eqb name tag); [|discriminate En]. destruct attrs as [|[a v] attrs]; cbn [drop_mark] in En; [discriminate En|]. destruct (String.eqb a mark_name); discriminate En.
    - exfalso. unfold n in En. cbn [unmark] in En. destruct (String.eqb name tag); [|discriminate En]. destruct attrs as [|[a v] attrs]; cbn [drop_mark] in En; [discriminate En|]. destruct (String.eqb a mark_name); discriminate En.
  Qed.
  Lemma secl_unmark l : Forall sections_plain l -> secl (map (unmark name) l) = secl l.
  Proof. unfold secl. induction 1 as [|n l Hn _ IH]; [reflexivity|]. cbn [map flat_map]. rewrite secs_unmark by exact Hn. f_equal. exact IH. Qed.

  (** ** One replacement *)
  Lemma put_unmarked k e n : (forall m, In m (tree_nodes n) -> tbl m = false) -> put_mark k e n = n.
  Proof.
    intros H. apply (put_none name). intros m Hm. destruct (has_mark k m) eqn:E; [|reflexivity]. apply has_mark_table in E. rewrite (H m Hm) in E. discriminate.
  Qed.
  Section Put.
    Variables (k : nat) (e : xnode).
    Hypothesis e_plain : forall x, In x (tree_nodes e) -> sect x = false.
    Hypothesis e_table : tbl e = false.
    Lemma e_tail t x : In x (tree_nodes (x_set_tail e t)) -> sect x = false.
    Proof.
      intros Hx. apply in_nodes in Hx as [->|Hx].
      - replace (sect (x_set_tail e t)) with (sect e) by (destruct e; reflexivity). apply e_plain, nodes_self.
      - apply inside_tail in Hx. apply e_plain, in_nodes. right. exact Hx.
    Qed.
    Lemma put_secs d : tables_plain d -> sections_plain d -> secs (put_mark k e d) = secs d.
    Proof.
      induction d as [tag attrs text children tail IH| |] using xnode_ind'; intros HT HS; [|reflexivity..]. set (d := XElem tag attrs text children tail) in *.
      destruct (sect d) eqn:Es; [rewrite put_unmarked; [reflexivity|]; apply (HS d (nodes_self d) Es)|].
      unfold d at 1. cbn [M_Nested.put_mark]. fold d. destruct (has_mark k d) eqn:Ek.
      - rewrite (secs_none (x_set_tail e _)) by apply e_tail. symmetry. apply secs_none. intros m Hm. apply in_nodes in Hm as [->|Hm]; [exact Es|].
        apply (HT d (nodes_self d)); [apply (has_mark_table k), Ek|exact Hm].
      - unfold d in *. rewrite (secs_elem tag attrs text (map (put_mark k e) children) tail Es), (secs_elem _ _ _ _ _ Es).
        assert (HT' : forall c, In c children -> tables_plain c) by (intros c Hc; apply (tables_child _ c HT), Hc).
        assert (HS' : forall c, In c children -> sections_plain c) by (intros c Hc; apply (sections_child _ c HS), Hc).
        clear -IH HT' HS'. unfold secl. induction IH as [|c l Hc _ IHl]; [reflexivity|]. cbn [map flat_map].
        f_equal; [apply Hc; [apply HT'|apply HS']; left; reflexivity|apply IHl; intros x Hx; [apply HT'|apply HS']; right; exact Hx].
    Qed.
    Lemma put_secl l : Forall tables_plain l -> Forall sections_plain l -> secl (map (put_mark k e) l) = secl l.
    Proof.
      unfold secl. induction l as [|n l IH]; intros H1 H2; [reflexivity|]. inversion H1; subst. inversion H2; subst. cbn [map flat_map]. rewrite put_secs by assumption. f_equal. apply IH; assumption.
    Qed.
    Lemma put_sections d : sections_plain d -> sections_plain (put_mark k e d).
    Proof.
      induction d as [tag attrs text children tail IH| |] using xnode_ind'; intros HS; [|exact HS..]. set (d := XElem tag attrs text children tail) in *.
      destruct (sect d) eqn:Es; [rewrite put_unmarked; [exact HS|]; apply (HS d (nodes_self d) Es)|].
      unfold d at 1. cbn [M_Nested.put_mark]. fold d. destruct (has_mark k d) eqn:Ek.
      - intros s Hs Hss. exfalso. rewrite (e_tail _ s Hs) in Hss. discriminate.
      - intros s Hs Hss. apply in_nodes in Hs as [->|Hs]; [exfalso; unfold d in Es; cbn [x_has_tag] in *; congruence|].
        apply inside_child in Hs as (y & Hy & Hs). cbn [x_children] in Hy. apply in_map_iff in Hy as (c & <- & Hc). rewrite Forall_forall in IH.
        exact (IH c Hc (sections_child d c HS Hc) s Hs Hss).
    Qed.
    Lemma map_split {X Y} (f : X -> Y) l a b c : map f l = a ++ b :: c -> exists a0 b0 c0, l = a0 ++ b0 :: c0 /\ a = map f a0 /\ b = f b0 /\ c = map f c0.
    Proof.
      intros H. apply map_eq_app in H as (a0 & r & -> & <- & Hr). apply map_eq_cons in Hr as (b0 & c0 & -> & <- & <-). eauto 8.
    Qed.
    (** the tables of the document after a replacement *)
    Lemma put_place d : (forall m, In m (tree_nodes d) -> tbl m = true -> has_mark k m = false -> forall x, In x (tree_nodes m) -> has_mark k x = false) ->
      tables_plain d -> sections_plain d -> forall B A A0 B' A' m, secl A = secl A0 -> place B A (put_mark k e d) B' A' m -> tbl m = true ->
      forall B0, (exists B1 A1, place B0 A0 d B1 A1 m /\ secl A1 = secl A') \/
      (exists B1 A1 x, place B0 A0 d B1 A1 x /\ has_mark k x = true /\ inside e m /\ secl A1 = secl A').
    Proof.
      induction d as [tag attrs text children tail IH| |] using xnode_ind'; intros HL HT HS B A A0 B' A' m EA HP Hm B0.
      - set (d := XElem tag attrs text children tail) in *. destruct (has_mark k d) eqn:Ek.
        + right. exists B0, A0, d. split; [apply place_here|]. split; [exact Ek|].
          assert (Ep : put_mark k e d = x_set_tail e tail) by (unfold d at 1; cbn [M_Nested.put_mark]; fold d; rewrite Ek; reflexivity). rewrite Ep in HP.
          assert (Hi : inside (x_set_tail e tail) m).
          { pose proof (place_node _ _ _ _ _ _ HP) as Hn. apply in_nodes in Hn as [->|Hn]; [|exact Hn]. exfalso.
            replace (tbl (x_set_tail e tail)) with (tbl e) in Hm by (destruct e; reflexivity). congruence. }
          split; [apply inside_tail in Hi; exact Hi|]. rewrite <- EA.
          assert (G : forall x y a a' b b', place b a x b' a' y -> (forall z, In z (tree_nodes x) -> sect z = false) -> secl a = secl a').
          { clear. intros x y a a' b b' H. induction H as [|B A tag attrs text l c r tail B' A' n H IH]; intros Hz; [reflexivity|].
            rewrite <- IH, secl_app.
            - assert (E : secl r = []); [|rewrite E; reflexivity]. assert (H' : forall x, In x r -> secs x = []).
              { intros x Hx. apply secs_none. intros z Hz'. apply Hz. apply (nodes_child _ x); [apply in_or_app; right; right; exact Hx|exact Hz']. }
              clear -H'. induction r as [|x r IHr]; [reflexivity|]. unfold secl. cbn [flat_map]. rewrite (H' x) by (left; reflexivity). apply IHr. intros z Hz. apply H'. right. exact Hz.
            - intros z Hz'. apply Hz. apply (nodes_child _ c); [apply in_or_app; right; left; reflexivity|exact Hz']. }
          exact (G _ _ _ _ _ _ HP (e_tail tail)).
        + destruct (tbl d) eqn:Et.
          { rewrite (put_none name k e d (HL d (nodes_self d) Et Ek)) in HP. left.
            assert (G : forall x y a a' b b', place b a x b' a' y -> forall a0 b0, secl a = secl a0 -> exists b1 a1, place b0 a0 x b1 a1 y /\ secl a1 = secl a').
            { clear. intros x y a a' b b' H. induction H as [|B A tag attrs text l c r tail B' A' n H IH]; intros a0 b0 E; [exists b0, a0; split; [apply place_here|congruence]|].
              destruct (IH (r ++ a0) (b0 ++ l)) as (b1 & a1 & H1 & H2); [rewrite !secl_app, E; reflexivity|]. exists b1, a1. split; [apply place_in, H1|exact H2]. }
            exact (G _ _ _ _ _ _ HP A0 B0 EA). }
          assert (Ep : put_mark k e d = XElem tag attrs text (map (put_mark k e) children) tail) by (unfold d at 1; cbn [M_Nested.put_mark]; fold d; rewrite Ek; reflexivity). rewrite Ep in HP.
          remember (XElem tag attrs text (map (put_mark k e) children) tail) as dd eqn:Edd.
          destruct HP as [B2 A2 n2|B2 A2 tag2 attrs2 text2 l c r tail2 B' A' m HP']; [exfalso; subst n2; unfold d in Et; cbn [x_has_tag] in *; congruence|].
          assert (Em : map (put_mark k e) children = l ++ c :: r) by (injection Edd; auto). clear Edd Ep.
          apply map_split in Em as (l0 & c0 & r0 & -> & -> & -> & ->).
          assert (Hc : In c0 (l0 ++ c0 :: r0)) by (apply in_or_app; right; left; reflexivity). rewrite Forall_forall in IH.
          assert (Hr : forall x, In x r0 -> In x (l0 ++ c0 :: r0)) by (intros x Hx; apply in_or_app; right; right; exact Hx).
          destruct (IH c0 Hc) with (B := B2 ++ map (put_mark k e) l0) (A := map (put_mark k e) r0 ++ A2) (A0 := r0 ++ A0) (B' := B') (A' := A') (m := m) (B0 := B0 ++ l0)
            as [(B1 & A1 & H1 & H2)|(B1 & A1 & x & H1 & H2 & H3 & H4)].
          * intros y Hy. apply HL, (nodes_child d c0); [exact Hc|exact Hy].
          * exact (tables_child d c0 HT Hc).
          * exact (sections_child d c0 HS Hc).
          * rewrite !secl_app, EA, put_secl; [reflexivity| |]; apply Forall_forall; intros x Hx; [exact (tables_child d x HT (Hr x Hx))|exact (sections_child d x HS (Hr x Hx))].
          * exact HP'.
          * exact Hm.
          * left. exists B1, A1. split; [apply place_in, H1|exact H2].
          * right. exists B1, A1, x. split; [apply place_in, H1|]. auto.
      - cbn [M_Nested.put_mark] in HP. inversion HP; subst. discriminate Hm.
      - cbn [M_Nested.put_mark] in HP. inversion HP; subst. discriminate Hm.
    Qed.
  End Put.

  (** ** The loop *)
  Hypothesis not_table : forall after k n e, convert after k n = Ok e -> tbl e = false.
  Hypothesis kept : forall after k n e, convert after k n = Ok e -> forall m, inside e m -> tbl m = true -> exists m0, inside n m0 /\ same_node m m0.
  Hypothesis not_sect : forall after k n e, convert after k n = Ok e -> sect e = false.
  Hypothesis kept_sect : forall after k n e, convert after k n = Ok e -> forall m, inside e m -> sect m = true -> exists m0, inside n m0 /\ same_node m m0.
  Variable doc : xnode.
  Let src : xnode := snd (mark_from name 1 doc).
  Hypothesis apart : tables_plain doc.
  Hypothesis apart' : sections_plain doc.
  Notation pending := (pending name doc).

  Lemma nodes_unmark n m : In m (tree_nodes n) -> In (unmark name m) (tree_nodes (unmark name n)).
  Proof. intros H. apply in_nodes in H as [->|H]; [apply nodes_self|]. apply in_nodes. right. apply unmark_inside, H. Qed.
  Lemma src_doc : unmark name src = doc.
  Proof. apply unmark_mark. Qed.
  Lemma src_tables : tables_plain src.
  Proof.
    intros m Hm Ht x Hx. rewrite <- (unmark_tag name). apply (apart (unmark name m)); [rewrite <- src_doc; apply nodes_unmark, Hm|rewrite unmark_tag; exact Ht|apply unmark_inside, Hx].
  Qed.
  Lemma src_sections : sections_plain src.
  Proof.
    intros s Hs Hss m Hm. rewrite <- (unmark_tag name). apply (apart' (unmark name s)); [rewrite <- src_doc; apply nodes_unmark, Hs|rewrite unmark_tag; exact Hss|apply nodes_unmark, Hm].
  Qed.
  Lemma pending_tables k d : pending k d -> tables_plain d.
  Proof.
    intros HP m Hm Ht x Hx. destruct (HP m Hm Ht) as (i & m0 & _ & H1 & H2). apply nth_error_In, filter_In in H1 as [H1 H1'].
    exact (src_tables m0 H1 H1' x (inside_same _ _ _ H2 Hx)).
  Qed.
  (** each table of the document has, after it, the sections which it had at the beginning *)
  Definition sections_kept (d : xnode) : Prop := forall B A m, place [] [] d B A m -> tbl m = true ->
    exists B0 A0 m0, place [] [] src B0 A0 m0 /\ same_node m m0 /\ secl A = secl A0.
  Definition RS (n e : xnode) : Prop := exists after i n1 B A m0,
    unlabelled n n1 /\ convert after (Z.of_nat (S i)) n1 = Ok e /\ place [] [] src B A m0 /\ same_node n m0 /\
    nth_error (srcs name src) i = Some m0 /\ secl after = secl A.

  Lemma full_tail' (R : xnode -> xnode -> Prop) n n' t : tbl n = false -> full (fun m => tbl m) R (x_set_tail n t) n' -> exists n1, n' = x_set_tail n1 t /\ full (fun m => tbl m) R n n1.
  Proof.
    intros Ht H. inversion H as [? e e' H1 H2 H3 E|tag attrs text children children' tail H1 H2 E|target pitext tail H1 E|ctext tail H1 E]; subst.
    - exfalso. assert (tbl (x_set_tail n t) = tbl n) by (destruct n; reflexivity). congruence.
    - destruct n; cbn in E; try discriminate. injection E as -> -> -> -> ->. eexists (XElem _ _ _ children' _). split; [reflexivity|]. apply full_elem; [exact Ht|exact H2].
    - destruct n; cbn in E; try discriminate. injection E as -> -> ->. eexists (XPI _ _ _). split; [reflexivity|]. apply full_pi, Ht.
    - destruct n; cbn in E; try discriminate. injection E as -> ->. eexists (XComment _ _). split; [reflexivity|]. apply full_comment, Ht.
  Qed.
  Lemma put_full' (R : xnode -> xnode -> Prop) k e : tbl e = false -> forall d, pending k d ->
    (forall n, In n (tree_nodes d) -> has_mark k n = true -> R n e) -> forall d', full (fun m => tbl m) R (put_mark k e d) d' -> full (fun m => tbl m) R d d'.
  Proof.
    intros He. induction d as [tag attrs text children tail IH| |] using xnode_ind'; intros HP HR d' H; cbn [M_Nested.put_mark] in H.
    - set (d := XElem tag attrs text children tail) in *. destruct (has_mark k d) eqn:Ek.
      + apply (full_tail' _ _ _ _ He) in H as (n1 & -> & H). apply (full_table _ _ d e n1); [apply (has_mark_table k), Ek|apply HR; [apply nodes_self|exact Ek]|exact H].
      + destruct (tbl d) eqn:Et.
        * pose proof (put_none name k e d (later name doc k d HP Et Ek)) as E. unfold d in E at 1. cbn [M_Nested.put_mark] in E. fold d in E. rewrite Ek in E. rewrite E in H. exact H.
        * unfold d in *. inversion H as [? ? ? H1 _ _|? ? ? ? ch' ? H1 H2| |]; subst; [cbn [x_has_tag] in *; congruence|]. apply full_elem; [exact Et|].
          assert (HP' : forall c, In c children -> pending k c) by (intros c Hc; apply (pending_child name doc k _ c HP), Hc).
          assert (HR' : forall c, In c children -> forall n, In n (tree_nodes c) -> has_mark k n = true -> R n e) by (intros c Hc n Hn; apply HR, (nodes_child d c); assumption).
          clear -IH H2 HP' HR'. revert ch' H2. induction children as [|c l IHl]; intros ch' H2; inversion H2; subst; [apply full_nil|].
          inversion IH as [|? ? I1 I2]; subst. apply full_cons.
          -- apply I1; [apply HP'; left; reflexivity|apply HR'; left; reflexivity|assumption].
          -- apply IHl; [exact I2|intros y Hy; apply HP'; right; exact Hy|intros y Hy; apply HR'; right; exact Hy|assumption].
    - cbn in H. exact H.
    - cbn in H. exact H.
  Qed.

  Lemma one_sections k d d1 : (1 <= k)%nat -> pending k d -> sections_plain d -> sections_kept d -> nested_one name convert src d k = Ok d1 ->
    sections_plain d1 /\ sections_kept d1 /\ forall d', full (fun m => tbl m) RS d1 d' -> full (fun m => tbl m) RS d d'.
  Proof.
    intros Hk HP HS HK H. unfold nested_one in H. destruct (find_all_nodes (has_mark k) d) as [F1 F2]. destruct (find_all (has_mark k) d) as [|p ps].
    - destruct (find _ _) as [x|]; [|discriminate]. bind H as e E. injection H as <-. auto.
    - destruct (F1 p ltac:(left; reflexivity)) as (n & En & Hn & Hm). rewrite En in H. bind H as e E. destruct p as [|a p]; [discriminate|]. injection H as <-.
      pose proof (has_mark_table _ _ Hm) as Htn.
      destruct (HP n Hn Htn) as (i & m0 & Hi & H1 & H2). pose proof Hm as Hm'. apply (src_mark name doc i n m0 k H1 H2 Htn) in Hm'. subst k.
      assert (Hms : In m0 (tree_nodes src) /\ tbl m0 = true) by (apply nth_error_In, filter_In in H1; exact H1).
      assert (He : forall x, In x (tree_nodes e) -> sect x = false).
      { intros x Hx. apply in_nodes in Hx as [->|Hx]; [exact (not_sect _ _ _ _ E)|]. destruct (sect x) eqn:Ex; [|reflexivity]. exfalso.
        destruct (kept_sect _ _ _ _ E x Hx Ex) as (y & Hy & Hxy). apply (proj1 (inside_drop _ _)) in Hy.
        pose proof (pending_tables _ _ HP n Hn Htn y Hy) as K. assert (sect x = sect y) by (replace (sect x) with (sect (x_set_tail x None)) by (destruct x; reflexivity); rewrite Hxy; destruct y; reflexivity). congruence. }
      pose proof (not_table _ _ _ _ E) as Het.
      assert (Same : forall x, In x (tree_nodes d) -> has_mark (S i) x = true -> same_node x m0).
      { intros x Hx Hxm. destruct (HP x Hx (has_mark_table _ _ Hxm)) as (i' & m' & _ & H1' & H2'). apply (src_mark name doc i' x m' (S i) H1' H2' (has_mark_table _ _ Hxm)) in Hxm. injection Hxm as <-.
        rewrite H1 in H1'. injection H1' as <-. exact H2'. }
      (* where the table of this turn was *)
      assert (Where : forall x B A, place [] [] d B A x -> has_mark (S i) x = true -> exists B0 A0, place [] [] src B0 A0 m0 /\ secl A = secl A0).
      { intros x B A Hp Hx. destruct (HK B A x Hp (has_mark_table _ _ Hx)) as (B0 & A0 & m1 & P1 & S1 & E1).
        assert (m1 = m0); [|subst; eauto]. pose proof (place_node _ _ _ _ _ _ P1) as N1.
        assert (T1 : tbl m1 = true) by (rewrite <- (tbl_same name _ _ S1); apply (has_mark_table _ _ Hx)).
        assert (I1 : In m1 (srcs name src)) by (apply filter_In; auto). apply In_nth_error in I1 as (j & Hj).
        assert (K : has_mark (S i) m1 = true) by (rewrite <- (has_mark_same name _ _ _ S1); exact Hx).
        apply (src_mark name doc j m1 m1 (S i) Hj eq_refl T1) in K. injection K as ->. pose proof (eq_trans (eq_sym Hj) H1) as K. injection K as K. exact K. }
      split; [apply put_sections; assumption|]. split.
      + intros B A m Hp Hmt.
        destruct (put_place (S i) e He Het d) with (B := @nil xnode) (A := @nil xnode) (A0 := @nil xnode) (B' := B) (A' := A) (m := m) (B0 := @nil xnode)
          as [(B1 & A1 & P1 & E1)|(B1 & A1 & x & P1 & Hx & Hin & E1)]; [|exact (pending_tables _ _ HP)|exact HS|reflexivity|exact Hp|exact Hmt| |].
        * intros y Hy Hyt Hyk. apply (later name doc (S i) y); [|exact Hyt|exact Hyk]. intros z Hz. apply HP. apply in_nodes in Hy as [->|Hy]; [exact Hz|].
          apply in_nodes in Hz as [->|Hz]; apply in_nodes; right; [exact Hy|].
          clear -Hy Hz. induction Hy as [? c Hc|? c ? Hc _ IH]; [apply (in_deep _ c); assumption|apply (in_deep _ c); [exact Hc|apply IH, Hz]].
        * destruct (HK B1 A1 m P1 Hmt) as (B0 & A0 & m1 & P2 & S2 & E2). exists B0, A0, m1. split; [exact P2|]. split; [exact S2|congruence].
        * destruct (Where x B1 A1 P1 Hx) as (B0 & A0 & P2 & E2). destruct (kept _ _ _ _ E m Hin Hmt) as (y & Hy & Hmy).
          apply inside_drop, (inside_same _ _ _ H2) in Hy. destruct (inside_place m0 y Hy B0 A0) as (B3 & A3 & P3 & E3).
          exists B3, A3, y. split; [exact (place_trans _ _ _ _ _ _ _ _ _ P2 P3)|]. split; [exact Hmy|]. rewrite (E3 (src_tables m0 (proj1 Hms) (proj2 Hms))). congruence.
      + apply put_full'; [exact Het|exact HP|]. intros x Hx Hxm.
        destruct (node_place (a :: p) d n [] [] En) as (B1 & P1). rewrite app_nil_r in P1. destruct (Where n B1 _ P1 Hm) as (B0 & A0 & P2 & E2).
        exists (map (unmark name) (after_at d (a :: p))), i, (drop_mark n), B0, A0, m0. split; [|split; [exact E|]].
        * apply (unlabelled_same n x m0); [|exact H2|apply Same; assumption]. exact (mark_form name doc 1 m0 (proj1 Hms) (proj2 Hms)).
        * split; [exact P2|]. split; [apply Same; assumption|]. split; [exact H1|]. rewrite <- E2. apply secl_unmark. apply Forall_forall. intros y Hy s Hs. apply HS.
          assert (G : forall q z, In z (after_at d q) -> inside d z).
          { clear. intros q. revert d. induction q as [|j q IH]; intros d z Hz; cbn [after_at] in Hz; [destruct Hz|].
            destruct (nth_error (x_children d) j) as [c|] eqn:Ec; [|destruct Hz]. apply in_app_or in Hz as [Hz|Hz].
            - apply (in_deep _ c); [apply nth_error_In in Ec; exact Ec|apply IH, Hz].
            - apply in_child. rewrite <- (firstn_skipn (S j) (x_children d)). apply in_or_app. right. exact Hz. }
          pose proof (G _ _ Hy) as Gy. apply in_nodes. right. apply in_nodes in Hs as [->|Hs]; [exact Gy|].
          clear -Gy Hs. induction Gy as [? c Hc|? c ? Hc _ IH]; [apply (in_deep _ c); assumption|apply (in_deep _ c); [exact Hc|apply IH, Hs]].
  Qed.
  Lemma all_sections j : forall k d d', (1 <= k)%nat -> (k + j = fst (mark_from name 1 doc))%nat -> pending k d -> sections_plain d -> sections_kept d ->
    nested_all name convert src d (seq k j) = Ok d' -> full (fun m => tbl m) RS d d'.
  Proof.
    induction j as [|j IH]; intros k d d' Hk Hj HP HS HK H.
    - injection H as <-.
      assert (HN : forall m, In m (tree_nodes d) -> tbl m = false).
      { intros m Hm. destruct (tbl m) eqn:E; [|reflexivity]. destruct (HP m Hm E) as (i & m0 & Hi & H1 & _). apply src_count in H1. lia. }
      clear -HN. induction d as [tag attrs text children tail IH| |] using xnode_ind'.
      + apply full_elem; [apply HN, nodes_self|].
        assert (HN' : forall c, In c children -> forall m, In m (tree_nodes c) -> tbl m = false) by (intros c Hc m Hm; apply HN, (nodes_child _ c); assumption).
        clear HN. induction IH as [|c l Hc _ IHl]; [apply full_nil|]. apply full_cons; [apply Hc, HN'; left; reflexivity|apply IHl; intros x Hx; apply HN'; right; exact Hx].
      + apply full_pi. reflexivity.
      + apply full_comment. reflexivity.
    - cbn [seq nested_all] in H. bind H as d1 E. destruct (one_sections k d d1 Hk HP HS HK E) as (S1 & S2 & S3).
      apply S3. apply (IH (S k) d1 d'); [lia|lia| |exact S1|exact S2|exact H]. exact (proj1 (one_full name convert not_table kept doc k d d1 Hk HP E)).
  Qed.
  Theorem nested_sections d' : nested_tables name convert doc = Ok d' -> full (fun m => tbl m) RS src d'.
  Proof.
    intros H. unfold nested_tables in H. destruct (marks name doc 1) as [HM _]. apply (all_sections (fst (mark_from name 1 doc) - 1) 1 src d'); [lia|lia| |exact src_sections| |exact H].
    - intros m Hm Ht. assert (Hs : In m (srcs name src)) by (apply filter_In; auto). apply In_nth_error in Hs as (i & Hi). exists i, m. split; [lia|]. split; [exact Hi|reflexivity].
    - intros B A m Hp _. exists B, A, m. split; [exact Hp|]. split; reflexivity.
  Qed.
  (** two tables have two marks *)
  Lemma marks_apart : NoDup (map (fun m => x_get m "") (srcs name src)).
  Proof.
    apply NoDup_nth_error. intros i j Hi Hj. rewrite map_length in Hi. rewrite !nth_error_map in Hj.
    destruct (nth_error (srcs name src) i) as [m|] eqn:Em; [|apply nth_error_None in Em; lia]. cbn in Hj.
    destruct (nth_error (srcs name src) j) as [m'|] eqn:Em'; [|discriminate]. cbn in Hj. injection Hj as Hj.
    pose proof (mark_src name _ _ _ _ Em) as K. pose proof (mark_src name _ _ _ _ Em') as K'. unfold mark_name in *. rewrite K, K' in Hj. injection Hj as Hj. apply unary_inj in Hj. lia.
  Qed.
End Sections.
