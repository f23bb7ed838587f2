(** * Two conversions of a document, one after the other *)
From Verif Require Import Base M_Geometry M_Xml M_Cell M_Grid M_Table M_Str M_CalsParser M_FormexParser M_FormexRead M_ConvertDoc.
From Verif Require Import S_Cals S_CalsParser S_FormexRead S_Transform S_FormexFinished S_ConvertDoc.
From Verif Require Import P_Cell P_FormexFinished P_Transform P_ConvertFinish P_ConvertFormex.
Open Scope string_scope.
Open Scope list_scope.
Open Scope Z_scope.

(** Trees without nested nodes *)
Lemma flat_intro is n : is n = false -> (forall c, In c (x_children n) -> flat is c) -> flat is n.
Proof.
  intros Hn Hc. split; [congruence|]. intros x m [Hx Ex] Hm. inversion Hx as [? c Hin|? c ? Hin Hin']; subst.
  - exact (proj1 (Hc x Hin) Ex m Hm).
  - exact (proj2 (Hc c Hin) x m (conj Hin' Ex) Hm).
Qed.
Lemma free_flat is n : (forall m, m = n \/ inside n m -> is m = false) -> flat is n.
Proof.
  intros H. split; [rewrite (H n (or_introl eq_refl)); discriminate|]. intros x m [Hx Ex] _. rewrite (H x (or_intror Hx)) in Ex. discriminate Ex.
Qed.

Section Compose.
  Variables is_t is_c is_n is_b : xnode -> bool.
  Variable R1 : list xnode -> list xnode -> xnode -> xnode -> Prop.
  Variable R2 : xnode -> Z -> list xnode -> xnode -> xnode -> Prop.
  Variable names : list string.
  Variable back : xnode -> xnode -> Prop.
  Hypothesis name_c : forall tag attrs text ch tail, ~ In tag names -> is_c (XElem tag attrs text ch tail) = false.
  Hypothesis name_b : forall tag attrs text ch tail, ~ In tag names -> is_b (XElem tag attrs text ch tail) = false.
  Hypothesis pi_c : forall a b c, is_c (XPI a b c) = false.
  Hypothesis comment_c : forall a b, is_c (XComment a b) = false.
  Local Notation conv := (fconverted is_c is_n is_b R2).
  Local Notation children := (fchildren is_c is_n is_b R2).

  (** The nodes without CORPUS are the same. *)
  Lemma nothing_converted : forall n blks d, (forall m, m = n \/ inside n m -> is_c m = false) -> conv blks n d -> d = n.
  Proof.
    induction n as [tag attrs text ch tail IH| |] using xnode_ind'; intros blks d Hn H; inversion H as [? ? ? ? ? ch' ? Ht HL| |]; subst; try reflexivity. f_equal.
    assert (Hc : forall c m, In c ch -> m = c \/ inside c m -> is_c m = false).
    { intros c m Hc [->|Hm]; apply Hn; right; [apply in_child, Hc|apply (in_deep _ c); assumption]. }
    assert (G : forall l parent B done r, Forall (fun n => forall blks d, (forall m, m = n \/ inside n m -> is_c m = false) -> conv blks n d -> d = n) l ->
      (forall c m, In c l -> m = c \/ inside c m -> is_c m = false) -> children parent B done l r -> r = done ++ l).
    { clear. induction l as [|c l IHl]; intros parent B done r IH Hc HL; inversion HL as [|? ? ? ? ? ? ? E _|? ? ? ? ? ? ? E H1 H2]; subst; [symmetry; apply app_nil_r| |]; inversion IH as [|? ? I1 I2]; subst.
      - rewrite (Hc c c) in E by (left; reflexivity || (left; reflexivity)). discriminate E.
      - rewrite (I1 _ _ (fun m => Hc c m (or_introl eq_refl)) H1) in H2. rewrite (IHl _ _ _ _ I2 (fun d m Hd => Hc d m (or_intror Hd)) H2), <- app_assoc. reflexivity. }
    exact (G _ _ _ _ _ IH Hc HL).
  Qed.
  Lemma nothing_among : forall l parent B done r, (forall c m, In c l -> m = c \/ inside c m -> is_c m = false) ->
    children parent B done l r -> r = done ++ l.
  Proof.
    induction l as [|c l IHl]; intros parent B done r Hc HL; inversion HL as [|? ? ? ? ? ? ? E _|? ? ? ? ? ? ? E H1 H2]; subst; [symmetry; apply app_nil_r| |].
    - rewrite (Hc c c) in E by (left; reflexivity || (left; reflexivity)). discriminate E.
    - rewrite (nothing_converted _ _ _ (fun m => Hc c m (or_introl eq_refl)) H1) in H2. rewrite (IHl _ _ _ _ (fun d m Hd => Hc d m (or_intror Hd)) H2), <- app_assoc. reflexivity.
  Qed.
  Lemma among_app : forall l1 l2 parent B done r, (forall c m, In c l1 -> m = c \/ inside c m -> is_c m = false) ->
    children parent B done (l1 ++ l2) r -> children parent B (done ++ l1) l2 r.
  Proof.
    induction l1 as [|c l IHl]; intros l2 parent B done r Hc HL; [rewrite app_nil_r; exact HL|]. cbn [app] in HL.
    inversion HL as [|? ? ? ? ? ? ? E _|? ? ? ? ? ? ? E H1 H2]; subst.
    - rewrite (Hc c c) in E by (left; reflexivity || (left; reflexivity)). discriminate E.
    - rewrite (nothing_converted _ _ _ (fun m => Hc c m (or_introl eq_refl)) H1) in H2. apply (IHl _ _ _ _ _ (fun d m Hd => Hc d m (or_intror Hd))) in H2. rewrite <- app_assoc in H2. exact H2.
  Qed.

  (** The element which takes the place of a table is converted again. *)
  Variable good : xnode -> Prop.
  Definition fine (n : xnode) : Prop := lacks names n /\ forall m, m = n \/ inside n m -> is_t m = true -> good m.
  Lemma fine_inv tag attrs text ch tail : fine (XElem tag attrs text ch tail) -> ~ In tag names /\ Forall fine ch.
  Proof.
    intros [HL HG]. apply lacks_inv in HL as [Hn HL]. split; [exact Hn|]. rewrite Forall_forall in *. intros c Hc. split; [exact (HL c Hc)|].
    intros m Hm. apply HG. right. destruct Hm as [->|Hm]; [apply in_child, Hc|apply (in_deep _ c); assumption].
  Qed.
  Hypothesis again : forall b a n e, is_t n = true -> lacks names n -> good n -> R1 b a n e -> forall tl,
    is_c (x_set_tail e tl) = false /\ forall d, conv 0 (x_set_tail e tl) d -> exists e', d = x_set_tail e' tl /\ back n e'.
  Lemma fine_again b a n e : is_t n = true -> fine n -> R1 b a n e -> forall tl,
    is_c (x_set_tail e tl) = false /\ forall d, conv 0 (x_set_tail e tl) d -> exists e', d = x_set_tail e' tl /\ back n e'.
  Proof. intros Et [HL HG]. apply again; [exact Et|exact HL|]. apply HG; [left; reflexivity|exact Et]. Qed.

  Lemma composed : forall n b a d1 d2, fine n -> converted is_t R1 b a n d1 -> conv 0 d1 d2 -> converted is_t (fun _ _ => back) b a n d2.
  Proof.
    induction n as [tag attrs text ch tail IH| |] using xnode_ind'; intros b a d1 d2 HL H1 H2; inversion H1 as [? ? ? e Et Re|? ? ? ? ? ? ch' ? Et Hl| |]; subst.
    - destruct (proj2 (fine_again _ _ _ _ Et HL Re _) _ H2) as (e' & -> & Hb). apply (cv_table is_t (fun _ _ => back) b a (XElem tag attrs text ch tail)); assumption.
    - apply fine_inv in HL as [Hn HL]. inversion H2 as [? ? ? ? ? ch2 ? E2 Hch| |]; subst. rewrite (name_b _ _ _ _ _ Hn) in Hch. constructor; [exact Et|].
      assert (G : forall l b a done l' r parent, Forall (fun n => forall b a d1 d2, fine n -> converted is_t R1 b a n d1 -> conv 0 d1 d2 -> converted is_t (fun _ _ => back) b a n d2) l ->
        Forall fine l -> converted_list is_t R1 b a l l' -> children parent 0 done l' r -> exists l2, r = done ++ l2 /\ converted_list is_t (fun _ _ => back) b a l l2).
      { clear - again name_c pi_c comment_c. induction l as [|c l IHl]; intros b a done l' r parent IH HL Hl HC; inversion Hl as [|? ? ? c' ? l1 Hc Hl']; subst.
        - inversion HC; subst. exists []. split; [symmetry; apply app_nil_r|constructor].
        - inversion IH as [|? ? I1 I2]; subst. inversion HL as [|? ? L1 L2]; subst.
          assert (Ec : is_c c' = false).
          { inversion Hc as [? ? ? e Et Re|? ? ? ? ? ? ch' ? Et Hx| |]; subst; [apply (fine_again _ _ _ _ Et L1 Re)|apply name_c, (proj1 (fine_inv _ _ _ _ _ L1))|apply pi_c|apply comment_c]. }
          inversion HC as [|? ? ? ? ? ? ? E _|? ? ? ? c2 ? ? E K1 K2]; subst; [congruence|].
          destruct (IHl _ _ _ _ _ _ I2 L2 Hl' K2) as (l2 & -> & HL2). exists (c2 :: l2). split; [rewrite <- app_assoc; reflexivity|]. constructor; [exact (I1 _ _ _ _ L1 Hc K1)|exact HL2]. }
      destruct (G _ _ _ _ _ _ _ IH HL Hl Hch) as (l2 & -> & HL2). exact HL2.
    - destruct (proj2 (fine_again _ _ _ _ Et HL Re _) _ H2) as (e' & -> & Hb). apply (cv_table is_t (fun _ _ => back) b a (XPI target pitext tail)); assumption.
    - inversion H2; subst. constructor. assumption.
    - destruct (proj2 (fine_again _ _ _ _ Et HL Re _) _ H2) as (e' & -> & Hb). apply (cv_table is_t (fun _ _ => back) b a (XComment ctext tail)); assumption.
    - inversion H2; subst. constructor. assumption.
  Qed.

  Hypothesis flat_e : forall b a n e, is_t n = true -> lacks names n -> good n -> R1 b a n e -> forall tl, flat is_c (x_set_tail e tl).
  Lemma converted_flat : forall n b a d, fine n -> converted is_t R1 b a n d -> flat is_c d.
  Proof.
    induction n as [tag attrs text ch tail IH| |] using xnode_ind'; intros b a d HL H; inversion H as [? ? ? e Et Re|? ? ? ? ? ? ch' ? Et Hl| |]; subst;
      try (eapply flat_e; [exact Et|apply HL|apply HL; [left; reflexivity|exact Et]|exact Re]);
      try (apply flat_intro; [first [apply pi_c|apply comment_c]|intros c []]).
    apply fine_inv in HL as [Hn HL]. apply flat_intro; [apply name_c, Hn|]. cbn [x_children]. clear H Et. revert b a ch' Hl.
    induction ch as [|c l IHl]; intros b a ch' Hl; inversion Hl as [|? ? ? c' ? l1 Hc Hl']; subst; [intros x []|]. inversion IH as [|? ? I1 I2]; subst. inversion HL as [|? ? L1 L2]; subst.
    intros x [<-|Hx]; [exact (I1 _ _ _ L1 Hc)|exact (IHl I2 L2 _ _ _ Hl' x Hx)].
  Qed.
End Compose.

(** ** The number of a table is not read. *)
Section Number.
  Variable o : pfmx_opts.
  Definition alike_parent (p p' : option xnode) : Prop :=
    match p, p' with Some n, Some n' => forall name, In name ["TYPE"; "CLASS"; "PAGE.SIZE"] -> fget o n name = fget o n' name | None, None => True | _, _ => False end.
  Lemma event_alike st e p p' b bef s : alike_parent p p' ->
    fparse_event o (MkFEvent st e p b bef) s = fparse_event o (MkFEvent st e p' b bef) s.
  Proof.
    intros H. assert (E1 : parse_tbl_styles o p = parse_tbl_styles o p').
    { destruct p, p'; cbn in H; try contradiction; [|reflexivity]. unfold parse_tbl_styles. rewrite !H by (cbn; tauto). reflexivity. }
    assert (E2 : fmx_cell_styles o e p = fmx_cell_styles o e p').
    { destruct p, p'; cbn in H; try contradiction; [|reflexivity]. unfold fmx_cell_styles. rewrite (H "TYPE") by (cbn; tauto). reflexivity. }
    unfold fparse_event, fon_start, parse_fmx_cell, parse_fmx_corpus, corpus_style_attrs. cbn [fe_elem fe_start fe_parent fe_blks fe_before]. rewrite E1, E2. reflexivity.
  Qed.
  Lemma parse_alike p p' b bef e : alike_parent p p' -> parse_formex o p b bef e = parse_formex o p' b bef e.
  Proof.
    intros H. unfold parse_formex. rewrite (siter_same o (fwalk o p b bef e) (fwalk o p' b bef e)); [reflexivity|].
    destruct e; cbn [fwalk]; (destruct (matching _ _); [|apply same_events]); (constructor; [intros s; apply event_alike; exact H|]);
      (apply Forall2_app; [apply same_events|]); (constructor; [|constructor]); intros s; apply event_alike; exact H.
  Qed.
End Number.
