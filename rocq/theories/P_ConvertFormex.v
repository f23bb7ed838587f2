(** * Proofs: the tables of a Formex document *)
From Verif Require Import Base M_Xml M_FormexRead M_CalsParser M_Transform M_ConvertDoc S_Transform S_ConvertDoc P_Transform P_ConvertDoc.
Open Scope string_scope.
Open Scope list_scope.
Open Scope Z_scope.

Section Proofs.
  Variable o : pfmx_opts.
  Definition conv := option xnode -> Z -> list xnode -> xnode -> result xnode.
  Let is_corpus := is_corpus o.
  Let is_notes := is_notes o.
  Let is_blk := fun n => x_has_tag n (fmx o "BLK").
  (** the conversion, inside a node which has [b] elements BLK around it *)
  Definition deeper (b : Z) (convert : conv) : conv := fun p k bef n => convert p (b + k) bef n.
  Definition own (n : xnode) : Z := if is_blk n then 1 else 0.

  Lemma all_ext (c c' : conv) : (forall p k bef n, c p k bef n = c' p k bef n) -> forall ps doc sh sh', (forall q, In q ps -> sh q = sh' q) ->
    formex_all o c doc sh ps = formex_all o c' doc sh' ps.
  Proof.
    intros E. induction ps as [|p ps IH]; intros doc sh sh' H; [reflexivity|]. cbn [formex_all]. rewrite (H p) by (left; reflexivity).
    assert (E1 : formex_one o c doc (sh' p) = formex_one o c' doc (sh' p)) by (unfold formex_one; destruct (node_at doc (sh' p)); [rewrite E|]; reflexivity).
    rewrite E1. destruct (formex_one o c' doc (sh' p)) as [[d r]|]; cbn [rbind]; [|reflexivity].
    apply IH. intros q Hq. rewrite (H q) by (right; exact Hq). reflexivity.
  Qed.
  Lemma shift_nil p q r : q <> [] -> shift_path p q r <> [].
  Proof.
    intros H. destruct p as [|i [|i' p]], q as [|j q]; try congruence; try exact H; cbn [shift_path].
    - destruct (i <? j)%nat; discriminate.
    - destruct (i =? j)%nat; discriminate.
  Qed.
  Lemma nth_error_mid {A} (pre : list A) x post : nth_error (pre ++ x :: post) (List.length pre) = Some x.
  Proof. induction pre; [reflexivity|exact IHpre]. Qed.

  Variable convert : conv.
  Lemma one_child b tag attrs text tail pre c post p : p <> [] -> let n := XElem tag attrs text (pre ++ c :: post) tail in
    formex_one o (deeper b convert) n (List.length pre :: p) =
    (r <-? formex_one o (deeper (b + own n) convert) c p ;; Ok (XElem tag attrs text (pre ++ fst r :: post) tail, snd r)).
  Proof.
    intros Hp n. unfold formex_one. cbn [node_at]. unfold n at 1. cbn [x_children]. rewrite nth_error_mid. destruct (node_at c p) as [m|]; [|reflexivity].
    assert (El : removelast (List.length pre :: p) = List.length pre :: removelast p) by (destruct p; [congruence|reflexivity]).
    assert (Ea : last (List.length pre :: p) 0%nat = last p 0%nat) by (destruct p; [congruence|reflexivity]). rewrite El, Ea.
    assert (En : node_at n (List.length pre :: removelast p) = node_at c (removelast p)) by (cbn [node_at]; unfold n; cbn [x_children]; rewrite nth_error_mid; reflexivity).
    rewrite En. assert (Eb : blks_above o n (List.length pre :: p) = own n + blks_above o c p).
    { cbn [blks_above]. unfold n at 2. cbn [x_children]. rewrite nth_error_mid. reflexivity. }
    assert (Er : forall x, replace_at n (List.length pre :: removelast p) x = XElem tag attrs text (pre ++ replace_at c (removelast p) x :: post) tail).
    { intros x. unfold n. cbn [replace_at]. rewrite replace_nth_app. reflexivity. }
    rewrite Eb. destruct p as [|p0 p']; [congruence|]. set (p := p0 :: p') in *. unfold deeper. rewrite Z.add_assoc.
    destruct (node_at c (removelast p)) as [m'|]; destruct (convert _ _ _ m); cbn [rbind fst snd]; try reflexivity. rewrite Er. reflexivity.
  Qed.
  Lemma child_then b tag attrs text tail pre post j sh ps : forall c shc qs,
    (forall p, In p ps -> sh (j :: p) = List.length pre :: shc p /\ shc p <> []) ->
    (forall q, In q qs -> exists k' q', sh q = k' :: q' /\ k' <> List.length pre) ->
    let n := XElem tag attrs text (pre ++ c :: post) tail in
    formex_all o (deeper b convert) n sh (map (cons j) ps ++ qs) =
    (c' <-? formex_all o (deeper (b + own n) convert) c shc ps ;; formex_all o (deeper b convert) (XElem tag attrs text (pre ++ c' :: post) tail) sh qs).
  Proof.
    revert sh. induction ps as [|p ps IH]; intros sh c shc qs H1 H2 n; [reflexivity|]. cbn [map app formex_all].
    destruct (H1 p ltac:(left; reflexivity)) as [E1 N1]. rewrite E1. unfold n at 1. rewrite one_child by exact N1. fold n.
    destruct (formex_one o (deeper (b + own n) convert) c (shc p)) as [[c1 r1]|]; cbn [rbind fst snd]; [|reflexivity].
    set (sh1 := fun q => shift_path (List.length pre :: shc p) (sh q) r1).
    assert (S1 : forall p0 q0, shc p0 <> [] -> shift_path (List.length pre :: shc p0) (List.length pre :: q0) r1 = List.length pre :: shift_path (shc p0) q0 r1).
    { intros p0 q0 Hn. destruct (shc p0) as [|x y] eqn:E; [congruence|]. cbn [shift_path]. rewrite Nat.eqb_refl. reflexivity. }
    assert (S2 : forall q, In q qs -> sh1 q = sh q).
    { intros q Hq. destruct (H2 q Hq) as (k' & q' & Eq & Nq). unfold sh1. rewrite Eq. destruct (shc p) as [|x y] eqn:E; [congruence|]. cbn [shift_path].
      destruct (Nat.eqb_spec (List.length pre) k'); [congruence|reflexivity]. }
    etransitivity; [apply (IH sh1 c1 (fun q => shift_path (shc p) (shc q) r1) qs)|].
    - intros q Hq. destruct (H1 q ltac:(right; exact Hq)) as [E2 N2]. split; [|apply shift_nil, N2]. unfold sh1. rewrite E2. apply S1, N1.
    - intros q Hq. rewrite (S2 q Hq). exact (H2 q Hq).
    - assert (EO : own (XElem tag attrs text (pre ++ c1 :: post) tail) = own n) by reflexivity. rewrite EO.
      destruct (formex_all o (deeper (b + own n) convert) c1 _ ps) as [c2|]; cbn [rbind]; [|reflexivity].
      rewrite (all_ext _ _ (fun _ _ _ _ => eq_refl) qs _ sh1 sh S2). reflexivity.
  Qed.

  (** ** The structural version *)
  Fixpoint fk (b : Z) (n : xnode) : result xnode :=
    match n with
    | XElem tag attrs text children tail =>
        l' <-? (fix go (done l : list xnode) : result (list xnode) :=
                  match l with
                  | [] => Ok done
                  | c :: l' =>
                      if is_corpus c then
                        e <-? convert (Some (XElem tag attrs text (done ++ c :: l') tail)) (b + own n) done c ;;
                        go (without_notes o done ++ [x_set_tail e (x_tail c)]) l'
                      else c' <-? fk (b + own n) c ;; go (done ++ [c']) l'
                  end) [] children ;;
        Ok (XElem tag attrs text l' tail)
    | _ => Ok n
    end.
  Definition fks (tag : string) (attrs : dict string) (text tail : option string) (b : Z) : list xnode -> list xnode -> result (list xnode) :=
    fix go (done l : list xnode) : result (list xnode) :=
      match l with
      | [] => Ok done
      | c :: l' =>
          if is_corpus c then
            e <-? convert (Some (XElem tag attrs text (done ++ c :: l') tail)) b done c ;;
            go (without_notes o done ++ [x_set_tail e (x_tail c)]) l'
          else c' <-? fk b c ;; go (done ++ [c']) l'
      end.
  Lemma fk_elem b tag attrs text children tail : let n := XElem tag attrs text children tail in
    fk b n = (l' <-? fks tag attrs text tail (b + own n) [] children ;; Ok (XElem tag attrs text l' tail)).
  Proof. reflexivity. Qed.

  Lemma filter_le {A} (f : A -> bool) l : (List.length (filter f l) <= List.length l)%nat.
  Proof. induction l as [|x l IH]; [reflexivity|]. cbn [filter]. destruct (f x); cbn [List.length]; lia. Qed.
  Lemma without_length l : List.length (without_notes o l) = (List.length l - List.length (filter is_notes l))%nat.
  Proof.
    unfold without_notes. fold is_notes.
    induction l as [|n l IH]; [reflexivity|]. cbn [filter]. pose proof (filter_le is_notes l).
    destruct (is_notes n); cbn [negb List.length]; rewrite IH; lia.
  Qed.
  Lemma one_table b tag attrs text tail pre c post : let n := XElem tag attrs text (pre ++ c :: post) tail in
    formex_one o (deeper b convert) n [List.length pre] =
    (e <-? convert (Some n) (b + own n) pre c ;;
     Ok (XElem tag attrs text (without_notes o pre ++ x_set_tail e (x_tail c) :: post) tail, List.length (filter is_notes pre))).
  Proof.
    intros n. unfold formex_one. cbn [node_at]. unfold n at 1. cbn [x_children]. rewrite nth_error_mid. cbn [removelast node_at last x_children].
    assert (Eb : blks_above o n [List.length pre] = own n).
    { cbn [blks_above]. unfold n at 2. cbn [x_children]. rewrite nth_error_mid. unfold own, is_blk. rewrite Z.add_0_r. reflexivity. }
    rewrite Eb. assert (Ef : firstn (List.length pre) (x_children n) = pre) by (unfold n; cbn [x_children]; rewrite firstn_app, Nat.sub_diag, firstn_all; apply app_nil_r).
    rewrite Ef. unfold deeper. destruct (convert (Some n) (b + own n) pre c) as [e|]; cbn [rbind]; [|reflexivity].
    cbn [replace_at]. unfold n at 1. cbn [put_table]. rewrite firstn_app, Nat.sub_diag, firstn_all, skipn_mid. cbn [firstn]. rewrite app_nil_r. reflexivity.
  Qed.

  Lemma all_fk n : is_corpus n = false -> flat is_corpus n -> forall b, formex_all o (deeper b convert) n (fun q => q) (find_all is_corpus n) = fk b n.
  Proof.
    induction n as [tag attrs text children tail IH| |] using xnode_ind'; intros Hr Hf b.
    - rewrite find_elem, Hr, fk_elem. cbn [app].
      assert (Hc : forall c, In c children -> flat is_corpus c) by (intros c Hc; apply (flat_child is_corpus (XElem tag attrs text children tail)); assumption).
      set (B := b + own (XElem tag attrs text children tail)).
      assert (G : forall l done j sh, (forall c, In c l -> flat is_corpus c) ->
        Forall (fun c => is_corpus c = false -> flat is_corpus c -> forall b, formex_all o (deeper b convert) c (fun q => q) (find_all is_corpus c) = fk b c) l ->
        (forall d q, sh ((j + d)%nat :: q) = (List.length done + d)%nat :: q) ->
        formex_all o (deeper b convert) (XElem tag attrs text (done ++ l) tail) sh (finds is_corpus j l) =
        (l' <-? fks tag attrs text tail B done l ;; Ok (XElem tag attrs text l' tail))).
      { clear IH Hr Hf Hc. assert (HB : forall ch, b + own (XElem tag attrs text ch tail) = B) by reflexivity. clearbody B.
        induction l as [|c l IHl]; intros done j sh Hc IH Hs; [cbn; rewrite app_nil_r; reflexivity|]. inversion IH as [|? ? I1 I2]; subst. cbn [finds].
        assert (FP : forall p, In p (finds is_corpus (S j) l) -> exists d q, p = (j + S d)%nat :: q).
        { clear. assert (K : forall l0 j0 p, In p (finds is_corpus (S j0) l0) -> exists d q, p = (j0 + S d)%nat :: q).
          { induction l0 as [|x l0 IHl]; intros j0 p Hp; [destruct Hp|]. cbn [finds] in Hp. apply in_app_or in Hp as [Hp|Hp].
            - apply in_map_iff in Hp as (q & <- & _). exists 0%nat, q. f_equal. lia.
            - destruct (IHl (S j0) p Hp) as (d & q & ->). exists (S d), q. f_equal. lia. }
          apply K. }
        destruct (is_corpus c) eqn:Ec.
        - assert (EF : find_all is_corpus c = [[]]).
          { pose proof (Hc c ltac:(left; reflexivity)) as [F1 _]. specialize (F1 Ec). destruct c; cbn [find_all] in *; rewrite Ec; [|reflexivity..].
            change ((if is_corpus (XElem tag0 attrs0 text0 children0 tail0) then [[]] else []) ++ finds is_corpus 0 children0 = [[]]) || idtac.
            cbn [app]. f_equal. apply (finds_none is_corpus). intros x Hx. split; [apply F1, in_child, Hx|]. intros m Hm. apply F1. apply (in_deep _ x); assumption. }
          rewrite EF. cbn [map app formex_all fks]. rewrite Ec.
          assert (E0 : sh [j] = [List.length done]) by (pose proof (Hs 0%nat []) as K; rewrite !Nat.add_0_r in K; exact K). rewrite E0, one_table, HB.
          destruct (convert _ B done c) as [e|]; cbn [rbind fst snd]; [|reflexivity].
          replace (without_notes o done ++ x_set_tail e (x_tail c) :: l) with ((without_notes o done ++ [x_set_tail e (x_tail c)]) ++ l) by (rewrite <- app_assoc; reflexivity).
          etransitivity; [apply (IHl (without_notes o done ++ [x_set_tail e (x_tail c)]) (S j) (fun q => shift_path [List.length done] (sh q) (List.length (filter is_notes done))))|].
          + intros x Hx. apply Hc. right. exact Hx.
          + exact I2.
          + intros d q. replace (S j + d)%nat with (j + S d)%nat by lia. rewrite Hs. cbn [shift_path].
            destruct (Nat.ltb_spec (List.length done) (List.length done + S d)); [|lia].
            rewrite app_length, without_length. cbn [List.length]. pose proof (filter_le is_notes done). f_equal. lia.
          + reflexivity.
        - etransitivity; [apply (child_then b tag attrs text tail done l j sh (find_all is_corpus c) c (fun q => q) (finds is_corpus (S j) l))|].
          + intros p Hp. split; [pose proof (Hs 0%nat p) as K; rewrite !Nat.add_0_r in K; exact K|].
            destruct c; cbn [find_all] in Hp; rewrite Ec in Hp; try (destruct Hp; fail). exact (finds_nonempty is_corpus _ _ _ Hp).
          + intros q Hq. destruct (FP q Hq) as (d & q' & ->). rewrite Hs. eexists. eexists. split; [reflexivity|]. lia.
          + rewrite HB, (I1 eq_refl (Hc c ltac:(left; reflexivity))). cbn [fks]. rewrite Ec. fold (fks tag attrs text tail B).
            destruct (fk B c) as [c'|]; cbn [rbind]; [|reflexivity].
            replace (done ++ c' :: l) with ((done ++ [c']) ++ l) by (rewrite <- app_assoc; reflexivity).
            apply (IHl (done ++ [c']) (S j) sh); [intros x Hx; apply Hc; right; exact Hx|exact I2|].
            intros d q. replace (S j + d)%nat with (j + S d)%nat by lia. rewrite Hs, app_length. cbn [List.length]. f_equal. lia. }
      apply (G children [] 0%nat (fun q => q) Hc IH). intros d q. reflexivity.
    - cbn [find_all]. rewrite Hr. reflexivity.
    - cbn [find_all]. rewrite Hr. reflexivity.
  Qed.

  (** ** The relation *)
  (** the conversion does not look at the children of the parent *)
  Hypothesis convert_parent : forall tag attrs text ch ch' tail k bef n,
    convert (Some (XElem tag attrs text ch tail)) k bef n = convert (Some (XElem tag attrs text ch' tail)) k bef n.
  Variable R : xnode -> Z -> list xnode -> xnode -> xnode -> Prop.
  Hypothesis convert_R : forall parent k bef n e, convert (Some parent) k bef n = Ok e <-> R parent k bef n e.

  Lemma fk_converted n : is_corpus n = false -> forall b n', fk b n = Ok n' <-> fconverted is_corpus is_notes is_blk R b n n'.
  Proof.
    induction n as [tag attrs text children tail IH| |] using xnode_ind'; intros Hr b n'.
    - rewrite fk_elem.
      assert (EB : b + own (XElem tag attrs text children tail) = (if is_blk (XElem tag attrs text children tail) then b + 1 else b)).
      { unfold own. destruct (is_blk _); lia. }
      rewrite EB. set (B := if is_blk _ then b + 1 else b).
      assert (G : forall l done r, Forall (fun c => is_corpus c = false -> forall b n', fk b c = Ok n' <-> fconverted is_corpus is_notes is_blk R b c n') l ->
        (fks tag attrs text tail B done l = Ok r <-> fchildren is_corpus is_notes is_blk R (XElem tag attrs text children tail) B done l r)).
      { clear IH. clearbody B. clear EB. induction l as [|c l IHl]; intros done r IH.
        - cbn [fks]. split; [intros [= <-]; constructor|]. intros H. inversion H. reflexivity.
        - inversion IH as [|? ? I1 I2]; subst. cbn [fks]. fold (fks tag attrs text tail B). destruct (is_corpus c) eqn:Ec.
          + split.
            * intros H. destruct (convert _ B done c) as [e|] eqn:Ee; cbn [rbind] in H; [|discriminate].
              apply (fch_table _ _ _ _ _ _ _ _ e); [exact Ec|apply convert_R; rewrite (convert_parent _ _ _ _ (done ++ c :: l)); exact Ee|]. apply (IHl _ _ I2). exact H.
            * intros H. inversion H as [|? ? ? ? e ? ? E1 E2 E3|? ? ? ? ? ? ? E1]; subst; [|congruence]. apply convert_R in E2.
              rewrite (convert_parent _ _ _ _ children), E2. cbn [rbind]. apply (IHl _ _ I2). exact E3.
          + split.
            * intros H. destruct (fk B c) as [c'|] eqn:Ee; cbn [rbind] in H; [|discriminate].
              apply (fch_other _ _ _ _ _ _ _ _ c'); [exact Ec|apply (I1 eq_refl); exact Ee|]. apply (IHl _ _ I2). exact H.
            * intros H. inversion H as [|? ? ? ? ? ? ? E1|? ? ? ? c' ? ? E1 E2 E3]; subst; [congruence|].
              apply (I1 eq_refl) in E2. rewrite E2. cbn [rbind]. apply (IHl _ _ I2). exact E3. }
      split.
      + intros H. destruct (fks tag attrs text tail B [] children) as [l'|] eqn:El; cbn [rbind] in H; [|discriminate]. injection H as <-.
        constructor; [exact Hr|]. apply (G _ _ _ IH). exact El.
      + intros H. inversion H as [? ? ? ? ? children' ? ? H8| |]; subst. rewrite (proj2 (G children [] children' IH) H8). reflexivity.
    - cbn [fk]. split; [intros [= <-]; constructor|]. intros H. inversion H. reflexivity.
    - cbn [fk]. split; [intros [= <-]; constructor|]. intros H. inversion H. reflexivity.
  Qed.
  Lemma formex_converted doc doc' : is_corpus doc = false -> not_nested is_corpus doc ->
    (formex_tables o convert doc = Ok doc' <-> fconverted is_corpus is_notes is_blk R 0 doc doc').
  Proof.
    intros Hr Hn. rewrite <- fk_converted by exact Hr. rewrite <- all_fk; [|exact Hr|].
    - unfold formex_tables. rewrite (all_ext convert (deeper 0 convert)) with (sh' := fun q => q); [reflexivity| |reflexivity].
      intros. unfold deeper. reflexivity.
    - split; [|exact Hn]. intros H. rewrite Hr in H. discriminate H.
  Qed.

  (** ** Failures *)
  Lemma fk_error n x : is_corpus n = false -> forall b, fk b n = Err x ->
    exists parent k bef m, inside n m /\ is_corpus m = true /\ convert (Some parent) k bef m = Err x.
  Proof.
    induction n as [tag attrs text children tail IH| |] using xnode_ind'; intros Hr b H; [|discriminate H..].
    rewrite fk_elem in H. set (B := b + own _) in H. clearbody B.
    assert (G : forall l done, (forall c, In c l -> In c children) -> fks tag attrs text tail B done l = Err x ->
      exists parent k bef m, inside (XElem tag attrs text children tail) m /\ is_corpus m = true /\ convert (Some parent) k bef m = Err x).
    { induction l as [|c l IHl]; intros done Hin H1; [discriminate H1|]. cbn [fks] in H1. fold (fks tag attrs text tail B) in H1.
      assert (Hc : In c children) by (apply Hin; left; reflexivity). assert (Hl : forall c, In c l -> In c children) by (intros y Hy; apply Hin; right; exact Hy).
      destruct (is_corpus c) eqn:Ec.
      - destruct (convert _ B done c) as [e|y] eqn:Ee; cbn [rbind] in H1; [exact (IHl _ Hl H1)|]. injection H1 as ->.
        do 4 eexists. split; [apply in_child; exact Hc|]. split; [exact Ec|exact Ee].
      - destruct (fk B c) as [c'|y] eqn:Ee; cbn [rbind] in H1; [exact (IHl _ Hl H1)|]. injection H1 as ->.
        rewrite Forall_forall in IH. destruct (IH c Hc Ec B Ee) as (p & k & bef & m & H2 & H3 & H4).
        exists p, k, bef, m. split; [apply (in_deep _ c); [exact Hc|exact H2]|]. split; assumption. }
    destruct (fks tag attrs text tail B [] children) as [l'|y] eqn:El; cbn [rbind] in H; [discriminate H|]. injection H as ->. apply (G children []); [tauto|exact El].
  Qed.
  Lemma formex_error doc x : is_corpus doc = false -> not_nested is_corpus doc -> formex_tables o convert doc = Err x ->
    exists parent k bef m, inside doc m /\ is_corpus m = true /\ convert (Some parent) k bef m = Err x.
  Proof.
    intros Hr Hn H. apply (fk_error doc x Hr 0). rewrite <- all_fk; [|exact Hr|split; [|exact Hn]; intros H1; rewrite Hr in H1; discriminate H1].
    rewrite <- H. unfold formex_tables. apply all_ext; [|reflexivity]. intros. reflexivity.
  Qed.
End Proofs.

(** ** What is read of the parent *)
Section Parent.
  Variable o : pfmx_opts.
  Definition same_parent (p p' : option xnode) : Prop :=
    match p, p' with Some n, Some n' => x_attrs n = x_attrs n' | None, None => True | _, _ => False end.
  Lemma event_parent st e p p' b bef s : same_parent p p' ->
    fparse_event o (MkFEvent st e p b bef) s = fparse_event o (MkFEvent st e p' b bef) s.
  Proof.
    intros H. assert (E1 : parse_tbl_styles o p = parse_tbl_styles o p').
    { destruct p, p'; cbn in H; try contradiction; [|reflexivity]. unfold parse_tbl_styles, fget, x_get. rewrite H. reflexivity. }
    assert (E2 : fmx_cell_styles o e p = fmx_cell_styles o e p').
    { destruct p, p'; cbn in H; try contradiction; [|reflexivity]. unfold fmx_cell_styles, fget, x_get. rewrite H. reflexivity. }
    unfold fparse_event, fon_start, parse_fmx_cell, parse_fmx_corpus, corpus_style_attrs. cbn [fe_elem fe_start fe_parent fe_blks fe_before]. rewrite E1, E2. reflexivity.
  Qed.
  Lemma siter_same l l' : Forall2 (fun a b => forall s, fparse_event o a s = fparse_event o b s) l l' ->
    forall s, siter (fparse_event o) l s = siter (fparse_event o) l' s.
  Proof.
    induction 1 as [|a b l l' E _ IH]; intros s; [reflexivity|]. cbn [siter]. unfold sbind. rewrite E.
    destruct (fparse_event o b s) as [s' [x|]]; [apply IH|reflexivity].
  Qed.
  Lemma same_events l : Forall2 (fun a b => forall s, fparse_event o a s = fparse_event o b s) l l.
  Proof. induction l; constructor; [reflexivity|assumption]. Qed.
  Lemma parse_parent p p' b bef e : same_parent p p' -> parse_formex o p b bef e = parse_formex o p' b bef e.
  Proof.
    intros H. unfold parse_formex. rewrite (siter_same (fwalk o p b bef e) (fwalk o p' b bef e)); [reflexivity|].
    destruct e; cbn [fwalk]; (destruct (matching _ _); [|apply same_events]); (constructor; [intros s; apply event_parent; exact H|]);
      (apply Forall2_app; [apply same_events|]); (constructor; [|constructor]); intros s; apply event_parent; exact H.
  Qed.
End Parent.
