(** * Proofs about the conversion of a document *)
From Verif Require Import Base M_Xml M_Transform M_ConvertDoc S_Transform P_Transform S_ConvertDoc.
Open Scope list_scope.
Open Scope Z_scope.

(** ** Counting and finding *)
Section Nodes.
  Variable p : xnode -> bool.
  Definition numb (l : list xnode) : nat := List.length (filter p (flat_map tree_nodes l)).
  Lemma numb_app l l' : numb (l ++ l') = (numb l + numb l')%nat.
  Proof. unfold numb. rewrite flat_map_app, filter_app, app_length. reflexivity. Qed.
  Lemma numb_cons n l : numb (n :: l) = ((if p n then 1 else 0) + numb (x_children n) + numb l)%nat.
  Proof.
    unfold numb. cbn [flat_map]. rewrite filter_app, app_length.
    destruct n; cbn [tree_nodes filter x_children flat_map]; destruct (p _); cbn [List.length]; lia.
  Qed.
  Lemma counted_numb l k : counted p l k -> k = Z.of_nat (numb l).
  Proof.
    induction 1 as [|n l k Hp H IH|n l k Hp H IH]; [reflexivity| |]; rewrite numb_cons, Hp; rewrite numb_app in IH; lia.
  Qed.
  Fixpoint size (n : xnode) : nat := S (match n with XElem _ _ _ l _ => fold_right (fun c s => size c + s)%nat 0%nat l | _ => 0%nat end).
  Definition sizes (l : list xnode) : nat := fold_right (fun c s => size c + s)%nat 0%nat l.
  Lemma sizes_app l l' : sizes (l ++ l') = (sizes l + sizes l')%nat.
  Proof. induction l as [|c l IH]; [reflexivity|]. change (size c + sizes (l ++ l') = size c + sizes l + sizes l')%nat. rewrite IH. lia. Qed.
  Lemma sizes_cons c l : sizes (c :: l) = (size c + sizes l)%nat.
  Proof. reflexivity. Qed.
  Lemma size_eq n : size n = S (sizes (x_children n)).
  Proof. destruct n; reflexivity. Qed.
  Lemma counted_total l : counted p l (Z.of_nat (numb l)).
  Proof.
    remember (sizes l) as s eqn:Es. revert l Es. induction s as [s IH] using lt_wf_ind. intros [|n l] Es; [constructor|].
    assert (HC : counted p (x_children n ++ l) (Z.of_nat (numb (x_children n ++ l)))).
    { apply (IH (sizes (x_children n ++ l))); [|reflexivity]. rewrite sizes_app. rewrite sizes_cons, size_eq in Es. lia. }
    rewrite numb_cons. rewrite numb_app in HC. destruct (p n) eqn:Ep.
    - replace (Z.of_nat (1 + numb (x_children n) + numb l)) with (Z.of_nat (numb (x_children n) + numb l) + 1) by lia.
      apply counted_here; assumption.
    - apply counted_next; assumption.
  Qed.
  Lemma first_of_find l r : first_of p l r <-> find p (flat_map tree_nodes l) = r.
  Proof.
    assert (HS : forall n l, p n = false -> find p (flat_map tree_nodes (n :: l)) = find p (flat_map tree_nodes (x_children n ++ l))).
    { intros n l0 Ep. rewrite flat_map_app. destruct n; cbn [flat_map tree_nodes x_children app find]; rewrite Ep; reflexivity. }
    split.
    - induction 1 as [|n l Hp|n l r Hp H IH]; [reflexivity| |].
      + destruct n; cbn [flat_map tree_nodes app find]; rewrite Hp; reflexivity.
      + rewrite HS by exact Hp. exact IH.
    - remember (sizes l) as s eqn:Es. revert l Es. induction s as [s IH] using lt_wf_ind. intros [|n l] Es E; [cbn in E; subst; constructor|].
      destruct (p n) eqn:Ep.
      + destruct n; cbn [flat_map tree_nodes app find] in E; rewrite Ep in E; subst; constructor; exact Ep.
      + rewrite HS in E by exact Ep. apply first_next; [exact Ep|]. apply (IH (sizes (x_children n ++ l))); [|reflexivity|exact E].
        rewrite sizes_app. rewrite sizes_cons, size_eq in Es. lia.
  Qed.
  Lemma find_all_numb n : List.length (find_all p n) = numb [n].
  Proof.
    induction n as [tag attrs text children tail IH| |] using xnode_ind'.
    - rewrite numb_cons. cbn [x_children]. rewrite find_elem, app_length. change (numb []) with 0%nat.
      assert (G : forall i, List.length (finds p i children) = numb children).
      { induction IH as [|c l Hc Hl IHl]; intros i; [reflexivity|]. cbn [finds]. rewrite app_length, map_length, IHl.
        change (c :: l) with ([c] ++ l). rewrite numb_app. f_equal. exact Hc. }
      rewrite G. destruct (p _); cbn; lia.
    - cbn. unfold numb. cbn. destruct (p _); reflexivity.
    - cbn. unfold numb. cbn. destruct (p _); reflexivity.
  Qed.
End Nodes.

Section Proofs.
  Variable is_table : xnode -> bool.
  Variable convert : list xnode -> Z -> xnode -> result xnode.

  (** the loop, the trees [a] being after the document and the root not being a special case *)
  Definition done (a : list xnode) (doc : xnode) (k : Z) (p : path) : result xnode :=
    match node_at doc p with
    | None => Err EValueError
    | Some node => e <-? convert (after_at doc p ++ a) k node ;; Ok (replace_at doc p (x_set_tail e (x_tail node)))
    end.
  Fixpoint dall (a : list xnode) (doc : xnode) (k : Z) (ps : list path) : result xnode :=
    match ps with
    | [] => Ok doc
    | p :: ps' => doc' <-? done a doc k p ;; dall a doc' (k + 1) ps'
    end.

  Lemma done_one doc k p : p <> [] -> doc_one convert doc k p = done [] doc k p.
  Proof.
    intros Hp. unfold doc_one, done. destruct (node_at doc p); [|reflexivity]. rewrite app_nil_r.
    destruct (convert _ _ _); cbn; [|reflexivity]. destruct p; [congruence|reflexivity].
  Qed.
  Lemma dall_all ps : (forall p, In p ps -> p <> []) -> forall doc k, doc_all convert doc k ps = dall [] doc k ps.
  Proof.
    induction ps as [|p ps IH]; intros Hp doc k; [reflexivity|]. cbn [doc_all dall].
    rewrite done_one by (apply Hp; left; reflexivity).
    destruct (done [] doc k p); cbn; [|reflexivity]. apply IH. intros q Hq. apply Hp. right. exact Hq.
  Qed.

  (** structural version *)
  Definition numbered (n : xnode) : Z := Z.of_nat (List.length (find_all is_table n)).
  Fixpoint rk (a : list xnode) (k : Z) (n : xnode) : result xnode :=
    if is_table n then e <-? convert a k n ;; Ok (x_set_tail e (x_tail n))
    else match n with
         | XElem tag attrs text children tail =>
             l' <-? (fix go (k : Z) (l : list xnode) : result (list xnode) :=
                       match l with
                       | [] => Ok []
                       | c :: l' => c' <-? rk (l' ++ a) k c ;; r <-? go (k + numbered c) l' ;; Ok (c' :: r)
                       end) k children ;;
             Ok (XElem tag attrs text l' tail)
         | _ => Ok n
         end.
  Definition rks (a : list xnode) : Z -> list xnode -> result (list xnode) :=
    fix go (k : Z) (l : list xnode) : result (list xnode) :=
      match l with
      | [] => Ok []
      | c :: l' => c' <-? rk (l' ++ a) k c ;; r <-? go (k + numbered c) l' ;; Ok (c' :: r)
      end.
  Lemma rks_cons a k c l : rks a k (c :: l) = c' <-? rk (l ++ a) k c ;; r <-? rks a (k + numbered c) l ;; Ok (c' :: r).
  Proof. reflexivity. Qed.
  Lemma rk_elem a k tag attrs text children tail :
    rk a k (XElem tag attrs text children tail) =
    if is_table (XElem tag attrs text children tail)
    then e <-? convert a k (XElem tag attrs text children tail) ;; Ok (x_set_tail e tail)
    else l' <-? rks a k children ;; Ok (XElem tag attrs text l' tail).
  Proof. reflexivity. Qed.

  Lemma dall_app a ps qs : forall doc k, dall a doc k (ps ++ qs) = d <-? dall a doc k ps ;; dall a d (k + Z.of_nat (List.length ps)) qs.
  Proof.
    induction ps as [|p ps IH]; intros doc k; cbn [app dall List.length].
    - cbn. rewrite Z.add_0_r. reflexivity.
    - destruct (done a doc k p) as [x|]; cbn [rbind]; [|reflexivity]. rewrite IH. destruct (dall a x (k + 1) ps); cbn; [|reflexivity].
      f_equal. lia.
  Qed.
  Lemma skipn_mid {A} (pre : list A) x post : skipn (S (List.length pre)) (pre ++ x :: post) = post.
  Proof. induction pre; [reflexivity|]. exact IHpre. Qed.
  Lemma dall_child a tag attrs text tail pre post ps : forall c k,
    dall a (XElem tag attrs text (pre ++ c :: post) tail) k (map (cons (List.length pre)) ps) =
    c' <-? dall (post ++ a) c k ps ;; Ok (XElem tag attrs text (pre ++ c' :: post) tail).
  Proof.
    induction ps as [|p ps IH]; intros c k; [reflexivity|].
    cbn [map dall].
    assert (E : done a (XElem tag attrs text (pre ++ c :: post) tail) k (List.length pre :: p) =
                c' <-? done (post ++ a) c k p ;; Ok (XElem tag attrs text (pre ++ c' :: post) tail)).
    { unfold done. cbn [node_at x_children after_at]. rewrite nth_error_mid, skipn_mid.
      destruct (node_at c p) as [m|]; [|reflexivity]. rewrite <- app_assoc.
      destruct (convert _ _ m) as [e|]; cbn; [|reflexivity]. rewrite replace_nth_app. reflexivity. }
    rewrite E. destruct (done (post ++ a) c k p) as [c1|]; cbn [rbind]; [|reflexivity]. apply IH.
  Qed.

  Lemma dall_rk n : flat is_table n -> forall a k, dall a n k (find_all is_table n) = rk a k n.
  Proof.
    induction n as [tag attrs text children tail IH| |] using xnode_ind'; intros Hf a k.
    - rewrite find_elem, rk_elem. destruct (is_table (XElem tag attrs text children tail)) eqn:Et.
      + rewrite finds_none.
        2:{ intros c Hc. destruct Hf as [H1 H2]. split; [apply (H1 Et); apply in_child; exact Hc|].
            intros m Hm. apply (H1 Et). apply (in_deep _ c); assumption. }
        cbn [app dall]. unfold done. cbn [node_at after_at app]. destruct (convert _ _ _); reflexivity.
      + cbn [app].
        assert (Hc : forall c, In c children -> flat is_table c).
        { intros c Hc. apply (flat_child is_table (XElem tag attrs text children tail)); assumption. }
        clear Hf Et.
        assert (G : forall l pre k, (forall c, In c l -> flat is_table c) ->
                  Forall (fun c => flat is_table c -> forall a k, dall a c k (find_all is_table c) = rk a k c) l ->
                  dall a (XElem tag attrs text (pre ++ l) tail) k (finds is_table (List.length pre) l) =
                  l' <-? rks a k l ;; Ok (XElem tag attrs text (pre ++ l') tail)).
        { clear. induction l as [|c l IHl]; intros pre k Hc IH; [cbn; reflexivity|].
          inversion IH as [|? ? H1 H2]; subst. cbn [finds]. rewrite rks_cons.
          rewrite dall_app, dall_child, (H1 (Hc c (or_introl eq_refl))), map_length.
          destruct (rk (l ++ a) k c) as [c'|]; cbn [rbind]; [|reflexivity].
          replace (pre ++ c' :: l) with ((pre ++ [c']) ++ l) by (rewrite <- app_assoc; reflexivity).
          replace (S (List.length pre)) with (List.length (pre ++ [c'])) by (rewrite app_length; cbn; lia).
          rewrite IHl; [|intros x Hx; apply Hc; right; exact Hx|exact H2]. unfold numbered.
          destruct (rks a _ l); cbn; [|reflexivity]. rewrite <- app_assoc. reflexivity. }
        apply (G children [] k Hc IH).
    - cbn. rewrite app_nil_r. destruct (is_table _); cbn; [|reflexivity]. unfold done; cbn. destruct (convert _ _ _); reflexivity.
    - cbn. rewrite app_nil_r. destruct (is_table _); cbn; [|reflexivity]. unfold done; cbn. destruct (convert _ _ _); reflexivity.
  Qed.

  Lemma doc_rk doc : is_table doc = false -> not_nested is_table doc -> doc_tables is_table convert doc = rk [] 1 doc.
  Proof.
    intros Hr Hn. unfold doc_tables. rewrite dall_all.
    - apply dall_rk. split; [congruence|exact Hn].
    - intros p Hp. destruct doc.
      + rewrite find_elem, Hr in Hp. exact (finds_nonempty _ _ _ _ Hp).
      + cbn in Hp. rewrite Hr in Hp. destruct Hp.
      + cbn in Hp. rewrite Hr in Hp. destruct Hp.
  Qed.

  (** ** The structural version is the relation *)
  Definition by_number (before after : list xnode) (n e : xnode) : Prop :=
    exists k, counted is_table before k /\ convert after (k + 1) n = Ok e.
  Lemma by_number_eq b a n e : by_number b a n e <-> convert a (Z.of_nat (numb is_table b) + 1) n = Ok e.
  Proof.
    split.
    - intros (k & Hk & H). apply counted_numb in Hk. subst. exact H.
    - intros H. eexists. split; [apply counted_total|exact H].
  Qed.
  Lemma numbered_eq c : numbered c = Z.of_nat (numb is_table [c]).
  Proof. unfold numbered. rewrite find_all_numb. reflexivity. Qed.

  Lemma rk_converted n : forall b a n', rk a (Z.of_nat (numb is_table b) + 1) n = Ok n' <-> converted is_table by_number b a n n'.
  Proof.
    induction n as [tag attrs text children tail IH| |] using xnode_ind'; intros b a n'.
    - rewrite rk_elem. destruct (is_table (XElem tag attrs text children tail)) eqn:Et.
      + split.
        * destruct (convert _ _ _) as [e|] eqn:Ec; cbn; [|discriminate]. intros [= <-].
          apply (cv_table is_table by_number b a (XElem tag attrs text children tail) e Et). apply by_number_eq. exact Ec.
        * intros H. inversion H; subst; [|congruence]. match goal with HR : by_number _ _ _ _ |- _ => apply by_number_eq in HR; rewrite HR end. reflexivity.
      + assert (G : forall b l', rks a (Z.of_nat (numb is_table b) + 1) children = Ok l' <-> converted_list is_table by_number b a children l').
        { clear Et b. induction children as [|c l IHl]; intros b l'.
          - split; [intros [= <-]; constructor|intros H; inversion H; reflexivity].
          - rewrite rks_cons. inversion IH as [|? ? H1 H2]; subst.
            assert (EK : Z.of_nat (numb is_table b) + 1 + numbered c = Z.of_nat (numb is_table (b ++ [c])) + 1).
            { rewrite numbered_eq, numb_app. lia. }
            rewrite EK. split.
            + destruct (rk _ _ c) as [c'|] eqn:E1; cbn; [|discriminate].
              destruct (rks _ _ l) as [r|] eqn:E2; cbn; [|discriminate]. intros [= <-].
              constructor; [apply H1; exact E1|apply (IHl H2); exact E2].
            + intros H. inversion H; subst. match goal with HC : converted _ _ _ _ _ _ |- _ => apply H1 in HC; rewrite HC end. cbn.
              match goal with HC : converted_list _ _ (b ++ [c]) _ _ _ |- _ => apply (IHl H2) in HC; rewrite HC end. reflexivity. }
        split.
        * destruct (rks _ _ children) as [l'|] eqn:E; cbn; [|discriminate]. intros [= <-].
          constructor; [exact Et|]. apply G. exact E.
        * intros H. inversion H; subst; [congruence|]. match goal with HC : converted_list _ _ _ _ _ _ |- _ => apply G in HC; rewrite HC end. reflexivity.
    - cbn [rk]. destruct (is_table _) eqn:Et.
      + split.
        * destruct (convert _ _ _) as [e|] eqn:Ec; cbn; [|discriminate]. intros [= <-].
          apply (cv_table is_table by_number b a (XPI target pitext tail) e Et). apply by_number_eq. exact Ec.
        * intros H. inversion H; subst; [|congruence]. match goal with HR : by_number _ _ _ _ |- _ => apply by_number_eq in HR; rewrite HR end. reflexivity.
      + split; [intros [= <-]; constructor; exact Et|]. intros H. inversion H; subst; [congruence|reflexivity].
    - cbn [rk]. destruct (is_table _) eqn:Et.
      + split.
        * destruct (convert _ _ _) as [e|] eqn:Ec; cbn; [|discriminate]. intros [= <-].
          apply (cv_table is_table by_number b a (XComment ctext tail) e Et). apply by_number_eq. exact Ec.
        * intros H. inversion H; subst; [|congruence]. match goal with HR : by_number _ _ _ _ |- _ => apply by_number_eq in HR; rewrite HR end. reflexivity.
      + split; [intros [= <-]; constructor; exact Et|]. intros H. inversion H; subst; [congruence|reflexivity].
  Qed.

  Theorem doc_converted doc doc' : is_table doc = false -> not_nested is_table doc ->
    (doc_tables is_table convert doc = Ok doc' <-> converted is_table by_number [] [] doc doc').
  Proof. intros Hr Hn. rewrite doc_rk by assumption. apply (rk_converted doc [] [] doc'). Qed.

  (** ** Failures *)
  Lemma rk_err n x : forall b a, rk a (Z.of_nat (numb is_table b) + 1) n = Err x ->
    exists b' a' m, place b a n b' a' m /\ is_table m = true /\ convert a' (Z.of_nat (numb is_table b') + 1) m = Err x.
  Proof.
    induction n as [tag attrs text children tail IH| |] using xnode_ind'; intros b a.
    - rewrite rk_elem. destruct (is_table (XElem tag attrs text children tail)) eqn:Et.
      + destruct (convert _ _ _) as [|y] eqn:Ec; cbn; [discriminate|]. intros [= ->]. do 3 eexists. split; [apply place_here|]. split; [exact Et|exact Ec].
      + intros H. assert (G : rks a (Z.of_nat (numb is_table b) + 1) children = Err x) by (destruct (rks _ _ children); cbn in H; congruence).
        assert (K : forall l b0, rks a (Z.of_nat (numb is_table b0) + 1) l = Err x ->
                    exists l1 c l2, l = l1 ++ c :: l2 /\ rk (l2 ++ a) (Z.of_nat (numb is_table (b0 ++ l1)) + 1) c = Err x).
        { clear. induction l as [|c l IHl]; intros b0 G; [discriminate|rewrite rks_cons in G].
          destruct (rk _ _ c) as [c'|y] eqn:E; cbn in G.
          - assert (EK : Z.of_nat (numb is_table b0) + 1 + numbered c = Z.of_nat (numb is_table (b0 ++ [c])) + 1) by (rewrite numbered_eq, numb_app; lia).
            rewrite EK in G. destruct (rks _ _ l) eqn:E2; cbn in G; [discriminate|]. injection G as ->.
            destruct (IHl _ E2) as (l1 & d & l2 & -> & B). exists (c :: l1), d, l2. split; [reflexivity|]. rewrite <- app_assoc in B. exact B.
          - injection G as ->. exists [], c, l. split; [reflexivity|]. rewrite app_nil_r. exact E. }
        destruct (K _ _ G) as (l1 & c & l2 & -> & Hr). rewrite Forall_forall in IH.
        destruct (IH c ltac:(apply in_or_app; right; left; reflexivity) _ _ Hr) as (b' & a' & m & Hp & Hm).
        exists b', a', m. split; [apply place_in; exact Hp|exact Hm].
    - cbn [rk]. destruct (is_table _) eqn:Et; [|discriminate]. destruct (convert _ _ _) as [|y] eqn:Ec; cbn; [discriminate|].
      intros [= ->]. do 3 eexists. split; [apply place_here|]. split; [exact Et|exact Ec].
    - cbn [rk]. destruct (is_table _) eqn:Et; [|discriminate]. destruct (convert _ _ _) as [|y] eqn:Ec; cbn; [discriminate|].
      intros [= ->]. do 3 eexists. split; [apply place_here|]. split; [exact Et|exact Ec].
  Qed.
End Proofs.
