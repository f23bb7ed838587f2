(** * Proofs about the replacement of the tables of a document *)
From Verif Require Import Base M_Xml M_Transform S_Transform.

Section Proofs.
  Variable is_table : xnode -> bool.
  Variable convert : xnode -> result xnode.

  (** the same, the root not being a special case *)
  Definition tone (doc : xnode) (p : path) : result xnode :=
    match node_at doc p with
    | None => Err EValueError
    | Some node => e <-? convert node ;; Ok (replace_at doc p (x_set_tail e (x_tail node)))
    end.
  Fixpoint tall (doc : xnode) (ps : list path) : result xnode :=
    match ps with
    | [] => Ok doc
    | p :: ps' => doc' <-? tone doc p ;; tall doc' ps'
    end.

  Lemma tone_one doc p : p <> [] -> transform_one convert doc p = tone doc p.
  Proof.
    intros Hp. unfold transform_one, tone. destruct (node_at doc p); [|reflexivity].
    destruct (convert x); cbn; [|reflexivity]. destruct p; [congruence|reflexivity].
  Qed.
  Lemma tall_all ps : (forall p, In p ps -> p <> []) -> forall doc, transform_all convert doc ps = tall doc ps.
  Proof.
    induction ps as [|p ps IH]; intros Hp doc; [reflexivity|]. cbn.
    rewrite tone_one by (apply Hp; left; reflexivity).
    destruct (tone doc p); cbn; [|reflexivity]. apply IH. intros q Hq. apply Hp. right. exact Hq.
  Qed.

  (** structural version *)
  Fixpoint repl (n : xnode) : result xnode :=
    if is_table n then e <-? convert n ;; Ok (x_set_tail e (x_tail n))
    else match n with
         | XElem tag attrs text children tail =>
             l' <-? (fix go (l : list xnode) : result (list xnode) :=
                       match l with
                       | [] => Ok []
                       | c :: l' => c' <-? repl c ;; r <-? go l' ;; Ok (c' :: r)
                       end) children ;;
             Ok (XElem tag attrs text l' tail)
         | _ => Ok n
         end.
  Fixpoint repls (l : list xnode) : result (list xnode) :=
    match l with
    | [] => Ok []
    | c :: l' => c' <-? repl c ;; r <-? repls l' ;; Ok (c' :: r)
    end.
  Fixpoint finds (i : nat) (l : list xnode) : list path :=
    match l with
    | [] => []
    | c :: l' => map (cons i) (find_all is_table c) ++ finds (S i) l'
    end.

  Lemma repl_elem tag attrs text children tail :
    repl (XElem tag attrs text children tail) =
    if is_table (XElem tag attrs text children tail)
    then e <-? convert (XElem tag attrs text children tail) ;; Ok (x_set_tail e tail)
    else l' <-? repls children ;; Ok (XElem tag attrs text l' tail).
  Proof. reflexivity. Qed.
  Lemma find_elem tag attrs text children tail :
    find_all is_table (XElem tag attrs text children tail) =
    (if is_table (XElem tag attrs text children tail) then [[]] else []) ++ finds 0 children.
  Proof. reflexivity. Qed.

  Lemma replace_nth_app {A} (f : A -> A) (pre : list A) x post :
    replace_nth (List.length pre) f (pre ++ x :: post) = pre ++ f x :: post.
  Proof. induction pre; cbn; [reflexivity|]. rewrite IHpre. reflexivity. Qed.
  Lemma nth_error_mid {A} (pre : list A) x post : nth_error (pre ++ x :: post) (List.length pre) = Some x.
  Proof. induction pre; cbn; auto. Qed.

  Lemma tall_app ps qs : forall doc, tall doc (ps ++ qs) = d <-? tall doc ps ;; tall d qs.
  Proof. induction ps as [|p ps IH]; intros doc; cbn; [reflexivity|]. destruct (tone doc p); cbn; [apply IH|reflexivity]. Qed.

  Lemma tall_child tag attrs text tail pre post ps : forall c,
    tall (XElem tag attrs text (pre ++ c :: post) tail) (map (cons (List.length pre)) ps) =
    c' <-? tall c ps ;; Ok (XElem tag attrs text (pre ++ c' :: post) tail).
  Proof.
    induction ps as [|p ps IH]; intros c; [reflexivity|].
    cbn [map tall].
    assert (E : tone (XElem tag attrs text (pre ++ c :: post) tail) (List.length pre :: p) =
                c' <-? tone c p ;; Ok (XElem tag attrs text (pre ++ c' :: post) tail)).
    { unfold tone. cbn [node_at x_children]. rewrite nth_error_mid.
      destruct (node_at c p) as [m|]; [|reflexivity].
      destruct (convert m) as [e|]; cbn; [|reflexivity]. rewrite replace_nth_app. reflexivity. }
    rewrite E. destruct (tone c p) as [c1|]; cbn; [|reflexivity]. apply IH.
  Qed.

  Lemma find_in n : forall p, In p (find_all is_table n) -> p = [] \/ exists m, inside n m /\ is_table m = true.
  Proof.
    induction n as [tag attrs text children tail IH| |] using xnode_ind'; intros p Hp.
    - rewrite find_elem in Hp. apply in_app_or in Hp as [Hp|Hp].
      + destruct (is_table _); [destruct Hp as [<-|[]]; left; reflexivity|destruct Hp].
      + right. revert Hp. generalize 0%nat as i.
        assert (Hin : forall c, In c children -> In c (x_children (XElem tag attrs text children tail))) by (intros; assumption).
        revert Hin. generalize (XElem tag attrs text children tail) as N. intros N Hin.
        induction children as [|c l IHl]; intros i Hp; [destruct Hp|].
        inversion IH as [|? ? H1 H2]; subst. cbn in Hp. apply in_app_or in Hp as [Hp|Hp].
        * apply in_map_iff in Hp as (q & <- & Hq).
          assert (Hc : exists m, (m = c \/ inside c m) /\ is_table m = true).
          { destruct (is_table c) eqn:Ec; [exists c; auto|].
            destruct (H1 q Hq) as [->|(m & A & B)]; [|exists m; auto].
            exfalso. destruct c; cbn [find_all] in Hq; rewrite Ec in Hq; cbn [app] in Hq; try (destruct Hq; fail).
            revert Hq. generalize 0%nat. clear. induction children as [|c l IH]; intros i Hq; [destruct Hq|].
            cbn in Hq. apply in_app_or in Hq as [Hq|Hq]; [|exact (IH _ Hq)].
            apply in_map_iff in Hq as (q & Hq & _). discriminate. }
          destruct Hc as (m & [->|Hm] & Ht).
          -- exists c. split; [|exact Ht]. apply in_child. apply Hin. left. reflexivity.
          -- exists m. split; [|exact Ht]. apply (in_deep _ c); [apply Hin; left; reflexivity|exact Hm].
        * apply (IHl H2) with (i := S i); [|exact Hp]. intros c' Hc'. apply Hin. right. exact Hc'.
    - cbn in Hp. rewrite app_nil_r in Hp. destruct (is_table _); [destruct Hp as [<-|[]]; auto|destruct Hp].
    - cbn in Hp. rewrite app_nil_r in Hp. destruct (is_table _); [destruct Hp as [<-|[]]; auto|destruct Hp].
  Qed.

  Lemma finds_nonempty l : forall i p, In p (finds i l) -> p <> [].
  Proof.
    induction l as [|c l IH]; intros i p Hp; [destruct Hp|]. cbn in Hp. apply in_app_or in Hp as [Hp|Hp]; [|exact (IH _ _ Hp)].
    apply in_map_iff in Hp as (q & <- & _). discriminate.
  Qed.

  (** in a tree whose tables have no table inside, the loop computes the structural version *)
  Definition flat (n : xnode) : Prop :=
    (is_table n = true -> forall m, inside n m -> is_table m = false) /\ not_nested is_table n.

  Lemma flat_child n c : In c (x_children n) -> flat n -> flat c.
  Proof.
    intros Hc [_ Hn]. split.
    - intros Ht m Hm. apply (Hn c m); [split; [apply in_child; exact Hc|exact Ht]|exact Hm].
    - intros a b [Ha Ht] Hb. apply (Hn a b); [split; [apply (in_deep _ c); assumption|exact Ht]|exact Hb].
  Qed.

  Lemma finds_none l : (forall c, In c l -> is_table c = false /\ forall m, inside c m -> is_table m = false) ->
    forall i, finds i l = [].
  Proof.
    induction l as [|c l IH]; intros H i; [reflexivity|]. cbn [finds].
    rewrite IH by (intros c' Hc'; apply H; right; exact Hc').
    destruct (find_all is_table c) as [|p ps] eqn:E; [reflexivity|]. exfalso.
    destruct (H c (or_introl eq_refl)) as [H1 H2].
    destruct (find_in c p) as [->|(m & Hm & Ht)].
    - rewrite E. left. reflexivity.
    - destruct c; cbn [find_all] in E; rewrite H1 in E; cbn [app] in E; try discriminate.
      change (finds 0 children = [] :: ps) in E.
      apply (finds_nonempty children 0 []); [rewrite E; left; reflexivity|reflexivity].
    - rewrite (H2 m Hm) in Ht. discriminate.
  Qed.

  Lemma tall_repl n : flat n -> tall n (find_all is_table n) = repl n.
  Proof.
    induction n as [tag attrs text children tail IH| |] using xnode_ind'; intros Hf.
    - rewrite find_elem, repl_elem. destruct (is_table (XElem tag attrs text children tail)) eqn:Et.
      + rewrite finds_none.
        2:{ intros c Hc. destruct Hf as [H1 H2]. split; [apply (H1 Et); apply in_child; exact Hc|].
            intros m Hm. apply (H1 Et). apply (in_deep _ c); assumption. }
        cbn. unfold tone. cbn. destruct (convert _); reflexivity.
      + cbn [app].
        assert (Hc : forall c, In c children -> flat c).
        { intros c Hc. apply (flat_child (XElem tag attrs text children tail)); assumption. }
        clear Hf Et.
        assert (G : forall l pre, (forall c, In c l -> flat c) -> Forall (fun c => flat c -> tall c (find_all is_table c) = repl c) l ->
                  tall (XElem tag attrs text (pre ++ l) tail) (finds (List.length pre) l) =
                  l' <-? repls l ;; Ok (XElem tag attrs text (pre ++ l') tail)).
        { clear. induction l as [|c l IHl]; intros pre Hc IH; [cbn; reflexivity|].
          inversion IH as [|? ? H1 H2]; subst. cbn [finds repls].
          rewrite tall_app, tall_child, (H1 (Hc c (or_introl eq_refl))).
          destruct (repl c) as [c'|]; cbn; [|reflexivity].
          replace (pre ++ c' :: l) with ((pre ++ [c']) ++ l) by (rewrite <- app_assoc; reflexivity).
          replace (S (List.length pre)) with (List.length (pre ++ [c'])) by (rewrite app_length; cbn; lia).
          rewrite IHl; [|intros x Hx; apply Hc; right; exact Hx|exact H2].
          destruct (repls l); cbn; [|reflexivity]. rewrite <- app_assoc. reflexivity. }
        apply (G children [] Hc IH).
    - cbn. rewrite app_nil_r. destruct (is_table _); cbn; [|reflexivity]. unfold tone; cbn. destruct (convert _); reflexivity.
    - cbn. rewrite app_nil_r. destruct (is_table _); cbn; [|reflexivity]. unfold tone; cbn. destruct (convert _); reflexivity.
  Qed.

  Lemma repl_replaced n : forall n', repl n = Ok n' <-> replaced is_table convert n n'.
  Proof.
    induction n as [tag attrs text children tail IH| |] using xnode_ind'; intros n'.
    - rewrite repl_elem. destruct (is_table (XElem tag attrs text children tail)) eqn:Et.
      + split.
        * destruct (convert _) as [e|] eqn:Ec; cbn; [|discriminate]. intros [= <-].
          exact (rep_table is_table convert (XElem tag attrs text children tail) e Et Ec).
        * intros H. inversion H; subst; [|congruence]. rewrite H1. reflexivity.
      + assert (G : forall l', repls children = Ok l' <-> Forall2 (replaced is_table convert) children l').
        { clear Et. induction children as [|c l IHl]; intros l'; cbn.
          - split; [intros [= <-]; constructor|intros H; inversion H; reflexivity].
          - inversion IH as [|? ? H1 H2]; subst. split.
            + destruct (repl c) as [c'|] eqn:E1; cbn; [|discriminate].
              destruct (repls l) as [r|] eqn:E2; cbn; [|discriminate]. intros [= <-].
              constructor; [apply H1; reflexivity|apply (IHl H2); reflexivity].
            + intros H. inversion H; subst. apply H1 in H4. rewrite H4. cbn.
              apply (IHl H2) in H6. rewrite H6. reflexivity. }
        split.
        * destruct (repls children) as [l'|] eqn:E; cbn; [|discriminate]. intros [= <-].
          constructor; [exact Et|]. apply G. reflexivity.
        * intros H. inversion H; subst; [congruence|]. apply G in H7. rewrite H7. reflexivity.
    - cbn. destruct (is_table _) eqn:Et.
      + split.
        * destruct (convert _) as [e|] eqn:Ec; cbn; [|discriminate]. intros [= <-].
          exact (rep_table is_table convert (XPI target pitext tail) e Et Ec).
        * intros H. inversion H; subst; [|congruence]. rewrite H1. reflexivity.
      + split; [intros [= <-]; constructor; exact Et|]. intros H. inversion H; subst; [congruence|reflexivity].
    - cbn. destruct (is_table _) eqn:Et.
      + split.
        * destruct (convert _) as [e|] eqn:Ec; cbn; [|discriminate]. intros [= <-].
          exact (rep_table is_table convert (XComment ctext tail) e Et Ec).
        * intros H. inversion H; subst; [|congruence]. rewrite H1. reflexivity.
      + split; [intros [= <-]; constructor; exact Et|]. intros H. inversion H; subst; [congruence|reflexivity].
  Qed.

  Lemma transform_repl doc : is_table doc = false -> not_nested is_table doc ->
    transform_tables is_table convert doc = repl doc.
  Proof.
    intros Hr Hn. unfold transform_tables. rewrite tall_all.
    - apply tall_repl. split; [congruence|exact Hn].
    - intros p Hp. destruct doc.
      + rewrite find_elem, Hr in Hp. exact (finds_nonempty _ _ _ Hp).
      + cbn in Hp. rewrite Hr in Hp. destruct Hp.
      + cbn in Hp. rewrite Hr in Hp. destruct Hp.
  Qed.

  (** the conversion fails only when the conversion of a table fails *)
  Lemma repl_ok n : (is_table n = true -> exists e, convert n = Ok e) ->
    (forall m, table_of is_table n m -> exists e, convert m = Ok e) -> exists n', repl n = Ok n'.
  Proof.
    induction n as [tag attrs text children tail IH| |] using xnode_ind'; intros H0 H.
    - rewrite repl_elem. destruct (is_table (XElem tag attrs text children tail)) eqn:Et.
      + destruct (H0 eq_refl) as [e ->]. cbn. eauto.
      + assert (G : exists l', repls children = Ok l').
        { assert (Hc : forall c, In c children -> exists c', repl c = Ok c').
          { intros c Hc. rewrite Forall_forall in IH. apply (IH c Hc).
            - intros Ht. apply H. split; [apply in_child; exact Hc|exact Ht].
            - intros m [Hm Ht]. apply H. split; [apply (in_deep _ c); assumption|exact Ht]. }
          clear -Hc. induction children as [|c l IHl]; cbn; [eauto|].
          destruct (Hc c (or_introl eq_refl)) as [c' ->]. cbn.
          destruct IHl as [r ->]; [intros x Hx; apply Hc; right; exact Hx|]. cbn. eauto. }
        destruct G as [l' ->]. cbn. eauto.
    - cbn. destruct (is_table _) eqn:Et; [destruct (H0 eq_refl) as [e ->]; cbn; eauto|eauto].
    - cbn. destruct (is_table _) eqn:Et; [destruct (H0 eq_refl) as [e ->]; cbn; eauto|eauto].
  Qed.
  Lemma repl_err n x : repl n = Err x -> exists m, (m = n \/ inside n m) /\ is_table m = true /\ convert m = Err x.
  Proof.
    induction n as [tag attrs text children tail IH| |] using xnode_ind'.
    - rewrite repl_elem. destruct (is_table (XElem tag attrs text children tail)) eqn:Et.
      + destruct (convert _) as [|y] eqn:Ec; cbn; [discriminate|]. intros [= ->]. eauto.
      + intros H. assert (G : repls children = Err x) by (destruct (repls children); cbn in H; congruence).
        assert (K : exists c, In c children /\ repl c = Err x).
        { clear -G. induction children as [|c l IHl]; cbn in G; [discriminate|].
          destruct (repl c) as [c'|y] eqn:E; cbn in G.
          - destruct (repls l) eqn:E2; cbn in G; [discriminate|]. injection G as ->.
            destruct (IHl eq_refl) as (d & A & B). exists d. split; [right; exact A|exact B].
          - injection G as ->. exists c. split; [left; reflexivity|exact E]. }
        destruct K as (c & Hc & Hr). rewrite Forall_forall in IH.
        destruct (IH c Hc Hr) as (m & [->|Hm] & Ht & Hx); exists m + exists c; (split; [|split; assumption]).
        * right. apply in_child. exact Hc.
        * right. apply (in_deep _ c); assumption.
    - cbn. destruct (is_table _) eqn:Et; [|discriminate]. destruct (convert _) as [|y] eqn:Ec; cbn; [discriminate|].
      intros [= ->]. eauto.
    - cbn. destruct (is_table _) eqn:Et; [|discriminate]. destruct (convert _) as [|y] eqn:Ec; cbn; [discriminate|].
      intros [= ->]. eauto.
  Qed.
End Proofs.
