(** * Proofs: the numbers which the builder gives to the tables do not matter

    The Formex builder numbers the tables one after the other (formex.py:143, 223); the first pass at the end
    (formex.py:662-681) numbers them again. *)
From Verif Require Import Base M_Xml M_Geometry M_Cell M_Grid M_Table M_Cals M_CalsParser M_Formex M_FormexParser M_FormexRead M_FormexFinal M_FormexFinish M_Ooxml M_Transform M_Convert M_ConvertDoc M_Nested.
From Verif Require Import S_Transform S_Nested P_Grid P_Cals P_Transform P_ConvertDoc P_Nested P_FormexNumber.
Open Scope string_scope.
Open Scope list_scope.

Lemma F2_length {A B} (P : A -> B -> Prop) l l' : Forall2 P l l' -> List.length l = List.length l'.
Proof. intros H. induction H; cbn; congruence. Qed.
(** Attributes which are the same once the table is numbered again *)
Definition attrs_alike (tag : string) (a a' : dict string) : Prop :=
  a = a' \/ (tag = "TBL" /\ forall v, dset a "NO.SEQ" v = dset a' "NO.SEQ" v).

Section Alike.
  Variable name : string.
  Notation tbl n := (x_has_tag n name).
  (** The same trees but for the numbers of tables; the tables which are left to convert are the same. *)
  Inductive alike : xnode -> xnode -> Prop :=
  | alike_refl n : alike n n
  | alike_elem tag a a' text ch ch' tail : String.eqb name tag = false -> attrs_alike tag a a' -> Forall2 alike ch ch' ->
      alike (XElem tag a text ch tail) (XElem tag a' text ch' tail).

  Lemma alike_list l : Forall2 alike l l.
  Proof. induction l; constructor; [apply alike_refl|assumption]. Qed.
  Lemma alike_tbl n n' : alike n n' -> tbl n = true -> n = n'.
  Proof. intros H Ht. destruct H as [n|tag a a' text ch ch' tail H1 _ _]; [reflexivity|]. cbn [x_has_tag] in Ht. congruence. Qed.
  Lemma alike_tag n n' t : alike n n' -> x_has_tag n t = x_has_tag n' t.
  Proof. intros H. destruct H; reflexivity. Qed.
  Lemma alike_tail n n' : alike n n' -> x_tail n = x_tail n'.
  Proof. intros H. destruct H; reflexivity. Qed.
  Lemma alike_set n n' t : alike n n' -> alike (x_set_tail n t) (x_set_tail n' t).
  Proof. intros H. destruct H; [apply alike_refl|apply alike_elem; assumption]. Qed.
  Lemma alike_children n n' : alike n n' -> Forall2 alike (x_children n) (x_children n').
  Proof. intros H. destruct H; [apply alike_list|assumption]. Qed.
  Lemma alike_mark k n n' : alike n n' -> has_mark name k n = has_mark name k n'.
  Proof. intros H. destruct H as [n|tag a a' text ch ch' tail H1 _ _]; [reflexivity|]. unfold has_mark. cbn [x_has_tag]. rewrite H1. reflexivity. Qed.

  Lemma F2_nth {A B} (P : A -> B -> Prop) l l' i x : Forall2 P l l' -> nth_error l i = Some x -> exists y, nth_error l' i = Some y /\ P x y.
  Proof.
    intros H. revert i. induction H as [|a b l l' H1 _ IH]; intros i Hi; destruct i; try discriminate; [injection Hi as <-; exists b; auto|exact (IH i Hi)].
  Qed.
  Lemma F2_nth_none {A B} (P : A -> B -> Prop) l l' i : Forall2 P l l' -> nth_error l i = None -> nth_error l' i = None.
  Proof. intros H E. apply nth_error_None in E. apply nth_error_None. rewrite <- (F2_length _ _ _ H). exact E. Qed.
  Lemma F2_skipn {A B} (P : A -> B -> Prop) i l l' : Forall2 P l l' -> Forall2 P (skipn i l) (skipn i l').
  Proof. intros H. revert i. induction H; intros [|i]; cbn [skipn]; auto. Qed.
  Lemma F2_map {A B C D} (P : A -> B -> Prop) (Q : C -> D -> Prop) (f : A -> C) (g : B -> D) l l' :
    (forall x y, In x l -> P x y -> Q (f x) (g y)) -> Forall2 P l l' -> Forall2 Q (map f l) (map g l').
  Proof.
    intros HF H. induction H as [|a b l l' H1 _ IH]; [constructor|]. cbn [map]. constructor; [apply HF; [left; reflexivity|exact H1]|].
    apply IH. intros x y Hx. apply HF. right. exact Hx.
  Qed.

  Lemma alike_node p : forall n n' m, alike n n' -> node_at n p = Some m -> exists m', node_at n' p = Some m' /\ alike m m'.
  Proof.
    induction p as [|i p IH]; intros n n' m H E; [injection E as <-; exists n'; auto|]. cbn [node_at] in *.
    destruct (nth_error (x_children n) i) as [c|] eqn:Ec; [|discriminate]. destruct (F2_nth _ _ _ _ _ (alike_children _ _ H) Ec) as (c' & -> & Hc).
    exact (IH _ _ _ Hc E).
  Qed.
  Lemma alike_after p : forall n n', alike n n' -> Forall2 alike (after_at n p) (after_at n' p).
  Proof.
    induction p as [|i p IH]; intros n n' H; [constructor|]. cbn [after_at]. destruct (nth_error (x_children n) i) as [c|] eqn:Ec.
    - destruct (F2_nth _ _ _ _ _ (alike_children _ _ H) Ec) as (c' & -> & Hc). apply Forall2_app; [apply IH, Hc|]. apply (F2_skipn _ (S i)), alike_children, H.
    - rewrite (F2_nth_none _ _ _ _ (alike_children _ _ H) Ec). constructor.
  Qed.
  Lemma alike_find p : (forall n n', alike n n' -> p n = p n') -> forall n n', alike n n' -> find_all p n = find_all p n'.
  Proof.
    intros HP. induction n as [tag a text ch tail IH| |] using xnode_ind'; intros n' H; inversion H as [?|? ? a' ? ? ch' ? H1 H2 H3]; subst; try reflexivity.
    rewrite !find_elem. rewrite (HP _ _ H). f_equal. clear -IH H3. generalize 0%nat as i. induction H3 as [|c c' l l' Hc _ IHl]; intros i; [reflexivity|].
    inversion IH as [|? ? I1 I2]; subst. cbn [finds]. rewrite (I1 _ Hc), (IHl I2). reflexivity.
  Qed.
  Lemma alike_unmark : forall n n', alike n n' -> alike (unmark name n) (unmark name n').
  Proof.
    induction n as [tag a text ch tail IH| |] using xnode_ind'; intros n' H; inversion H as [?|? ? a' ? ? ch' ? H1 H2 H3]; subst; try apply alike_refl.
    cbn [unmark]. rewrite H1. apply alike_elem; [exact H1|exact H2|]. refine (F2_map alike alike _ _ _ _ _ H3). intros x y Hx Hxy. rewrite Forall_forall in IH. exact (IH x Hx y Hxy).
  Qed.

  (** ** The numbers at the end *)
  Lemma alike_number : forall n n' level stack, alike n n' -> M_FormexFinal.number level n stack = M_FormexFinal.number level n' stack.
  Proof.
    induction n as [tag a text ch tail IH| |] using xnode_ind'; intros n' level stack H; inversion H as [?|? ? a' ? ? ch' ? H1 H2 H3]; subst; try reflexivity.
    rewrite !number_elem.
    assert (E : forall level stack, numbers level ch stack = numbers level ch' stack).
    { clear -IH H3. induction H3 as [|c c' l l' Hc _ IHl]; intros level stack; [reflexivity|]. inversion IH as [|? ? I1 I2]; subst. cbn [numbers]. rewrite (I1 _ level stack Hc).
      destruct (M_FormexFinal.number level c' stack) as [x s]. rewrite (IHl I2). reflexivity. }
    cbv zeta. rewrite !E. destruct (String.eqb tag "TBL") eqn:Et.
    - destruct (numbers (S level) ch' (bump (S level) stack)) as [x s]. destruct H2 as [->|[_ H2]]; [reflexivity|]. rewrite H2. reflexivity.
    - destruct H2 as [->|[H2 _]]; [reflexivity|]. subst tag. discriminate Et.
  Qed.
  Lemma alike_finalize ns d d' : alike d d' -> finalize_tree ns d = finalize_tree ns d'.
  Proof. intros H. unfold finalize_tree, update_no_seq. rewrite (alike_number d d' 0 [] H). reflexivity. Qed.

  (** ** The loop *)
  Definition both (R : xnode -> xnode -> Prop) (a b : result xnode) : Prop :=
    match a, b with Ok x, Ok y => R x y | Err x, Err y => x = y | _, _ => False end.
  Variables conv conv' : list xnode -> Z -> xnode -> result xnode.
  Hypothesis conv_alike : forall after after' k n, Forall2 alike after after' -> both alike (conv after k n) (conv' after' k n).
  Hypothesis not_table : forall after k n e, conv after k n = Ok e -> tbl e = false.
  Hypothesis kept : forall after k n e, conv after k n = Ok e -> forall m, inside e m -> tbl m = true -> exists m0, inside n m0 /\ same_node m m0.
  Variable doc : xnode.
  Let src : xnode := snd (mark_from name 1 doc).

  Lemma alike_put k e e' : alike e e' -> forall d d', pending name doc k d -> alike d d' -> alike (put_mark name k e d) (put_mark name k e' d').
  Proof.
    intros He. induction d as [tag a text ch tail IH| |] using xnode_ind'; intros d' HP H.
    - assert (HK : has_mark name k (XElem tag a text ch tail) = true \/ has_mark name k (XElem tag a text ch tail) = false) by (destruct (has_mark _ _ _); auto).
      destruct HK as [HK|HK].
      + pose proof (alike_tbl _ _ H (has_mark_tbl name k _ HK)) as <-. cbn [put_mark]. rewrite HK. apply alike_set, He.
      + destruct (tbl (XElem tag a text ch tail)) eqn:Et.
        * pose proof (alike_tbl _ _ H Et) as <-. rewrite !(put_none name k _ _ (later name doc k _ HP Et HK)). apply alike_refl.
        * assert (G : forall a' ch', attrs_alike tag a a' -> Forall2 alike ch ch' -> has_mark name k (XElem tag a' text ch' tail) = false ->
            alike (put_mark name k e (XElem tag a text ch tail)) (put_mark name k e' (XElem tag a' text ch' tail))).
          { intros a' ch' H2 H3 HK'. cbn [put_mark]. rewrite HK, HK'. cbn [x_has_tag] in Et. apply alike_elem; [exact Et|exact H2|]. refine (F2_map alike alike _ _ _ _ _ H3).
            intros x y Hx Hxy. rewrite Forall_forall in IH. apply (IH x Hx y); [|exact Hxy]. apply (pending_child name doc k _ x HP). exact Hx. }
          inversion H as [?|? ? a' ? ? ch' ? H1 H2 H3]; subst.
          -- apply G; [left; reflexivity|apply alike_list|exact HK].
          -- apply G; [exact H2|exact H3|]. rewrite <- (alike_mark k _ _ H). exact HK.
    - inversion H; subst. cbn. apply alike_refl.
    - inversion H; subst. cbn. apply alike_refl.
  Qed.

  Lemma alike_one k d d' : (1 <= k)%nat -> pending name doc k d -> alike d d' -> both alike (nested_one name conv src d k) (nested_one name conv' src d' k).
  Proof.
    intros Hk HP H. unfold nested_one. rewrite <- (alike_find (has_mark name k) (alike_mark k) d d' H).
    destruct (find_all_nodes (has_mark name k) d) as [F1 F2]. destruct (find_all (has_mark name k) d) as [|p ps].
    - destruct (find _ _) as [x|]; [|reflexivity]. pose proof (conv_alike [] [] (Z.of_nat k) (drop_mark x) (Forall2_nil _)) as C.
      destruct (conv _ _ _), (conv' _ _ _); cbn in C |- *; try contradiction; [exact H|exact C].
    - destruct (F1 p ltac:(left; reflexivity)) as (n & En & Hn & Hm). rewrite En. destruct (alike_node p d d' n H En) as (n' & -> & Hnn).
      pose proof (alike_tbl _ _ Hnn (has_mark_tbl name k n Hm)) as <-.
      assert (A : Forall2 alike (map (unmark name) (after_at d p)) (map (unmark name) (after_at d' p))).
      { refine (F2_map alike alike _ _ _ _ _ (alike_after p d d' H)). intros x y _. apply alike_unmark. }
      pose proof (conv_alike _ _ (Z.of_nat k) (drop_mark n) A) as C.
      destruct (conv (map _ _) _ _), (conv' (map _ _) _ _); cbn [both rbind] in C |- *; try contradiction; [|exact C].
      destruct p as [|i p]; [reflexivity|]. apply alike_put; assumption.
  Qed.
  Lemma alike_all j : forall k d d', (1 <= k)%nat -> pending name doc k d -> alike d d' -> both alike (nested_all name conv src d (seq k j)) (nested_all name conv' src d' (seq k j)).
  Proof.
    induction j as [|j IH]; intros k d d' Hk HP H; [exact H|]. cbn [seq nested_all]. pose proof (alike_one k d d' Hk HP H) as C.
    destruct (nested_one name conv src d k) as [d1|x] eqn:E, (nested_one name conv' src d' k) as [d1'|x']; cbn [both rbind] in C |- *; try contradiction; [|exact C].
    apply IH; [lia| |exact C]. apply (one_full name conv not_table kept doc k d d1 Hk HP E).
  Qed.
  Theorem alike_nested : both alike (nested_tables name conv doc) (nested_tables name conv' doc).
  Proof.
    unfold nested_tables. apply (alike_all (fst (mark_from name 1 doc) - 1) 1); [lia| |apply alike_refl].
    intros m Hm Ht. assert (Hs : In m (srcs name src)) by (apply filter_In; auto). apply In_nth_error in Hs as (i & Hi). exists i, m. split; [lia|]. split; [exact Hi|reflexivity].
  Qed.
  Theorem alike_finished ns : (d <-? nested_tables name conv doc ;; finalize_tree ns d) = (d <-? nested_tables name conv' doc ;; finalize_tree ns d).
  Proof.
    pose proof alike_nested as C. destruct (nested_tables name conv doc) as [d|x], (nested_tables name conv' doc) as [d'|x']; cbn [both rbind] in *; try contradiction.
    - apply alike_finalize, C.
    - rewrite C. reflexivity.
  Qed.
End Alike.

(** ** The section which follows a table of Word *)
Section Sect.
  Variable name : string.
  Notation alike := (alike name).
  Lemma alike_get n n' k : alike n n' -> k <> "NO.SEQ" -> x_get n k = x_get n' k.
  Proof.
    intros H Hk. destruct H as [n|tag a a' text ch ch' tail H1 H2 H3]; [reflexivity|]. unfold x_get. cbn [x_attrs]. destruct H2 as [->|[_ H2]]; [reflexivity|].
    rewrite <- (dget_dset_other a "NO.SEQ" k "") by congruence. rewrite H2. apply dget_dset_other. congruence.
  Qed.
  Lemma wq_other k : wq k <> "NO.SEQ".
  Proof. discriminate. Qed.
  Lemma alike_nodes : forall n n', alike n n' -> Forall2 alike (tree_nodes n) (tree_nodes n').
  Proof.
    induction n as [tag a text ch tail IH| |] using xnode_ind'; intros n' H; inversion H as [?|? ? a' ? ? ch' ? H1 H2 H3]; subst; try apply alike_list.
    cbn [tree_nodes]. constructor; [exact H|]. clear -IH H3. induction H3 as [|c c' l l' Hc _ IHl]; [constructor|]. inversion IH as [|? ? I1 I2]; subst.
    cbn [flat_map]. apply Forall2_app; [apply I1, Hc|apply IHl, I2].
  Qed.
  Definition alike_opt (s s' : option xnode) : Prop := match s, s' with Some n, Some n' => alike n n' | None, None => True | _, _ => False end.
  Lemma alike_sect l l' : Forall2 alike l l' -> alike_opt (sect_after l) (sect_after l').
  Proof.
    intros H. unfold sect_after. assert (A : Forall2 alike (flat_map tree_nodes l) (flat_map tree_nodes l')).
    { induction H as [|c c' l l' Hc _ IHl]; [constructor|]. cbn [flat_map]. apply Forall2_app; [apply alike_nodes, Hc|exact IHl]. }
    induction A as [|c c' m m' Hc _ IHm]; [exact I|]. cbn [find]. rewrite (alike_tag name c c' (wq "sectPr") Hc). destruct (x_has_tag c' (wq "sectPr")); [exact Hc|exact IHm].
  Qed.
  Lemma alike_wchildren nm n n' : alike n n' -> Forall2 alike (w_children nm n) (w_children nm n').
  Proof.
    intros H. unfold w_children. pose proof (alike_children name n n' H) as C. induction C as [|c c' l l' Hc _ IHl]; [constructor|]. cbn [filter].
    rewrite (alike_tag name c c' (wq nm) Hc). destruct (x_has_tag c' (wq nm)); [constructor; assumption|exact IHl].
  Qed.
  Lemma alike_path p : forall n n', alike n n' -> Forall2 alike (w_path p n) (w_path p n').
  Proof.
    induction p as [|nm p IH]; intros n n' H; cbn [w_path]; [constructor; [exact H|constructor]|].
    pose proof (alike_wchildren nm n n' H) as C. induction C as [|c c' l l' Hc _ IHl]; [constructor|]. cbn [flat_map]. apply Forall2_app; [apply IH, Hc|exact IHl].
  Qed.
  Lemma alike_first p s s' : alike_opt s s' -> alike_opt (on_node (w_first p) s) (on_node (w_first p) s').
  Proof.
    destruct s as [n|], s' as [n'|]; cbn; try tauto. intros H. unfold w_first. destruct (alike_path p n n' H); cbn; [exact I|assumption].
  Qed.
  Lemma alike_on k s s' : alike_opt s s' -> on_node (fun n => x_get n (wq k)) s = on_node (fun n => x_get n (wq k)) s'.
  Proof. destruct s as [n|], s' as [n'|]; cbn; try tauto. intros H. apply alike_get; [exact H|apply wq_other]. Qed.
  Lemma alike_first_attr k l l' : Forall2 alike l l' -> first_attr k l = first_attr k l'.
  Proof. intros H. induction H as [|c c' l l' Hc _ IHl]; [reflexivity|]. cbn [first_attr]. rewrite (alike_get c c' (wq k) Hc (wq_other k)), IHl. reflexivity. Qed.
  Lemma alike_tbl_styles o s s' e : alike_opt s s' -> tbl_styles o s e = tbl_styles o s' e.
  Proof.
    intros H. assert (E1 : pg_styles o (on_node (w_first ["pgSz"]) s) = pg_styles o (on_node (w_first ["pgSz"]) s')).
    { unfold pg_styles. pose proof (alike_first ["pgSz"] s s' H) as C. rewrite !(fun k => alike_on k _ _ C). reflexivity. }
    assert (E2 : sect_cols s = sect_cols s').
    { unfold sect_cols, w_attr. destruct s as [n|], s' as [n'|]; cbn in H; try tauto; try contradiction. rewrite (alike_first_attr "num" _ _ (alike_path ["cols"] n n' H)).
      pose proof (F2_length _ _ _ (alike_path ["cols"; "col"] n n' H)) as L. destruct (first_attr _ _); [reflexivity|].
      destruct (w_path ["cols"; "col"] n), (w_path ["cols"; "col"] n'); cbn [List.length] in L; try discriminate; [reflexivity|]. cbn [List.length]. rewrite L. reflexivity. }
    unfold tbl_styles. rewrite E1, E2. reflexivity.
  Qed.
  Lemma siter_ext {S A} (f g : A -> SM S unit) l : (forall a s, f a s = g a s) -> forall s, siter f l s = siter g l s.
  Proof.
    intros H. induction l as [|a l IH]; intros s; [reflexivity|]. cbn [siter]. unfold sbind. rewrite H. destruct (g a s) as [s' [r|x]]; [apply IH|reflexivity].
  Qed.
  Lemma alike_parse o s s' e : alike_opt s s' -> ox_parse_table o s e = ox_parse_table o s' e.
  Proof.
    intros H. unfold ox_parse_table. rewrite (siter_ext (ox_event o s) (ox_event o s')); [reflexivity|]. intros ev st.
    unfold ox_event, ox_start, parse_tbl. rewrite (alike_tbl_styles o s s' (ev_elem ev) H). reflexivity.
  Qed.
End Sect.

(** ** A Formex table with another number *)
Lemma page_attrs st x cols : exists r, page_size st [("NO.SEQ", SStr x); ("COLS", cols)] = (a <-? r ;; Ok (("NO.SEQ", SStr x) :: a)) /\
  forall y, page_size st [("NO.SEQ", SStr y); ("COLS", cols)] = (a <-? r ;; Ok (("NO.SEQ", SStr y) :: a)).
Proof.
  assert (G : exists r, forall y, page_size st [("NO.SEQ", SStr y); ("COLS", cols)] = (a <-? r ;; Ok (("NO.SEQ", SStr y) :: a))).
  { unfold page_size. destruct (dget st "x-sect-orient") as [orient|]; [|exists (Ok [("COLS", cols)]); reflexivity].
    set (wh := match dget st "x-sect-size" with None => _ | Some _ => _ end). destruct wh as [[w h]|e]; cbn [rbind]; [|exists (Err e); reflexivity].
    destruct orient as [s| | |]; try (exists (Ok [("COLS", cols)]); reflexivity).
    destruct (String.eqb s "landscape"); [eexists (Ok (dset [("COLS", cols)] "PAGE.SIZE" _)); reflexivity|].
    destruct (String.eqb s "portrait" && _); [eexists (Ok (dset [("COLS", cols)] "PAGE.SIZE" _)); reflexivity|exists (Ok [("COLS", cols)]); reflexivity]. }
  destruct G as (r & G). exists r. split; [apply G|exact G].
Qed.
Lemma tbl_alike name o k k' t : String.eqb name "TBL" = false -> both (alike name) (generate_tbl o k t) (generate_tbl o k' t).
Proof.
  intros Hn. unfold generate_tbl. destruct (table_views Cols t) as [cols|x]; cbn [rbind]; [|reflexivity].
  destruct (page_attrs (t_styles t) (format04 k) (SStr (py_str_int (Z.of_nat (List.length cols))))) as ([a|x] & E & E'); rewrite E, E'; cbn [rbind]; [|reflexivity].
  cbn [make_attrs]. destruct (make_attrs a) as [attrs|x]; cbn [rbind]; [|reflexivity]. destruct (build_corpus o t) as [ch|x]; cbn [rbind]; [|reflexivity].
  cbn [both]. apply alike_elem; [exact Hn| |apply alike_list]. right. split; [reflexivity|]. intros v. reflexivity.
Qed.
