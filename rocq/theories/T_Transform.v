(** * Theorems about the conversion of the tables of a document (C51) *)
From Verif Require Import Base M_Xml M_Geometry M_Cell M_Grid M_Table M_Cals M_CalsParser M_Transform S_Transform P_Transform.
From Verif Require Import T_CalsParser T_RoundTrip.
Open Scope string_scope.
Open Scope list_scope.
Open Scope Z_scope.

(** Full statement: whatever the place of the tables in the document, a converted document is the
    document where each table is replaced.

    What holds: this is so when the root is not a table and no table is inside another one (the
    model does not describe how lxml moves the nested tables). *)
Theorem C51_surroundings_partial : forall is_table convert doc doc',
    is_table doc = false -> not_nested is_table doc ->
    (transform_tables is_table convert doc = Ok doc' <-> replaced is_table convert doc doc').
Proof.
  intros is_table convert doc doc' Hr Hn. rewrite transform_repl by assumption. apply repl_replaced.
Qed.

(** The conversion of the document fails exactly when the one of a table fails, with the same error. *)
Theorem C51_fails_with_a_table_partial : forall is_table convert doc,
    is_table doc = false -> not_nested is_table doc ->
    ((exists doc', transform_tables is_table convert doc = Ok doc') <->
     (forall n, table_of is_table doc n -> exists e, convert n = Ok e)) /\
    (forall x, transform_tables is_table convert doc = Err x -> exists n, table_of is_table doc n /\ convert n = Err x).
Proof.
  intros is_table convert doc Hr Hn. rewrite transform_repl by assumption. split; [split|].
  - intros [doc' H] n [Hi Ht].
    apply repl_replaced in H. revert doc' H Hr Hn n Hi Ht.
    induction doc as [tag attrs text children tail IH| |] using xnode_ind'; intros doc' H Hr Hn n Hi Ht.
    + inversion H as [|? ? ? ? ? ? _ F2| |]; subst; [congruence|]. clear H.
      assert (K : exists c, In c children /\ (n = c \/ inside c n)).
      { inversion Hi; subst; [exists n|exists c]; split; auto. }
      destruct K as (c & Hc & Hn').
      assert (L : exists c', replaced is_table convert c c').
      { clear -Hc F2. revert Hc. induction F2 as [|a b l l' R F IH]; intros Hc; [destruct Hc|]. destruct Hc as [Hc|Hc]; [subst; eauto|exact (IH Hc)]. }
      destruct L as (c' & Hc'). destruct (is_table c) eqn:Ec.
      * destruct Hn' as [->|Hn']; [inversion Hc'; subst; [eauto|congruence|congruence|congruence]|].
        exfalso. rewrite (Hn c n) in Ht; [discriminate| |exact Hn']. split; [apply in_child; exact Hc|exact Ec].
      * destruct Hn' as [->|Hn']; [congruence|]. rewrite Forall_forall in IH.
        refine (IH c Hc c' Hc' Ec _ n Hn' Ht). intros a b [Ha Hta] Hb. apply (Hn a b); [|exact Hb].
        split; [apply (in_deep _ c); assumption|exact Hta].
    + inversion Hi; subst; destruct H0.
    + inversion Hi; subst; destruct H0.
  - intros H. apply repl_ok; [congruence|exact H].
  - intros x H. destruct (repl_err _ _ _ _ H) as (m & [->|Hm] & Ht & Hx); [congruence|].
    exists m. split; [split; assumption|exact Hx].
Qed.

(** A document without table is not changed. *)
Theorem C51_no_table : forall is_table convert doc doc',
    is_table doc = false -> (forall n, inside doc n -> is_table n = false) ->
    transform_tables is_table convert doc = Ok doc' -> doc' = doc.
Proof.
  intros is_table convert doc doc' Hr Hn H.
  apply C51_surroundings_partial in H; [|exact Hr|].
  - revert doc' H Hr Hn. induction doc as [tag attrs text children tail IH| |] using xnode_ind'; intros doc' H Hr Hn.
    + inversion H as [|? ? ? ? ? ? _ F2| |]; subst; [congruence|]. f_equal.
      assert (Hc : forall c, In c children -> is_table c = false /\ forall n, inside c n -> is_table n = false).
      { intros c Hc. split; [apply Hn; apply in_child; exact Hc|]. intros n Hi. apply Hn. apply (in_deep _ c); assumption. }
      clear -IH F2 Hc. induction F2 as [|a b l l' R F IHl]; [reflexivity|]. inversion IH; subst.
      rewrite (H1 b R); [|apply Hc; left; reflexivity|apply Hc; left; reflexivity].
      f_equal. apply IHl; [assumption|]. intros c Hin. apply Hc. right. exact Hin.
    + inversion H; subst; [congruence|reflexivity].
    + inversion H; subst; [congruence|reflexivity].
  - intros a b [Ha Ht] _. rewrite (Hn a Ha) in Ht. discriminate.
Qed.

(** A table which is the document itself is refused, although it can be converted. *)
Theorem C51_root_refuted : exists p o doc e,
    cals_convert p o doc = Ok e /\ cals_transform p o doc = Err EAttributeError.
Proof.
  exists o0, wo, (el "table" [] [el "tgroup" [("cols", "1")] [el "tbody" [] [el "row" [] [el "entry" [] []]]]]).
  eexists. split; vm_compute; reflexivity.
Qed.

(** *** Example: two tables in a document *)
Definition tbl1 : xnode := XElem "table" [("frame", "all")] None
  [el "tgroup" [("cols", "1")] [el "tbody" [] [el "row" [] [XElem "entry" [] (Some "A") [] None]]]] (Some " after ").
Definition doc1 : xnode :=
  el "doc" [("id", "7")] [XElem "p" [] (Some "before") [] (Some "-"); el "sect" [] [tbl1; XComment "c" None; x_set_tail tbl1 None]; el "p" [] []].
Example doc1_root : cals_is_table o0 doc1 = false.
Proof. reflexivity. Qed.
Example doc1_not_nested : not_nested (cals_is_table o0) doc1.
Proof.
  assert (G : forall p n, inside n p -> In p ((fix all (n : xnode) : list xnode := match n with
     | XElem _ _ _ l _ => l ++ flat_map all l | _ => [] end) n)).
  { intros p n H. induction H as [n c Hc|n c m Hc Hi IH]; destruct n; cbn in Hc; try (destruct Hc; fail).
    - apply in_or_app. left. exact Hc.
    - apply in_or_app. right. apply in_flat_map. exists c. split; [exact Hc|exact IH]. }
  intros n m [Hn Ht] Hm. apply G in Hn. apply G in Hm. cbn in Hn.
  repeat (destruct Hn as [<-|Hn]; [first [discriminate Ht|cbn in Hm; repeat (destruct Hm as [<-|Hm]; [reflexivity|]); destruct Hm]|]).
  destruct Hn.
Qed.
Example C51_example : exists e doc', cals_convert o0 wo tbl1 = Ok e /\ cals_transform o0 wo doc1 = Ok doc' /\
    doc' = el "doc" [("id", "7")] [XElem "p" [] (Some "before") [] (Some "-");
             el "sect" [] [x_set_tail e (Some " after "); XComment "c" None; e]; el "p" [] []].
Proof. eexists. eexists. split; [|split]; vm_compute; reflexivity. Qed.

Print Assumptions C51_surroundings_partial.
Print Assumptions C51_fails_with_a_table_partial.
Print Assumptions C51_no_table.
Print Assumptions C51_root_refuted.
