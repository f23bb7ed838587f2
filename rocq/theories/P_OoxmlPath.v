(** * Word documents: paths, and the events of the parser *)
From Verif Require Import Base M_Geometry M_Xml M_Cell M_Grid M_Table M_Regex M_Str M_Units M_Cals M_CalsParser M_Ooxml.
From Verif Require Import S_Geometry S_Grid S_Table S_Units S_Int S_Ooxml.
From Verif Require Import P_Int.
Open Scope Z_scope.
Open Scope string_scope.
Open Scope list_scope.

(** ** Paths *)

Global Arguments wq : simpl never.
Global Arguments word : simpl never.
Lemma wq_word name : wq name = word name.
Proof. reflexivity. Qed.

Lemma has_word n name : x_has_tag n (wq name) = true <-> is_word name n.
Proof.
  unfold is_word. change (wq name) with (word name). destruct n as [tag ? ? ? ?| |]; cbn [x_has_tag x_tag]; [|split; discriminate..].
  rewrite String.eqb_eq. split; [intros ->; reflexivity|intros [= ->]; reflexivity].
Qed.
Lemma word_inj a b : word a = word b -> a = b.
Proof.
  intros H. unfold word in H. cbn [String.append] in H. injection H. auto.
Qed.
Lemma is_word_fun n a b : is_word a n -> is_word b n -> a = b.
Proof. unfold is_word. intros Ha Hb. apply word_inj. congruence. Qed.

Lemma first_attr_app k l m : first_attr k (l ++ m) = match first_attr k l with Some v => Some v | None => first_attr k m end.
Proof. induction l as [|n l IH]; cbn; [reflexivity|]. destruct (x_get n (wq k)); [reflexivity|exact IH]. Qed.
Lemma first_attr_flat (A : Type) k f (l : list A) v :
  first_attr k (flat_map f l) = Some v <->
  exists pre c post, l = pre ++ c :: post /\ first_attr k (f c) = Some v /\ forall d, In d pre -> first_attr k (f d) = None.
Proof.
  induction l as [|a l IH]; cbn [flat_map].
  - split; [discriminate|]. intros ([|] & c & post & E & _); discriminate.
  - rewrite first_attr_app. destruct (first_attr k (f a)) as [u|] eqn:Ea.
    + split.
      * intros [= ->]. exists [], a, l. split; [reflexivity|]. split; [exact Ea|]. intros d [].
      * intros ([|b pre] & c & post & E & Hc & Hp).
        -- injection E as <- _. congruence.
        -- injection E as <- _. rewrite (Hp a (or_introl eq_refl)) in Ea. discriminate.
    + rewrite IH. split.
      * intros (pre & c & post & -> & Hc & Hp). exists (a :: pre), c, post. split; [reflexivity|]. split; [exact Hc|].
        intros d [<-|Hd]; auto.
      * intros ([|b pre] & c & post & E & Hc & Hp).
        -- injection E as <- _. congruence.
        -- injection E as <- ->. exists pre, c, post. split; [reflexivity|]. split; [exact Hc|]. intros d Hd. apply Hp. right. exact Hd.
Qed.
Lemma filter_split {A} (p : A -> bool) l pre c post :
  filter p l = pre ++ c :: post <->
  exists pre' post', l = pre' ++ c :: post' /\ p c = true /\ filter p pre' = pre /\ filter p post' = post.
Proof.
  revert pre. induction l as [|a l IH]; intros pre; cbn [filter].
  - split; [intros E; destruct pre; discriminate|]. intros (pre' & post' & E & _). destruct pre'; discriminate.
  - destruct (p a) eqn:Ea.
    + split.
      * destruct pre as [|b pre]; cbn [app]; intros E.
        -- injection E as -> E. exists [], l. cbn. auto.
        -- injection E as -> E. apply IH in E as (pre' & post' & -> & Hc & Hp & Hq). exists (b :: pre'), post'. cbn. rewrite Ea. split; [reflexivity|]. split; [exact Hc|]. split; [congruence|exact Hq].
      * intros ([|b pre'] & post' & E & Hc & Hp & Hq); cbn in E.
        -- injection E as -> ->. cbn in Hp. subst. reflexivity.
        -- injection E as <- ->. cbn in Hp. rewrite Ea in Hp. subst pre. cbn. f_equal. apply IH. eauto 6.
    + rewrite IH. split.
      * intros (pre' & post' & -> & Hc & Hp & Hq). exists (a :: pre'), post'. cbn. rewrite Ea. auto.
      * intros ([|b pre'] & post' & E & Hc & Hp & Hq); cbn in E.
        -- injection E as -> ->. congruence.
        -- injection E as <- ->. cbn in Hp. rewrite Ea in Hp. eauto 6.
Qed.

Lemma w_attr_spec path k n v : w_attr path k n = Some v <-> value_at path k n v.
Proof.
  revert n v. induction path as [|p path IH]; intros n v; unfold w_attr; cbn [w_path value_at].
  - cbn [first_attr]. unfold x_get. change (wq k) with (word k). destruct (dget (x_attrs n) (word k)); split; congruence.
  - rewrite first_attr_flat. unfold w_children. split.
    + intros (pre & c & post & E & Hc & Hp). apply filter_split in E as (pre' & post' & E & Ht & Epre & _).
      exists pre', c, post'. split; [exact E|]. split; [apply has_word, Ht|]. split; [apply IH, Hc|].
      intros d w Hd Hw Hv. apply IH in Hv. unfold w_attr in Hv. rewrite (Hp d) in Hv; [discriminate|].
      rewrite <- Epre. apply filter_In. split; [exact Hd|apply has_word, Hw].
    + intros (pre & c & post & E & Ht & Hc & Hp). exists (filter (fun c => x_has_tag c (wq p)) pre), c, (filter (fun c => x_has_tag c (wq p)) post).
      split; [|split].
      * apply filter_split. exists pre, post. split; [exact E|]. split; [apply has_word, Ht|]. auto.
      * apply IH, Hc.
      * intros d Hd. apply filter_In in Hd as [Hd Hw]. apply has_word in Hw.
        destruct (first_attr k (w_path path d)) as [u|] eqn:E2; [|reflexivity]. exfalso. apply (Hp d u Hd Hw), IH, E2.
Qed.
Lemma w_attr_none path k n : w_attr path k n = None <-> ~ exists v, value_at path k n v.
Proof.
  split.
  - intros E (v & Hv). apply w_attr_spec in Hv. congruence.
  - intros H. destruct (w_attr path k n) as [v|] eqn:E; [|reflexivity]. exfalso. apply H. exists v. apply w_attr_spec, E.
Qed.
Lemma value_at_fun path k n v w : value_at path k n v -> value_at path k n w -> v = w.
Proof. rewrite <- !w_attr_spec. congruence. Qed.
Lemma w_path_exists path n : w_path path n <> [] <-> exists_at path n.
Proof.
  revert n. induction path as [|p path IH]; intros n; cbn [w_path exists_at]; [split; auto; discriminate|].
  split.
  - intros H. destruct (w_children p n) as [|c l] eqn:E.
    + exfalso. apply H. reflexivity.
    + assert (X : exists c, In c (w_children p n) /\ w_path path c <> []).
      { rewrite E. clear E. induction (c :: l) as [|d m IHm]; [exfalso; apply H; reflexivity|].
        destruct (w_path path d) as [|x xs] eqn:Ed.
        - cbn [flat_map] in H. rewrite Ed in H. destruct (IHm H) as (y & Hy & Hn). exists y. split; [right; exact Hy|exact Hn].
        - exists d. split; [left; reflexivity|congruence]. }
      destruct X as (d & Hd & Hn). unfold w_children in Hd. apply filter_In in Hd as [Hd Hw].
      exists d. split; [exact Hd|]. split; [apply has_word, Hw|apply IH, Hn].
  - intros (c & Hc & Hw & He) E. apply IH in He.
    assert (X : In c (w_children p n)) by (apply filter_In; split; [exact Hc|apply has_word, Hw]).
    destruct (w_path path c) as [|x xs] eqn:Ec; [congruence|].
    assert (Y : In x (flat_map (w_path path) (w_children p n))) by (apply in_flat_map; exists c; rewrite Ec; split; [exact X|left; reflexivity]).
    rewrite E in Y. destruct Y.
Qed.
Lemma w_first_exists path n : w_first path n <> None <-> exists_at path n.
Proof.
  rewrite <- w_path_exists. unfold w_first. destruct (w_path path n); cbn; split; congruence.
Qed.

(** ** What the parser reads *)

Lemma tc_width_spec e w : columns e w -> tc_width e = Ok w.
Proof.
  unfold tc_width. intros [(v & Hv & Hi)|[Hn ->]].
  - apply w_attr_spec in Hv. rewrite Hv. cbn. apply py_int_spec, Hi.
  - apply w_attr_none in Hn. rewrite Hn. reflexivity.
Qed.
Lemma tc_begins e : begins e -> tc_merge e = None \/ tc_merge e = Some "restart".
Proof.
  unfold tc_merge. intros [H|H].
  - left. destruct (w_first ["tcPr"; "vMerge"] e) eqn:E; [|reflexivity]. exfalso. apply H, w_first_exists. congruence.
  - apply w_attr_spec in H. rewrite H. destruct (w_first ["tcPr"; "vMerge"] e); auto.
Qed.
Lemma tc_continues e : continues e -> tc_merge e = Some "continue".
Proof.
  unfold tc_merge. intros [H Hv]. apply w_first_exists in H. destruct (w_first ["tcPr"; "vMerge"] e); [|congruence].
  destruct Hv as [Hv|Hv]; [apply w_attr_spec in Hv|apply w_attr_none in Hv]; rewrite Hv; reflexivity.
Qed.
Lemma tr_nature_spec e : (header_row e -> tr_nature e = Ok "header") /\ (body_row e -> tr_nature e = Ok "body").
Proof.
  unfold tr_nature. split.
  - intros [H Hv]. apply w_first_exists in H. destruct (w_first ["trPr"; "tblHeader"] e); [|congruence].
    destruct Hv as [Hv|Hv]; [apply w_attr_spec in Hv|apply w_attr_none in Hv]; rewrite Hv; reflexivity.
  - intros [H|H].
    + destruct (w_first ["trPr"; "tblHeader"] e) eqn:E; [|reflexivity]. exfalso. apply H, w_first_exists. congruence.
    + apply w_attr_spec in H. rewrite H. destruct (w_first ["trPr"; "tblHeader"] e); reflexivity.
Qed.
Lemma tc_content_spec e : paragraphs e (map CNode (tc_content e)).
Proof.
  unfold paragraphs, tc_content.
  exists (filter (fun c => x_has_tag c (wq "p") || x_has_tag c (wq "tbl")) (x_children e)). split.
  - induction (x_children e) as [|c l IH]; cbn [filter]; [constructor|].
    destruct (x_has_tag c (wq "p") || x_has_tag c (wq "tbl")) eqn:E; constructor; try exact IH.
    + rewrite <- !has_word. apply orb_true_iff, E.
    + rewrite <- !has_word. rewrite <- orb_true_iff, E. discriminate.
  - rewrite map_map. reflexivity.
Qed.
Lemma paragraphs_fun e l : paragraphs e l -> l = map CNode (tc_content e).
Proof.
  intros (nodes & H & ->). unfold tc_content. rewrite map_map. f_equal.
  induction H as [|c l m Hc H IH|c l m Hc H IH]; cbn [filter]; [reflexivity| |].
  - rewrite <- !has_word, <- orb_true_iff in Hc. rewrite Hc. congruence.
  - rewrite <- !has_word, <- orb_true_iff in Hc. destruct (x_has_tag c (wq "p") || x_has_tag c (wq "tbl")); [congruence|exact IH].
Qed.
