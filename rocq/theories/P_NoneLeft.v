(** * Proofs: the elements of a table which is written in CALS *)
From Coq Require Import QArith Permutation.
From Verif Require Import Base M_Geometry M_Xml M_Cell M_Grid M_Table M_Str M_Builder M_Cals M_CalsParser M_FormexRead M_Ooxml M_Transform M_Convert M_ConvertDoc.
From Verif Require Import S_Geometry S_Grid S_Table S_Builder S_Cals S_CalsParser S_FormexFinal S_FormexFinished S_Transform S_Convert S_ConvertDoc.
From Verif Require Import P_Table P_Cals P_Builder P_Formex P_FormexFinish P_FormexFinished P_FormexFinishedMain P_Transform P_RoundTrip P_Source P_ConvertDoc P_ConvertFinish P_ConvertFormex.
Open Scope string_scope.
Open Scope list_scope.
Open Scope Z_scope.

Definition CALS_NAMES : list string := ["table"; "tgroup"; "colspec"; "thead"; "tbody"; "tfoot"; "row"; "entry"].

Section Cals.
  Variable o : cals_opts.
  Variable names : list string.
  Hypothesis apart : forall name, In name CALS_NAMES -> ~ In (cals o name) names.
  Definition bare (p : piece) : Prop := match p with Node n => lacks names n | Char _ => True end.

  Lemma node_bare n : Forall bare (node_pieces n) -> lacks names n.
  Proof. intros H. inversion H as [|? ? H1 _]; subst. exact (lacks_tail _ _ None H1). Qed.
  Lemma nodes_bare l : Forall bare (flat_map node_pieces l) -> Forall (lacks names) l.
  Proof.
    induction l as [|n l IH]; intros H; [constructor|]. cbn [flat_map] in H. apply Forall_app in H as [H1 H2].
    constructor; [apply node_bare, H1|apply IH, H2].
  Qed.
  Ltac named := apply lacks_elem; [apply apart; cbn; tauto|].
  Lemma entry_bare bb cs rs c e : Forall bare (content_pieces (c_content c)) -> build_cell o bb cs rs c = Ok e -> lacks names e.
  Proof.
    intros HC H. unfold build_cell in H. destruct bb as [bb|]; [|discriminate]. bind H as a1 E1. bind H as a2 E2. bind H as a3 E3. bind H as a4 E4. bind H as a5 E5.
    apply content_written in H as (H1 & _ & _ & H2). destruct e as [tag attrs text ch tail| |]; try discriminate H1. injection H1 as ->. named.
    rewrite <- H2 in HC. unfold elem_pieces in HC. apply Forall_app in HC as [_ HC]. apply nodes_bare, HC.
  Qed.
  Lemma row_bare bb cs rs row l : (forall c, In c (v_owned row) -> Forall bare (content_pieces (c_content c))) -> build_row o bb cs rs row = Ok l -> Forall (lacks names) l.
  Proof.
    intros HC H. unfold build_row in H. bind H as a1 E1. bind H as a2 E2. bind H as st E3. bind H as at' E4. bind H as fi E5. bind H as cells E6. injection H as <-.
    assert (HP : forall nm r x, (if dmem (v_styles row) "x-ins" then pi <-? revision_mark nm r ;; Ok [pi] else Ok []) = Ok x -> Forall (lacks names) x).
    { intros nm r x H. destruct (dmem _ _); [|injection H as <-; constructor]. bind H as pi E. injection H as <-.
      unfold revision_mark in E. bind E as aa Ea. injection E as <-. constructor; [apply lacks_pi|constructor]. }
    apply Forall_app. split; [exact (HP _ _ _ E3)|]. constructor; [|exact (HP _ _ _ E5)].
    named. apply rmap_Forall2 in E6. apply Forall_forall. intros x Hx. apply (Forall2_in_r _ _ _ x E6) in Hx as (c & Hc & Hcx).
    destruct bb as [b|]; cbn [rbind] in Hcx; [|discriminate]. exact (entry_bare _ _ _ _ _ (HC c Hc) Hcx).
  Qed.
  Lemma grouped rows : flat_map snd (group_by_nature rows) = rows.
  Proof.
    induction rows as [|r rows IH]; [reflexivity|]. cbn [group_by_nature]. destruct (group_by_nature rows) as [|[n g] gs].
    - cbn. f_equal. exact IH.
    - destruct (nature_eqb _ _); cbn [flat_map snd app] in *; rewrite <- IH; reflexivity.
  Qed.
  Lemma in_sorted {A} key (l : list A) x : In x (sort_by key l) -> In x l.
  Proof.
    assert (I : forall a l, In x (insert_by key a l) -> x = a \/ In x l).
    { intros a l0. induction l0 as [|b l0 IH]; cbn [insert_by]; intros H; [destruct H as [<-|[]]; auto|].
      destruct (key a <=? key b)%Z; [destruct H as [<-|H]; auto|]. destruct H as [<-|H]; [right; left; reflexivity|]. destruct (IH H) as [->|H']; [auto|right; right; exact H']. }
    induction l as [|a l IH]; intros H; [exact H|]. destruct (I _ _ H) as [->|H']; [left; reflexivity|right; apply IH, H'].
  Qed.
  Lemma cals_bare t e : treachable t -> views_exact Rows t ->
    (forall c, In c (t_grid t) -> Forall bare (content_pieces (c_content c))) -> generate_table_tree o t = Ok e -> lacks names e.
  Proof.
    intros HR HX HC H. unfold generate_table_tree in H. bind H as fr E1. bind H as car E2. destruct car as [[cs rs] a].
    bind H as a1 E3. bind H as a2 E4. bind H as a3 E5. bind H as tg E6. injection H as <-. named. constructor; [|constructor].
    unfold build_tgroup in E6. bind E6 as cols F1. bind E6 as car F2. destruct car as [[cs' rs'] a']. bind E6 as at' F3. bind E6 as specs F4. bind E6 as rows F5. bind E6 as bodies F6. injection E6 as <-.
    named. apply Forall_app. split.
    - apply rmap_Forall2 in F4. apply Forall_forall. intros x Hx. apply (Forall2_in_r _ _ _ x F4) in Hx as (v & _ & Hv). unfold build_colspec in Hv.
      bind Hv as b1 G1. bind Hv as b2 G2. bind Hv as b3 G3. bind Hv as b4 G4. injection Hv as <-. named. constructor.
    - apply rmap_Forall2 in F6. apply Forall_forall. intros x Hx. apply (Forall2_in_r _ _ _ x F6) in Hx as (g & Hg & Hb). apply in_sorted in Hg.
      unfold build_tbody in Hb. bind Hb as items G1. injection Hb as <-. apply lacks_elem.
      { apply apart. unfold group_tag. destruct (fst g) as [n|]; [|cbn; tauto]. cbn [dget GROUP_TAGS]. repeat (destruct (String.eqb _ _); [cbn; tauto|]). cbn. tauto. }
      apply rmap_Forall2 in G1. apply Forall_forall. intros y Hy. apply in_concat in Hy as (l & Hl & Hy). apply (Forall2_in_r _ _ _ l G1) in Hl as (row & Hrow & Hr).
      assert (K : Forall (lacks names) l); [|rewrite Forall_forall in K; apply K, Hy]. apply (row_bare _ _ _ row) with (2 := Hr). intros c Hc. apply HC.
      apply (Permutation.Permutation_in _ (owned_all t rows HR HX F5)). apply in_flat_map. exists row. split; [|exact Hc].
      rewrite <- (grouped rows). apply in_flat_map. exists g. auto.
  Qed.
End Cals.

(** ** Names *)
Lemma lacks_has ns name n : lacks [expanded ns name] n <-> (has_name ns name n = false /\ forall m, inside n m -> has_name ns name m = false).
Proof.
  assert (T : forall m, (forall s, x_tag m = Some s -> ~ In s [expanded ns name]) <-> has_name ns name m = false).
  { intros m. unfold has_name. destruct m as [tag ? ? ? ?| |]; cbn [x_tag x_has_tag]; [|split; [reflexivity|discriminate]..]. split.
    - intros H. destruct (String.eqb_spec (expanded ns name) tag) as [E|E]; [|reflexivity]. exfalso. apply (H _ eq_refl). left. exact E.
    - intros H s [= <-] [E|[]]. rewrite E, String.eqb_refl in H. discriminate H. }
  split.
  - intros H. split; [inversion H as [? H1 _]; apply T, H1|]. intros m Hm. revert H. induction Hm as [n c Hc|n c m Hc _ IH]; intros H; inversion H as [? _ H2]; subst.
    + specialize (H2 c Hc). inversion H2 as [? H3 _]. apply T, H3.
    + apply IH, H2, Hc.
  - induction n as [tag attrs text children tail IH| |] using xnode_ind'; intros [H1 H2]; constructor; try (apply T; exact H1); try (intros c []).
    intros c Hc. rewrite Forall_forall in IH. apply (IH c Hc). split; [apply H2, in_child, Hc|]. intros m Hm. apply H2, (in_deep _ c); assumption.
Qed.

(** Two names are different, whatever the name spaces, if they end with different characters. *)
Fixpoint last_ascii (s : string) : option ascii :=
  match s with EmptyString => None | String a s' => match last_ascii s' with Some b => Some b | None => Some a end end.
Lemma last_append a b : last_ascii b <> None -> last_ascii (a ++ b)%string = last_ascii b.
Proof.
  intros H. induction a as [|x a IH]; [reflexivity|]. change (String x a ++ b)%string with (String x (a ++ b)). cbn [last_ascii]. rewrite IH.
  destruct (last_ascii b); [reflexivity|congruence].
Qed.
Lemma last_qname ns name : last_ascii name <> None -> last_ascii (qname ns name) = last_ascii name.
Proof.
  intros H. destruct ns as [ns|]; [|reflexivity]. unfold qname.
  change (String "{"%char (ns ++ String "}"%char name))%string with ("{" ++ (ns ++ ("}" ++ name)))%string.
  assert (H1 : last_ascii ("}" ++ name) = last_ascii name) by (apply last_append, H).
  assert (H2 : last_ascii (ns ++ ("}" ++ name)) = last_ascii name) by (rewrite last_append; [exact H1|rewrite H1; exact H]).
  rewrite last_append; [exact H2|rewrite H2; exact H].
Qed.
Lemma names_apart ns ns' a b : last_ascii a <> None -> last_ascii b <> None -> last_ascii a <> last_ascii b -> qname ns a <> qname ns' b.
Proof. intros Ha Hb Hd E. apply Hd. rewrite <- (last_qname ns a Ha), E. apply last_qname, Hb. Qed.

(** ** Pieces *)
Lemma pieces_bare names n : Forall (lacks names) (x_children n) -> forall p, In p (elem_pieces n) -> bare names p.
Proof.
  intros H p Hp. unfold elem_pieces in Hp. apply in_app_or in Hp as [Hp|Hp].
  - destruct (x_text n) as [s|]; [|destruct Hp]. unfold otext_pieces, text_pieces in Hp. apply in_map_iff in Hp as (a & <- & _). exact I.
  - apply in_flat_map in Hp as (c & Hc & Hp). rewrite Forall_forall in H. destruct Hp as [<-|Hp]; [apply lacks_set_tail, H, Hc|].
    destruct (x_tail c) as [s|]; [|destruct Hp]. unfold otext_pieces, text_pieces in Hp. apply in_map_iff in Hp as (a & <- & _). exact I.
Qed.
Lemma node_pieces_bare names n : lacks names n -> forall p, In p (node_pieces n) -> bare names p.
Proof.
  intros H p Hp. destruct Hp as [<-|Hp]; [apply lacks_set_tail, H|].
  destruct (x_tail n) as [s|]; [|destruct Hp]. unfold otext_pieces, text_pieces in Hp. apply in_map_iff in Hp as (a & <- & _). exact I.
Qed.
Lemma lacks_children names n : lacks names n -> Forall (lacks names) (x_children n).
Proof. intros H. inversion H as [? _ H2]; subst. apply Forall_forall. exact H2. Qed.
Lemma lacks_inside names n m : inside n m -> lacks names n -> lacks names m.
Proof. induction 1 as [n c Hc|n c m Hc _ IH]; intros H; inversion H as [? _ H2]; subst; [apply H2, Hc|apply IH, H2, Hc]. Qed.

(** ** Documents *)
Section Left.
  Variables is_table : xnode -> bool.
  Variable names : list string.
  Hypothesis is_name : forall n, is_table n = false <-> (forall s, x_tag n = Some s -> ~ In s names).

  Lemma flat_lacks n : is_table n = true -> flat is_table n -> Forall (lacks names) (x_children n).
  Proof.
    intros Ht [H _]. specialize (H Ht). apply Forall_forall. intros c Hc.
    assert (K : forall c, (is_table c = false /\ forall m, inside c m -> is_table m = false) -> lacks names c).
    { clear n Ht H c Hc. induction c as [tag attrs text children tail IH| |] using xnode_ind'; intros [H1 H2]; constructor; try (apply is_name; exact H1); try (intros c []).
      intros c Hc. rewrite Forall_forall in IH. apply (IH c Hc). split; [apply H2, in_child, Hc|]. intros m Hm. apply H2, (in_deep _ c); assumption. }
    apply K. split; [apply H, in_child, Hc|]. intros m Hm. apply H, (in_deep _ c); assumption.
  Qed.
  Lemma other_lacks tag attrs text ch ch' tail : is_table (XElem tag attrs text ch tail) = false -> Forall (lacks names) ch' -> lacks names (XElem tag attrs text ch' tail).
  Proof. intros H1 H2. apply lacks_elem; [|exact H2]. apply (proj1 (is_name _) H1). reflexivity. Qed.

  Lemma converted_lacks (R : list xnode -> list xnode -> xnode -> xnode -> Prop) :
    (forall b a n e, is_table n = true -> Forall (lacks names) (x_children n) -> R b a n e -> lacks names e) ->
    forall n b a d, flat is_table n -> converted is_table R b a n d -> lacks names d.
  Proof.
    intros HR. induction n as [tag attrs text children tail IH| |] using xnode_ind'; intros b a d Hf H; inversion H; subst.
    - apply lacks_set_tail. apply (HR _ _ _ _) with (3 := H1); [exact H0|]. apply flat_lacks; assumption.
    - match goal with H1 : is_table _ = false, H2 : converted_list _ _ _ _ _ _ |- _ => rename H1 into Ht, H2 into HL end.
      apply (other_lacks _ _ _ children); [exact Ht|].
      assert (Hc : forall c, In c children -> flat is_table c) by (intros c Hc; apply (flat_child is_table (XElem tag attrs text children tail)); assumption).
      clear Ht Hf H. revert b a children' HL. induction children as [|c l IHl]; intros b a l' HL; inversion HL; subst; [constructor|].
      inversion IH as [|? ? I1 I2]; subst. constructor; [eapply I1; [apply Hc; left; reflexivity|eassumption]|].
      eapply IHl; [exact I2|intros y Hy; apply Hc; right; exact Hy|eassumption].
    - apply lacks_set_tail. apply (HR _ _ _ _) with (3 := H1); [exact H0|constructor].
    - apply lacks_pi.
    - apply lacks_set_tail. apply (HR _ _ _ _) with (3 := H1); [exact H0|constructor].
    - constructor; [discriminate|intros x []].
  Qed.

  Lemma fconverted_lacks is_notes is_blk (R : xnode -> Z -> list xnode -> xnode -> xnode -> Prop) :
    (forall parent k bef n e, is_table n = true -> Forall (lacks names) (x_children n) -> Forall (lacks names) bef -> R parent k bef n e -> lacks names e) ->
    forall n b d, flat is_table n -> fconverted is_table is_notes is_blk R b n d -> lacks names d.
  Proof.
    intros HR. induction n as [tag attrs text children tail IH| |] using xnode_ind'; intros b d Hf H; inversion H as [? ? ? ? ? ch' ? Ht HL| |]; subst.
    - apply (other_lacks _ _ _ children); [exact Ht|].
      assert (Hc : forall c, In c children -> flat is_table c) by (intros c Hc; apply (flat_child is_table (XElem tag attrs text children tail)); assumption).
      assert (G : forall l parent B done r, fchildren is_table is_notes is_blk R parent B done l r ->
        Forall (fun n => forall b d, flat is_table n -> fconverted is_table is_notes is_blk R b n d -> lacks names d) l -> (forall c, In c l -> flat is_table c) ->
        Forall (lacks names) done -> Forall (lacks names) r).
      { clear IH Hf H HL Hc Ht. induction l as [|c l IHl]; intros parent B done r HL IH Hc Hd; inversion HL; subst; [exact Hd| |]; inversion IH as [|? ? I1 I2]; subst.
        - eapply IHl; [eassumption|exact I2|intros y Hy; apply Hc; right; exact Hy|]. apply Forall_app. split.
          + apply Forall_forall. intros y Hy. apply filter_In in Hy as [Hy _]. rewrite Forall_forall in Hd. apply Hd, Hy.
          + constructor; [|constructor]. apply lacks_set_tail. eapply HR; [eassumption| |exact Hd|eassumption]. apply flat_lacks; [assumption|apply Hc; left; reflexivity].
        - eapply IHl; [eassumption|exact I2|intros y Hy; apply Hc; right; exact Hy|]. apply Forall_app. split; [exact Hd|]. constructor; [|constructor].
          eapply I1; [apply Hc; left; reflexivity|eassumption]. }
      apply (G _ _ _ _ _ HL IH Hc). constructor.
    - apply lacks_pi.
    - constructor; [discriminate|intros x []].
  Qed.
End Left.
