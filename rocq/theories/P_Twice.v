(** * Proofs: the passes which complete a Formex document, on a completed one *)
From Verif Require Import Base M_Geometry M_Xml M_Cell M_Str M_Cals M_Formex M_FormexFinal M_FormexFinish M_Transform M_ConvertDoc.
From Verif Require Import S_Cals S_Formex S_FormexFinal S_FormexFinished S_Transform S_ConvertDoc S_Twice.
From Verif Require Import P_Cals P_FormexNumber P_FormexBlk P_FormexFinish P_FormexFinished P_FormexFinishedMain P_Transform P_ConvertDoc P_ConvertFinish P_Nested P_NestedKept P_FinishNames.
From Verif Require P_FormexEvents P_Grid.
Open Scope string_scope.
Open Scope list_scope.
Open Scope Z_scope.

(** ** Dictionaries *)
Lemma ddel_filter {V} (d : dict V) k : ddel d k = filter (fun kv => negb (String.eqb (fst kv) k)) d.
Proof.
  induction d as [|[a v] d IH]; [reflexivity|]. cbn [ddel filter fst]. rewrite (String.eqb_sym a k). destruct (String.eqb k a); cbn [negb]; rewrite IH; reflexivity.
Qed.
Lemma ddel_get {V} (d : dict V) k k' : dget (ddel d k) k' = if String.eqb k' k then None else dget d k'.
Proof.
  induction d as [|[a v] d IH]; cbn [ddel dget]; [destruct (String.eqb k' k); reflexivity|].
  destruct (String.eqb_spec k a) as [<-|Ha].
  - rewrite IH. destruct (String.eqb k' k); reflexivity.
  - cbn [dget]. destruct (String.eqb_spec k' a) as [->|]; [|exact IH]. destruct (String.eqb_spec a k); [congruence|reflexivity].
Qed.
Lemma ddel_absent {V} (d : dict V) k : dget d k = None -> ddel d k = d.
Proof.
  induction d as [|[a v] d IH]; [reflexivity|]. cbn [ddel dget]. destruct (String.eqb k a); [discriminate|]. intros H. rewrite IH by exact H. reflexivity.
Qed.
Definition dropped (ns : option string) (attrs : dict string) : dict string := fold_left (fun a k => ddel a (qname ns k)) SUPERFLUOUS attrs.
Lemma dropped_get ns attrs k : dget (dropped ns attrs) k = if existsb (fun s => String.eqb k (qname ns s)) SUPERFLUOUS then None else dget attrs k.
Proof.
  unfold dropped, SUPERFLUOUS. cbn [fold_left existsb]. rewrite !ddel_get. destruct (String.eqb k (qname ns "rowstyle")); [rewrite !orb_true_r; reflexivity|].
  destruct (String.eqb k (qname ns "morerows")); [rewrite !orb_true_r; reflexivity|].
  destruct (String.eqb k (qname ns "nameend")); [rewrite !orb_true_r; reflexivity|]. destruct (String.eqb k (qname ns "namest")); reflexivity.
Qed.
Lemma dropped_same ns attrs : (forall k, In k SUPERFLUOUS -> dget attrs (qname ns k) = None) -> dropped ns attrs = attrs.
Proof.
  intros H. unfold dropped, SUPERFLUOUS in *. cbn [fold_left]. rewrite (ddel_absent attrs (qname ns "namest")) by (apply H; cbn; tauto).
  rewrite (ddel_absent attrs (qname ns "nameend")) by (apply H; cbn; tauto). rewrite (ddel_absent attrs (qname ns "morerows")) by (apply H; cbn; tauto).
  apply ddel_absent, H. cbn. tauto.
Qed.
Lemma type_kept ns attrs : dget (dropped ns attrs) "TYPE" = dget attrs "TYPE".
Proof. rewrite dropped_get. unfold qname. destruct ns; reflexivity. Qed.
Lemma type_not_style ns : qname ns "rowstyle" <> "TYPE".
Proof. unfold qname. destruct ns; discriminate. Qed.

(** ** The rows without their types *)
Fixpoint untypes (n : xnode) : xnode :=
  match n with
  | XElem tag attrs text ch tail => XElem tag (if String.eqb tag "ROW" then ddel attrs "TYPE" else attrs) text (map untypes ch) tail
  | _ => n
  end.
Lemma untypes_spec n : rows_untyped n (untypes n).
Proof.
  induction n as [tag attrs text ch tail IH| |] using xnode_ind'; [|constructor..]. cbn [untypes].
  assert (F : Forall2 rows_untyped ch (map untypes ch)) by (induction IH; constructor; assumption).
  destruct (String.eqb_spec tag "ROW") as [->|Ht]; [|apply untyped_other; assumption]. rewrite ddel_filter. apply untyped_row, F.
Qed.
Lemma untypes_twice n : untypes (untypes n) = untypes n.
Proof.
  induction n as [tag attrs text ch tail IH| |] using xnode_ind'; [|reflexivity..]. cbn [untypes]. rewrite map_map. f_equal.
  - destruct (String.eqb tag "ROW"); [|reflexivity]. apply ddel_absent. rewrite ddel_get. reflexivity.
  - induction IH as [|c l H _ IHl]; [reflexivity|]. cbn [map]. rewrite H, IHl. reflexivity.
Qed.

(** ** What is found in a completed document *)
Section Settled.
  Variable named : bool.
  Variable ns : option string.
  Definition typed (attrs : dict string) : Prop := dget attrs "TYPE" = None \/ (named = true /\ dget attrs "TYPE" <> Some "__GR.NOTES__").
  Definition plain (n : xnode) : Prop := x_get n (qname ns "rowstyle") = None.
  Inductive settled : bool -> xnode -> Prop :=
  | st_elem under tag attrs text ch tail :
      (tag = "ROW" -> typed attrs) -> (tag = "CORPUS" -> Forall plain ch) ->
      (under || String.eqb tag "TBL" = true -> In tag DROP_IN -> forall k, In k SUPERFLUOUS -> dget attrs (qname ns k) = None) ->
      Forall (settled (under || String.eqb tag "TBL")) ch -> settled under (XElem tag attrs text ch tail)
  | st_pi under a b c : settled under (XPI a b c)
  | st_comment under a b : settled under (XComment a b).

  Lemma settled_inv under tag attrs text ch tail : settled under (XElem tag attrs text ch tail) ->
    (tag = "ROW" -> typed attrs) /\ (tag = "CORPUS" -> Forall plain ch) /\
    (under || String.eqb tag "TBL" = true -> In tag DROP_IN -> forall k, In k SUPERFLUOUS -> dget attrs (qname ns k) = None) /\
    Forall (settled (under || String.eqb tag "TBL")) ch.
  Proof. intros H. inversion H; subst. auto. Qed.

  Lemma plain_untypes n : plain n -> plain (untypes n).
  Proof.
    destruct n as [tag attrs text ch tail| |]; intros H; try exact H. unfold plain, x_get in *. cbn [untypes x_attrs] in *. destruct (String.eqb tag "ROW"); [|exact H].
    rewrite ddel_get, H. destruct (String.eqb _ _); reflexivity.
  Qed.
  Lemma settled_untypes n : forall under, settled under n -> settled under (untypes n).
  Proof.
    induction n as [tag attrs text ch tail IH| |] using xnode_ind'; intros under H; [|exact H..]. apply settled_inv in H as (H1 & H2 & H3 & H4). cbn [untypes]. constructor.
    - intros ->. left. rewrite String.eqb_refl, ddel_get. reflexivity.
    - intros E. apply Forall_forall. intros x Hx. apply in_map_iff in Hx as (y & <- & Hy). specialize (H2 E). rewrite Forall_forall in H2. apply plain_untypes, H2, Hy.
    - intros U D k Hk. specialize (H3 U D k Hk). destruct (String.eqb tag "ROW"); [|exact H3]. rewrite ddel_get, H3. destruct (String.eqb (qname ns k) "TYPE"); reflexivity.
    - rewrite Forall_forall in *. intros x Hx. apply in_map_iff in Hx as (y & <- & Hy). apply IH; [exact Hy|apply H4, Hy].
  Qed.
  (** no type is left when the rows have no names *)
  Lemma untypes_unnamed n : named = false -> forall under, settled under n -> untypes n = n.
  Proof.
    intros N. induction n as [tag attrs text ch tail IH| |] using xnode_ind'; intros under H; [|reflexivity..]. apply settled_inv in H as (H1 & _ & _ & H4). cbn [untypes]. f_equal.
    - destruct (String.eqb_spec tag "ROW") as [->|]; [|reflexivity]. destruct (H1 eq_refl) as [E|[E _]]; [|congruence]. apply ddel_absent, E.
    - clear H1. revert H4. generalize (under || String.eqb tag "TBL")%bool. intros u H4. induction IH as [|c l Hc _ IHl]; [reflexivity|]. inversion H4; subst. cbn [map]. rewrite (Hc u), IHl by assumption. reflexivity.
  Qed.
  Lemma extract_settled n : forall under, settled under n -> extract_in n = Ok ([untypes n], []).
  Proof.
    induction n as [tag attrs text ch tail IH| |] using xnode_ind'; intros under H; [|reflexivity..]. apply settled_inv in H as (H1 & _ & _ & H4). rewrite extract_elem.
    assert (E : extract_list ch = Ok (map untypes ch, [])).
    { clear H1. revert H4. generalize (under || String.eqb tag "TBL")%bool. intros u H4. induction IH as [|c l Hc _ IHl]; [reflexivity|]. inversion H4; subst. cbn [extract_list map].
      rewrite (Hc u) by assumption. cbn [rbind]. rewrite IHl by assumption. reflexivity. }
    rewrite E. cbn [rbind untypes]. destruct (String.eqb_spec tag "TBL") as [->|Ht]; [reflexivity|]. destruct (String.eqb_spec tag "ROW") as [->|Hr]; [|reflexivity].
    cbv zeta. destruct (dget attrs "TYPE") as [t|] eqn:Et; [|reflexivity]. destruct (H1 eq_refl) as [K|[_ K]]; [congruence|]. destruct (String.eqb_spec t "__GR.NOTES__") as [->|]; [congruence|reflexivity].
  Qed.
  Lemma steps_plain l : Forall plain l -> forall f, blk_steps ns [f] (combine l l) = Ok [f ++ l].
  Proof.
    induction 1 as [|n l Hn _ IH]; intros f; [rewrite app_nil_r; reflexivity|]. cbn [combine blk_steps].
    assert (E : blk_step ns [f] (n, n) = Ok [f ++ [n]]).
    { unfold blk_step. destruct n as [tag attrs text ch tail|a b c|a b]; [|reflexivity|reflexivity]. unfold plain in Hn. rewrite Hn. reflexivity. }
    rewrite E. cbn [rbind]. rewrite IH, <- app_assoc. reflexivity.
  Qed.
  Lemma insert_settled n : forall under, settled under n -> insert_blk ns n = Ok n.
  Proof.
    induction n as [tag attrs text ch tail IH| |] using xnode_ind'; intros under H; [|reflexivity..]. apply settled_inv in H as (_ & H2 & _ & H4). rewrite insert_elem.
    assert (E : insert_list ns ch = Ok ch).
    { clear H2. revert H4. generalize (under || String.eqb tag "TBL")%bool. intros u H4. induction IH as [|c l Hc _ IHl]; [reflexivity|]. inversion H4; subst. cbn [insert_list].
      rewrite (Hc u) by assumption. cbn [rbind]. rewrite IHl by assumption. reflexivity. }
    rewrite E. cbn [rbind]. destruct (String.eqb_spec tag "CORPUS") as [->|]; [|reflexivity]. unfold blk_children. rewrite (steps_plain ch (H2 eq_refl)). reflexivity.
  Qed.
  Lemma drop_settled n : forall under, settled under n -> drop_in ns under n = n.
  Proof.
    induction n as [tag attrs text ch tail IH| |] using xnode_ind'; intros under H; [|reflexivity..]. apply settled_inv in H as (_ & _ & H3 & H4). cbn [drop_in]. cbv zeta. f_equal.
    - destruct (under || String.eqb tag "TBL")%bool eqn:U; [|reflexivity]. cbn [andb]. destruct (existsb (String.eqb tag) DROP_IN) eqn:D; [|reflexivity].
      apply existsb_exists in D as (x & Hx & Ex). apply String.eqb_eq in Ex as <-. apply (dropped_same ns), (H3 eq_refl Hx).
    - clear H3. revert H4. generalize (under || String.eqb tag "TBL")%bool. intros u H4. induction IH as [|c l Hc _ IHl]; [reflexivity|]. inversion H4; subst. cbn [map]. rewrite Hc, IHl by assumption. reflexivity.
  Qed.
  (** the passes on a completed document *)
  Lemma later_settled n : settled false n -> P_ConvertFinish.later ns n = Ok (untypes n).
  Proof.
    intros H. unfold P_ConvertFinish.later, extract_gr_notes. rewrite (extract_settled n _ H). cbn [rbind]. pose proof (settled_untypes n _ H) as H'. rewrite (insert_settled _ _ H'). cbn [rbind].
    unfold drop_pass, drop_superfluous_attrs. rewrite (drop_settled _ _ H'). reflexivity.
  Qed.
End Settled.

(** ** The passes lead to such a document *)
Section Stages.
  Variable named : bool.
  Variable ns : option string.
  Definition P0 (n : xnode) : Prop := x_tag n = Some "CORPUS" -> Forall (kid named ns) (x_children n).
  Definition P1 (n : xnode) : Prop := P0 n /\ (x_tag n = Some "ROW" -> x_get n "TYPE" = None).
  Lemma P1_tail n t : P1 (x_set_tail n t) <-> P1 n.
  Proof. destruct n; reflexivity. Qed.
  Lemma P1_free tag attrs text ch tail : tag <> "CORPUS" -> tag <> "ROW" -> P1 (XElem tag attrs text ch tail).
  Proof. intros H1 H2. split; intros [= E]; congruence. Qed.
  Notation ok := (all P1).

  (** a node keeps its name and its attributes, but for the type of a row *)
  Definition alike (n n' : xnode) : Prop := x_tag n' = x_tag n /\ forall k, k <> "TYPE" -> x_get n' k = x_get n k.
  Lemma kid_alike n n' : alike n n' -> kid named ns n -> kid named ns n'.
  Proof. intros [H1 H2] [[H3 H4]|H]; [left; split; [exact H3|congruence]|right]. rewrite H2; [exact H|apply type_not_style]. Qed.
  Lemma extract_alike n r : extract_in n = Ok r -> fst r = [] \/ exists n', fst r = [n'] /\ alike n n'.
  Proof.
    destruct n as [tag attrs text ch tail|a b c|a b]; intros E; [|injection E as <-; right; eexists; split; [reflexivity|split; reflexivity]..].
    rewrite extract_elem in E. bind E as cn En. destruct cn as [ch' notes].
    assert (A : forall a t l, a = attrs \/ a = ddel attrs "TYPE" -> alike (XElem tag attrs text ch tail) (XElem tag a t l tail)).
    { intros a t l [-> | ->]; (split; [reflexivity|]); intros k Hk; [reflexivity|]. unfold x_get. cbn [x_attrs]. rewrite ddel_get. destruct (String.eqb_spec k "TYPE"); [contradiction|reflexivity]. }
    destruct (String.eqb tag "TBL"); [bind E as tc Et; injection E as <-; right; eexists; split; [reflexivity|apply A; auto]|].
    destruct (String.eqb tag "ROW"); [|injection E as <-; right; eexists; split; [reflexivity|apply A; auto]].
    cbv zeta in E. destruct (dget attrs "TYPE") as [t|]; [|injection E as <-; right; eexists; split; [reflexivity|apply A; auto]].
    destruct (String.eqb t "__GR.NOTES__"); [bind E as x Ex; injection E as <-; left; reflexivity|].
    injection E as <-; right; eexists; split; [reflexivity|apply A; auto].
  Qed.
  Lemma extract_kids l ch notes : extract_list l = Ok (ch, notes) -> Forall (kid named ns) l -> Forall (kid named ns) ch.
  Proof.
    revert ch notes. induction l as [|c l IH]; intros ch notes E H; [injection E as <- _; constructor|]. inversion H as [|? ? H1 H2]; subst. cbn [extract_list] in E.
    bind E as a Ea. bind E as b Eb. destruct b as [b1 b2]. injection E as <- _. apply Forall_app. split; [|apply (IH b1 b2 eq_refl H2)].
    destruct (extract_alike c a Ea) as [->|(c' & -> & A)]; [constructor|]. constructor; [exact (kid_alike _ _ A H1)|constructor].
  Qed.

  Definition notes1 (l : list note) : Prop := Forall (fun x => Forall ok (snd x)) l.
  Lemma add_attrs1 a n : x_has_tag n "GR.NOTES" = true -> ok n -> ok (x_add_attrs a n).
  Proof.
    destruct n as [tag attrs text ch tail| |]; intros Ht H; try exact H. apply String.eqb_eq in Ht as <-. cbn [x_add_attrs].
    apply all_node; [apply P1_free; discriminate|exact (all_children P1 _ H)].
  Qed.
  Lemma update1 p f : (forall n, p n = true -> ok n -> ok (f n)) -> forall l l', Forall ok l -> update_first p f l = Some l' -> Forall ok l'.
  Proof.
    intros Hf. induction l as [|c l IH]; intros l' H E; [discriminate|]. inversion H as [|? ? H1 H2]; subst. cbn [update_first] in E.
    destruct (p c) eqn:Ep; [injection E as <-; constructor; [apply Hf; assumption|exact H2]|].
    destruct (update_first p f l) as [r|] eqn:Er; [|discriminate]. injection E as <-. constructor; [exact H1|apply (IH r H2 eq_refl)].
  Qed.
  Lemma note1 attrs l x : Forall ok l -> note_of attrs l = Ok x -> Forall ok (snd x).
  Proof.
    intros H E. unfold note_of in E. destruct (find _ l) as [cell|] eqn:Ef; [|discriminate]. apply find_some in Ef as [Hi _]. rewrite Forall_forall in H.
    pose proof (all_children P1 cell (H cell Hi)) as HC.
    destruct (update_first _ _ _) as [l'|] eqn:Eu; injection E as <-; cbn [snd].
    - exact (update1 _ _ (add_attrs1 attrs) _ _ HC Eu).
    - constructor; [|constructor]. cbn [x_add_attrs]. apply all_node; [apply P1_free; discriminate|exact HC].
  Qed.
  Lemma tail_last1 s l : Forall ok l -> Forall ok (tail_last s l).
  Proof.
    induction l as [|n l IH]; intros H; [constructor|]. inversion H as [|? ? H1 H2]; subst. cbn [tail_last]. destruct l; [constructor; [apply (all_tail P1 P1_tail), H1|constructor]|].
    constructor; [exact H1|apply IH, H2].
  Qed.
  Lemma put_notes1 notes : forall text before, notes1 notes -> Forall ok before -> Forall ok (snd (put_notes text before notes)).
  Proof.
    induction notes as [|[[s|] nodes] r IH]; intros text before H HB; [exact HB| |]; inversion H as [|? ? H1 H2]; subst; cbn [put_notes snd] in *.
    - destruct before as [|b bs]; [apply IH; assumption|]. apply IH; [exact H2|]. apply Forall_app. split; [apply tail_last1, HB|exact H1].
    - apply IH; [exact H2|]. apply Forall_app. split; assumption.
  Qed.
  Lemma split_corpus_app l a b : split_corpus l = Some (a, b) -> l = a ++ b.
  Proof.
    revert a b. induction l as [|c l IH]; intros a b E; [discriminate|]. cbn [split_corpus] in E. destruct (x_has_tag c "CORPUS"); [injection E as <- <-; reflexivity|].
    destruct (split_corpus l) as [[a' b']|]; [|discriminate]. injection E as <- <-. rewrite (IH a' b' eq_refl). reflexivity.
  Qed.
  Lemma insert_notes1 text l notes r : insert_notes text l notes = Ok r -> Forall ok l -> notes1 notes -> Forall ok (snd r).
  Proof.
    intros E H HN. unfold insert_notes in E. destruct notes as [|x notes]; [injection E as <-; exact H|]. destruct (split_corpus l) as [[a b]|] eqn:Es; [|discriminate].
    apply split_corpus_app in Es as ->. apply Forall_app in H as [Ha Hb]. pose proof (put_notes1 _ text a HN Ha) as K. destruct (put_notes text a (x :: notes)) as [t' b']. injection E as <-.
    apply Forall_app. split; [exact K|exact Hb].
  Qed.
  Lemma extract1 n : forall r, extract_in n = Ok r -> all P0 n -> Forall ok (fst r) /\ notes1 (snd r).
  Proof.
    induction n as [tag attrs text children tail IH| |] using xnode_ind'; intros r E H;
      [|injection E as <-; split; [constructor; [|constructor]|constructor]; intros m [<-|[]]; split; discriminate..].
    rewrite extract_elem in E. pose proof (H _ (nodes_self _)) as H1. pose proof (all_children P0 _ H) as H2. cbn [x_children] in H2. bind E as cn En. destruct cn as [ch notes].
    assert (G : Forall ok ch /\ notes1 notes).
    { clear E H H1. revert ch notes En. clear -IH H2. induction children as [|c l IHl]; intros ch notes En; [injection En as <- <-; split; constructor|].
      inversion IH as [|? ? I1 I2]; subst. inversion H2 as [|? ? J1 J2]; subst. cbn [extract_list] in En. bind En as a Ea. bind En as b Eb. injection En as <- <-.
      destruct (I1 a eq_refl J1) as [K1 K2]. destruct b as [b1 b2]. destruct (IHl I2 J2 b1 b2 eq_refl) as [K3 K4]. split; [apply Forall_app|apply Forall_app]; split; assumption. }
    destruct G as [G1 G2]. destruct (String.eqb_spec tag "TBL") as [->|Ht].
    { bind E as tc Et. injection E as <-. split; [|constructor]. constructor; [|constructor]. apply all_node; [apply P1_free; discriminate|apply (insert_notes1 _ _ _ _ Et G1 G2)]. }
    destruct (String.eqb_spec tag "ROW") as [->|Hr].
    - assert (K : ok (XElem "ROW" (ddel attrs "TYPE") text ch tail)).
      { apply all_node; [|exact G1]. split; [discriminate|]. intros _. unfold x_get. cbn [x_attrs]. rewrite ddel_get. reflexivity. }
      cbv zeta in E. destruct (dget attrs "TYPE") as [t|].
      + destruct (String.eqb t "__GR.NOTES__").
        * bind E as x Ex. injection E as <-. split; [constructor|]. constructor; [apply (note1 _ _ _ G1 Ex)|exact G2].
        * injection E as <-. split; [|exact G2]. constructor; [exact K|constructor].
      + injection E as <-. split; [|exact G2]. constructor; [exact K|constructor].
    - injection E as <-. split; [|exact G2]. constructor; [|constructor]. apply all_node; [|exact G1]. split; [|intros [= E]; congruence].
      intros [= ->]. apply (extract_kids _ _ _ En). apply H1. reflexivity.
  Qed.

  (** *** insert_blk *)
  Definition kid2 (n : xnode) : Prop := (exists s, x_tag n = Some s /\ In s ["ROW"; "TI.BLK"; "STI.BLK"]) \/ x_get n (qname ns "rowstyle") = None.
  Definition P2 (n : xnode) : Prop := (x_tag n = Some "ROW" -> typed named (x_attrs n)) /\ (x_tag n = Some "CORPUS" -> Forall kid2 (x_children n)).
  Lemma P2_free tag attrs text ch tail : tag <> "CORPUS" -> tag <> "ROW" -> P2 (XElem tag attrs text ch tail).
  Proof. intros H1 H2. split; intros [= E]; congruence. Qed.
  Notation ok2 := (all P2).
  Lemma insert_head n n' : insert_blk ns n = Ok n' -> x_tag n' = x_tag n /\ x_attrs n' = x_attrs n.
  Proof.
    destruct n as [tag attrs text ch tail| |]; intros E; [|injection E as <-; auto..]. rewrite insert_elem in E. bind E as l El.
    destruct (String.eqb tag "CORPUS"); [bind E as l2 E2|]; injection E as <-; auto.
  Qed.
  Lemma item2 row row' x : kid named ns row -> x_tag row' = x_tag row -> x_attrs row' = x_attrs row -> ok2 row' ->
    blk_item ns (guess_row_info (x_get row (qname ns "rowstyle"))) row row' = Ok x -> ok2 x /\ kid2 x.
  Proof.
    intros HK HT HA HR H. pose proof (decoded_guess ns row) as D. set (info := guess_row_info (x_get row (qname ns "rowstyle"))) in *.
    assert (K2 : kid2 row') by (destruct HK as [[_ E]|E]; [left; exists "ROW"; split; [congruence|cbn; tauto]|right; unfold x_get in *; congruence]).
    unfold blk_item in H. destruct (String.eqb_spec (ri_tag info) "ROW") as [Er|Er].
    - destruct (ri_type info) as [t|] eqn:Et; injection H as <-; [|split; assumption].
      assert (ST : named = true /\ x_tag row = Some "ROW" /\ In t row_types).
      { assert (S : exists s, x_get row (qname ns "rowstyle") = Some s) by (subst info; destruct (x_get row (qname ns "rowstyle")) as [s|]; [eauto|discriminate Et]).
        destruct S as [s Es]. destruct HK as [[N E]|E]; [|congruence]. split; [exact N|]. split; [exact E|].
        unfold decoded, attribute in D. rewrite <- qname_expanded, Es in D. destruct D as [(lv & (_ & D & _) & _)|(_ & _ & D & _)]; [exact (D t eq_refl)|discriminate]. }
      destruct ST as (N & E & HI). destruct row' as [tag attrs text ch tail| |]; [|split; assumption..].
      rewrite E in HT. injection HT as ->. split; [|left; exists "ROW"; split; [reflexivity|cbn; tauto]]. apply all_node.
      + split; [|discriminate]. intros _. right. split; [exact N|]. cbn [x_attrs]. rewrite P_Grid.dget_dset_same. intros [= ->]. cbn in HI. intuition discriminate.
      + pose proof (all_children P2 _ HR) as HC. cbn [x_children] in HC. apply Forall_forall. intros y Hy. apply in_map_iff in Hy as (c & <- & Hc). rewrite Forall_forall in HC. specialize (HC c Hc).
        destruct (x_has_tag c "CELL") eqn:Ec; [|exact HC]. destruct c as [tg at' tx cc tl| |]; try exact HC. apply String.eqb_eq in Ec as <-. cbn [x_set].
        apply all_node; [apply P2_free; discriminate|exact (all_children P2 _ HC)].
    - cbv zeta in H. bind H as found Ef. bind H as cell Ec. destruct cell as [c' [a b]]. injection H as <-.
      set (cells := filter _ _) in *.
      assert (HI : exists c, In (c, c') cells).
      { destruct found as [f|].
        - injection Ec as ->. revert Ef. generalize 1%Z. clearbody cells. induction cells as [|[c d] r IH]; intros p; cbn [title_cell_of]; [discriminate|].
          destruct (cell_filled c); [|intros Ef; destruct (IH _ Ef) as (c0 & H0); exists c0; right; exact H0].
          cbv zeta. intros Ef. destruct (truthy _ && truthy _)%bool; [bind Ef as u Eu; bind Ef as v Ev|]; injection Ef as <- <- <-; exists c; left; reflexivity.
        - destruct cells as [|[c d] r]; [discriminate|]. injection Ec as <- <- <-. exists c. left. reflexivity. }
      destruct HI as (c & HI). apply filter_In in HI as [HI _]. apply in_combine_r in HI.
      assert (HC : ok2 c') by (intros m Hm; apply HR, (nodes_child row' c'); assumption).
      destruct (decoded_tag _ _ _ _ _ D) as [E|E]; [congruence|]. split.
      + apply all_node; [|exact (all_children P2 c' HC)]. apply P2_free; destruct E as [-> | ->]; discriminate.
      + left. eexists. split; [reflexivity|]. destruct E as [-> | ->]; cbn; tauto.
  Qed.
  Definition fine (n : xnode) : Prop := ok2 n /\ kid2 n.
  Definition stack2 (st : list (list xnode)) : Prop := Forall (Forall fine) st.
  Lemma close2 st : stack2 st -> stack2 (blk_close st).
  Proof.
    intros H. destruct st as [|f [|g r]]; [exact H..|]. inversion H as [|? ? H1 H2]; subst. inversion H2 as [|? ? H3 H4]; subst. cbn [blk_close]. constructor; [|exact H4].
    apply Forall_app. split; [exact H3|]. constructor; [|constructor]. split; [|right; reflexivity].
    apply all_node; [apply P2_free; discriminate|]. apply (Forall_impl _ (fun n (K : fine n) => proj1 K) H1).
  Qed.
  Lemma close_iter2 k st : stack2 st -> stack2 (Nat.iter k blk_close st).
  Proof. intros H. induction k as [|k IH]; [exact H|]. cbn [Nat.iter nat_rect]. apply close2, IH. Qed.
  Lemma put2 x st : fine x -> stack2 st -> stack2 (blk_put x st).
  Proof.
    intros Hx H. destruct st as [|f r]; [exact H|]. inversion H as [|? ? H1 H2]; subst. constructor; [|exact H2]. apply Forall_app. split; [exact H1|]. constructor; [exact Hx|constructor].
  Qed.
  Lemma steps2 l : forall st st', stack2 st ->
    Forall (fun p => kid named ns (fst p) /\ x_tag (snd p) = x_tag (fst p) /\ x_attrs (snd p) = x_attrs (fst p) /\ ok2 (snd p)) l -> blk_steps ns st l = Ok st' -> stack2 st'.
  Proof.
    induction l as [|[row row'] l IH]; intros st st' HS HL H; [injection H as <-; exact HS|]. inversion HL as [|? ? (H1 & H2 & H3 & H4) HL']; subst. cbn [fst snd] in *. cbn [blk_steps] in H. bind H as s1 E1.
    apply (IH s1 st'); [|exact HL'|exact H].
    assert (HX : (exists d x, blk_item ns (guess_row_info (x_get row (qname ns "rowstyle"))) row row' = Ok x /\ s1 = blk_put x (blk_level d st)) \/ (x_tag row = None /\ s1 = blk_put row' st)).
    { unfold blk_step in E1. destruct row; [|right; injection E1 as <-; split; reflexivity|].
      all: cbv zeta in E1; bind E1 as x Ex; injection E1 as <-; left; eexists; exists x; split; [first [exact Ex|reflexivity]|reflexivity]. }
    destruct HX as [(d & x & Ex & ->)|[E ->]].
    - apply put2; [exact (item2 _ _ _ H1 H2 H3 H4 Ex)|].
      unfold blk_level. apply Forall_app. split; [|apply close_iter2, HS]. apply Forall_forall. intros y Hy. apply repeat_spec in Hy as ->. constructor.
    - apply put2; [|exact HS]. split; [exact H4|]. destruct H1 as [[_ H1]|H1]; [congruence|]. right. unfold x_get in *. rewrite H3. exact H1.
  Qed.
  Lemma insert2 n : forall n', all P1 n -> insert_blk ns n = Ok n' -> ok2 n'.
  Proof.
    induction n as [tag attrs text children tail IH| |] using xnode_ind'; intros n' H E; [|injection E as <-; intros m [<-|[]]; split; discriminate..].
    destruct (H _ (nodes_self _)) as [H0 H1]. pose proof (all_children P1 _ H) as H2. cbn [x_children] in H2. rewrite insert_elem in E. bind E as ch Ec.
    assert (G : Forall ok2 ch /\ Forall2 (fun c c' => x_tag c' = x_tag c /\ x_attrs c' = x_attrs c) children ch).
    { clear E H H0 H1. revert ch Ec. clear -IH H2. induction children as [|c l IHl]; intros ch Ec; [injection Ec as <-; split; constructor|].
      inversion IH as [|? ? I1 I2]; subst. inversion H2 as [|? ? J1 J2]; subst. cbn [insert_list] in Ec. bind Ec as a Ea. bind Ec as b Eb. injection Ec as <-.
      destruct (IHl I2 J2 b eq_refl) as [K1 K2]. split; constructor; [apply I1; [exact J1|reflexivity]|exact K1|exact (insert_head _ _ Ea)|exact K2]. }
    destruct G as [G1 G2]. assert (T : tag = "ROW" -> typed named attrs) by (intros ->; left; apply H1; reflexivity).
    destruct (String.eqb_spec tag "CORPUS") as [->|Hc]; [|injection E as <-; apply all_node; [split; [intros [= E]; apply T, E|intros [= E]; congruence]|exact G1]].
    bind E as ch2 E2. injection E as <-. unfold blk_children in E2. bind E2 as st Es. injection E2 as <-.
    assert (K : stack2 st).
    { apply (steps2 (combine children ch) [[]] st) with (3 := Es); [constructor; constructor|]. specialize (H0 eq_refl). cbn [x_children] in H0. clear -H0 G1 G2.
      induction G2 as [|c c' l l' [A1 A2] _ IHl]; [constructor|]. inversion H0; inversion G1; subst. cbn [combine]. constructor; [cbn [fst snd]; auto|apply IHl; assumption]. }
    apply (close_iter2 (List.length st - 1)) in K.
    assert (F : Forall fine (match Nat.iter (List.length st - 1) blk_close st with f :: _ => f | [] => [] end)) by (destruct (Nat.iter _ blk_close st); [constructor|]; inversion K; subst; assumption).
    apply all_node; [split; [discriminate|intros _]|].
    - apply (Forall_impl _ (fun n (K : fine n) => proj2 K) F).
    - apply (Forall_impl _ (fun n (K : fine n) => proj1 K) F).
  Qed.

  (** *** drop_superfluous_attrs *)
  Lemma drop_plain n : kid2 n -> plain ns (drop_in ns true n).
  Proof.
    destruct n as [tag attrs text ch tail| |]; intros H; try reflexivity. unfold plain, x_get. cbn [drop_in x_attrs orb andb].
    destruct (existsb (String.eqb tag) DROP_IN) eqn:E.
    - change (dget (dropped ns attrs) (qname ns "rowstyle") = None). rewrite dropped_get. cbn [existsb SUPERFLUOUS]. rewrite String.eqb_refl, !orb_true_r. reflexivity.
    - destruct H as [(s & [= <-] & Hs)|H]; [|exact H]. exfalso. assert (X : existsb (String.eqb tag) DROP_IN = true); [|congruence].
      apply existsb_exists. exists tag. split; [|apply String.eqb_refl]. cbn in Hs |- *. tauto.
  Qed.
  Lemma drop3 n : ok2 n -> settled named ns true (drop_in ns true n).
  Proof.
    induction n as [tag attrs text children tail IH| |] using xnode_ind'; intros H; [|constructor..]. destruct (H _ (nodes_self _)) as [H0 H1]. pose proof (all_children P2 _ H) as H2. cbn [x_children] in *.
    cbn [drop_in orb andb]. constructor.
    - intros ->. specialize (H0 eq_refl). cbn [x_attrs] in H0. change (typed named (dropped ns attrs)). unfold typed in *. rewrite type_kept. exact H0.
    - intros ->. apply Forall_forall. intros y Hy. apply in_map_iff in Hy as (c & <- & Hc). specialize (H1 eq_refl). rewrite Forall_forall in H1. apply drop_plain, H1, Hc.
    - intros _ D k Hk. assert (E : existsb (String.eqb tag) DROP_IN = true) by (apply existsb_exists; exists tag; split; [exact D|apply String.eqb_refl]). rewrite E.
      change (dget (dropped ns attrs) (qname ns k) = None). rewrite dropped_get.
      assert (X : existsb (fun s => String.eqb (qname ns k) (qname ns s)) SUPERFLUOUS = true) by (apply existsb_exists; exists k; split; [exact Hk|apply String.eqb_refl]). rewrite X. reflexivity.
    - cbn [orb]. rewrite Forall_forall in *. intros y Hy. apply in_map_iff in Hy as (c & <- & Hc). apply IH; [exact Hc|apply H2, Hc].
  Qed.
  (** the three passes *)
  Lemma later_leads n n' : x_tag n = Some "TBL" -> all P0 n -> P_ConvertFinish.later ns n = Ok n' -> settled named ns false n'.
  Proof.
    intros Ht H E. unfold P_ConvertFinish.later, extract_gr_notes, drop_pass, drop_superfluous_attrs in E. bind E as x Ex. bind E as y Ey. injection E as <-.
    bind Ex as r Er. destruct (extract1 n r Er H) as [K _]. destruct (extract_alike n r Er) as [En|(n1 & En & [A _])].
    - destruct r as [l m]. cbn [fst] in En. subst l. discriminate Ex.
    - destruct r as [l m]. cbn [fst] in En, K. subst l. destruct m; [|discriminate Ex]. injection Ex as ->. inversion K as [|? ? K1 _]; subst.
      pose proof (drop3 y (insert2 x y K1 Ey)) as S. destruct (insert_head x y Ey) as [T _]. rewrite A, Ht in T. destruct y as [tag attrs text ch tail| |]; try discriminate T. injection T as ->.
      apply settled_inv in S as (S1 & S2 & S3 & S4). cbn [drop_in orb andb String.eqb Ascii.eqb Bool.eqb] in *. constructor; assumption.
  Qed.
End Stages.
