(** * Proofs about the loop which extracts the notes *)
From Verif Require Import Base M_Geometry M_Xml M_Cell M_Str M_Cals M_Formex M_FormexFinal M_FormexFinish M_NotesLoop.
From Verif Require Import S_Builder S_Cals S_FormexFinish S_NotesLoop P_FormexFinish.
Open Scope Z_scope.
Open Scope string_scope.
Open Scope list_scope.

Lemma walk_elem tag attrs text children tail : walk (XElem tag attrs text children tail) false =
  (if is_footer tag attrs then
     r <-? walk_footer walk false false children ;;
     x <-? note_of (ddel attrs "TYPE") (fst (fst r)) ;;
     Ok ([], x :: snd (fst r), snd r)
   else
     r <-? walks walk children false ;;
     if String.eqb tag "TBL" then
       tc <-? insert_notes text (fst (fst r)) (snd (fst r)) ;;
       Ok ([XElem tag attrs (fst tc) (snd tc) tail], [], snd r)
     else
       Ok ([XElem tag (if String.eqb tag "ROW" then ddel attrs "TYPE" else attrs) text (fst (fst r)) tail], snd (fst r), snd r)).
Proof. reflexivity. Qed.
Lemma walk_ended n : walk n true = Ok ([n], [], true).
Proof. destruct n; reflexivity. Qed.

Lemma walks_cons w c l e : walks w (c :: l) e =
  (a <-? w c e ;; b <-? walks w l (snd a) ;; Ok (fst (fst a) ++ fst (fst b), snd (fst a) ++ snd (fst b), snd b)).
Proof. reflexivity. Qed.
Lemma walk_footer_cons w rows e c l : walk_footer w rows e (c :: l) =
  match c with
  | XElem tag attrs text content tail =>
      if String.eqb tag "CELL" then
        if rows then _ <-? walks w l e ;; Ok ([c], [], true)
        else if existsb has_row content then
          a <-? walks w content false ;; Ok ([XElem tag attrs text (fst (fst a)) tail], snd (fst a), snd a)
        else if existsb has_row l then _ <-? walks w l false ;; Ok ([c], [], true)
        else Ok ([c], [], false)
      else a <-? w c e ;; walk_footer w (rows || has_row c) (snd a) l
  | _ => walk_footer w rows e l
  end.
Proof. reflexivity. Qed.

(** ** Nodes without rows *)

Lemma has_row_false n : has_row n = false <-> rowless n.
Proof.
  induction n as [tag attrs text children tail IH|target data tail|data tail] using xnode_ind'.
  - cbn [has_row]. rewrite Bool.orb_false_iff. split.
    + intros [Ht Hc] m Hm. destruct Hm as [|c m Hc' Hm].
      * cbn. destruct (String.eqb_spec tag "ROW"); congruence.
      * cbn [x_children] in Hc'. rewrite Forall_forall in IH. apply (proj1 (IH c Hc')); [|exact Hm].
        destruct (has_row c) eqn:E; [|reflexivity]. assert (existsb has_row children = true) by (apply existsb_exists; eauto). congruence.
    + intros H. split.
      * destruct (String.eqb_spec tag "ROW") as [->|]; [|reflexivity]. destruct (H _ (part_self _)). reflexivity.
      * destruct (existsb has_row children) eqn:E; [|reflexivity]. apply existsb_exists in E as (c & Hc & E).
        rewrite Forall_forall in IH. rewrite (proj2 (IH c Hc)) in E; [discriminate|].
        intros m Hm. apply H. econstructor; [exact Hc|exact Hm].
  - split; [|reflexivity]. intros _ m Hm. destruct Hm as [|c m []]. discriminate.
  - split; [|reflexivity]. intros _ m Hm. destruct Hm as [|c m []]. discriminate.
Qed.

Lemma existsb_false {A} (f : A -> bool) l : existsb f l = false <-> forall a, In a l -> f a = false.
Proof.
  split.
  - intros H a Ha. destruct (f a) eqn:E; [|reflexivity]. assert (existsb f l = true) by (apply existsb_exists; eauto). congruence.
  - intros H. destruct (existsb f l) eqn:E; [|reflexivity]. apply existsb_exists in E as (a & Ha & E). rewrite H in E by exact Ha. discriminate.
Qed.

Lemma extract_list_rowless l : Forall (fun c => extract_in c = Ok ([c], [])) l -> extract_list l = Ok (l, []).
Proof. induction 1 as [|c l E _ IH]; [reflexivity|]. cbn [extract_list]. rewrite E, IH. reflexivity. Qed.
Lemma extract_rowless n : has_row n = false -> extract_in n = Ok ([n], []).
Proof.
  induction n as [tag attrs text children tail IH|target data tail|data tail] using xnode_ind'; intros H; [|reflexivity..].
  cbn [has_row] in H. apply Bool.orb_false_iff in H as [Ht Hc]. rewrite extract_elem.
  rewrite extract_list_rowless.
  - cbn [rbind]. rewrite Ht. destruct (String.eqb tag "TBL"); reflexivity.
  - rewrite Forall_forall in *. intros c Hi. apply IH; [exact Hi|]. apply (proj1 (existsb_false _ _) Hc c Hi).
Qed.
Lemma walks_rowless l : Forall (fun c => walk c false = Ok ([c], [], false)) l -> walks walk l false = Ok (l, [], false).
Proof. induction 1 as [|c l E _ IH]; [reflexivity|]. rewrite walks_cons, E. cbn [rbind snd fst]. rewrite IH. reflexivity. Qed.
Lemma walk_rowless n : has_row n = false -> walk n false = Ok ([n], [], false).
Proof.
  induction n as [tag attrs text children tail IH|target data tail|data tail] using xnode_ind'; intros H; [|reflexivity..].
  cbn [has_row] in H. apply Bool.orb_false_iff in H as [Ht Hc]. rewrite walk_elem. unfold is_footer. rewrite Ht. cbn [andb].
  rewrite walks_rowless.
  - cbn [rbind fst snd]. destruct (String.eqb tag "TBL"); reflexivity.
  - rewrite Forall_forall in *. intros c Hi. apply IH; [exact Hi|]. apply (proj1 (existsb_false _ _) Hc c Hi).
Qed.

(** ** Where tables are only in the first cell of footer rows, all rows are treated *)

Definition open (x : result (list xnode * list note)) : result walked := y <-? x ;; Ok (fst y, snd y, false).

Lemma walks_open l : Forall (fun c => walk c false = open (extract_in c)) l -> walks walk l false = open (extract_list l).
Proof.
  induction 1 as [|c l E _ IH]; [reflexivity|]. rewrite walks_cons. cbn [extract_list]. rewrite E. unfold open at 1.
  destruct (extract_in c) as [[a m]|]; cbn [rbind fst snd]; [|reflexivity]. rewrite IH. unfold open at 1.
  destruct (extract_list l) as [[b k]|]; reflexivity.
Qed.
Lemma extract_list_app l m : extract_list (l ++ m) =
  (a <-? extract_list l ;; b <-? extract_list m ;; Ok (fst a ++ fst b, snd a ++ snd b)).
Proof.
  induction l as [|c l IH]; cbn [app extract_list].
  - cbn [rbind fst snd app]. destruct (extract_list m) as [[? ?]|]; reflexivity.
  - rewrite IH. destruct (extract_in c) as [x|]; cbn [rbind]; [|reflexivity]. destruct (extract_list l) as [y|]; cbn [rbind]; [|reflexivity].
    destruct (extract_list m) as [z|]; cbn [rbind fst snd]; [|reflexivity]. rewrite !app_assoc. reflexivity.
Qed.
Lemma has_tag_iff c t : x_has_tag c t = true <-> x_tag c = Some t.
Proof. destruct c as [tag attrs text children tail| |]; cbn; [|split; discriminate..]. destruct (String.eqb_spec t tag); split; congruence. Qed.
Lemma find_skip a c b : (forall d, In d a -> x_tag d <> Some "CELL") -> x_tag c = Some "CELL" ->
  find (fun c => x_has_tag c "CELL") (a ++ c :: b) = Some c.
Proof.
  intros Ha Hc. induction a as [|d a IH]; cbn [app find].
  - rewrite (proj2 (has_tag_iff c "CELL") Hc). reflexivity.
  - destruct (x_has_tag d "CELL") eqn:E; [|apply IH; intros x Hx; apply Ha; right; exact Hx].
    apply has_tag_iff in E. destruct (Ha d); [left; reflexivity|exact E].
Qed.
Lemma first_cell l : (exists c, In c l /\ x_tag c = Some "CELL") -> exists a c b, first_named "CELL" l a c b.
Proof.
  intros (c & Hc & Ht). induction l as [|d l IH]; [destruct Hc|].
  destruct (x_has_tag d "CELL") eqn:E.
  - apply has_tag_iff in E. exists [], d, l. split; [reflexivity|]. split; [exact E|intros x []].
  - assert (Hd : x_tag d <> Some "CELL") by (rewrite <- has_tag_iff, E; discriminate).
    destruct Hc as [->|Hc]; [contradiction|]. destruct (IH Hc) as (a & c' & b & -> & H1 & H2).
    exists (d :: a), c', b. split; [reflexivity|]. split; [exact H1|]. intros x [<-|Hx]; [exact Hd|apply H2, Hx].
Qed.

Lemma tables_first_in n c : tables_first n -> In c (x_children n) -> tables_first c.
Proof. intros H Hc r Hr. apply H. econstructor; eassumption. Qed.

Lemma walk_footer_skip a l : (forall d, In d a -> x_tag d <> Some "CELL") -> (forall d, In d a -> has_row d = false) ->
  walk_footer walk false false (a ++ l) = walk_footer walk false false l.
Proof.
  intros Ha Hr. induction a as [|d a IH]; [reflexivity|]. cbn [app]. rewrite walk_footer_cons.
  assert (IH' : walk_footer walk false false (a ++ l) = walk_footer walk false false l).
  { apply IH; intros x Hx; [apply Ha|apply Hr]; right; exact Hx. }
  destruct d as [tag attrs text children tail| |]; [|exact IH'..].
  pose proof (Ha _ (or_introl eq_refl)) as Ht. pose proof (Hr _ (or_introl eq_refl)) as Hrow.
  destruct (String.eqb_spec tag "CELL") as [->|]; [destruct Ht; reflexivity|].
  rewrite (walk_rowless _ Hrow). cbn [rbind snd]. rewrite Hrow. exact IH'.
Qed.

Lemma walk_open n : footers_ready n -> tables_first n -> walk n false = open (extract_in n) /\
  Forall (fun c => walk c false = open (extract_in c)) (x_children n).
Proof.
  induction n as [tag attrs text children tail IH|target data tail|data tail] using xnode_ind'; intros HR HT.
  2-3: split; [reflexivity|constructor].
  assert (HF : Forall (fun c => walk c false = open (extract_in c) /\ Forall (fun c => walk c false = open (extract_in c)) (x_children c)) children).
  { rewrite Forall_forall in *. intros c Hc. apply IH; [exact Hc|apply (ready_in _ c HR), Hc|apply (tables_first_in _ c HT), Hc]. }
  split; [|cbn [x_children]; eapply Forall_impl; [|exact HF]; intros c H; apply H].
  assert (HF1 : Forall (fun c => walk c false = open (extract_in c)) children) by (eapply Forall_impl; [|exact HF]; intros c H; apply H).
  rewrite walk_elem, extract_elem. destruct (is_footer tag attrs) eqn:Ef.
  - unfold is_footer in Ef. apply andb_prop in Ef as [Et Ef]. apply String.eqb_eq in Et. subst tag.
    destruct (dget attrs "TYPE") as [t|] eqn:Ety; [|discriminate]. apply String.eqb_eq in Ef. subst t.
    assert (Hcell : exists c, In c children /\ x_tag c = Some "CELL").
    { inversion HR as [? _ Rc]; subst. apply (Rc eq_refl Ety). }
    destruct (first_cell children Hcell) as (a & c & b & Hfn).
    assert (Hrl : forall d, In d (a ++ b) -> has_row d = false).
    { intros d Hd. apply has_row_false. apply (HT _ (part_self _) (conj eq_refl Ety) a c b Hfn d Hd). }
    destruct Hfn as (-> & Hc & Ha).
    rewrite walk_footer_skip by (auto; intros d Hd; apply Hrl, in_app_iff; auto).
    assert (Ea : extract_list a = Ok (a, [])) by (apply extract_list_rowless, Forall_forall; intros d Hd; apply extract_rowless, Hrl, in_app_iff; auto).
    assert (Eb : extract_list b = Ok (b, [])) by (apply extract_list_rowless, Forall_forall; intros d Hd; apply extract_rowless, Hrl, in_app_iff; auto).
    rewrite extract_list_app, Ea. cbn [rbind fst snd extract_list app].
    destruct c as [ctag cattrs ctext content ctail| |]; [|discriminate..]. cbn [x_tag] in Hc. injection Hc as ->.
    rewrite walk_footer_cons. change (String.eqb "CELL" "CELL") with true. cbv iota.
    assert (Hb : existsb has_row b = false) by (apply existsb_false; intros d Hd; apply Hrl, in_app_iff; auto).
    rewrite Hb, Eb.
    assert (Hcont : walks walk content false = open (extract_list content)).
    { apply walks_open. apply Forall_app in HF as [_ HF]. inversion HF as [|? ? [_ H] _]; subst. exact H. }
    destruct (existsb has_row content) eqn:Er.
    + rewrite Hcont. rewrite extract_elem. unfold open.
      destruct (extract_list content) as [[ch m]|]; cbn [rbind fst snd]; [|reflexivity].
      change (String.eqb "CELL" "TBL") with false. change (String.eqb "CELL" "ROW") with false. cbv iota. cbn [rbind fst snd].
      change (String.eqb "ROW" "TBL") with false. change (String.eqb "ROW" "ROW") with true. cbv iota. cbv zeta.
      change (String.eqb "__GR.NOTES__" "__GR.NOTES__") with true. cbv iota.
      cbn [app]. unfold note_of. rewrite (find_skip a) by (auto). cbn [find x_has_tag]. change (String.eqb "CELL" "CELL") with true. cbv iota.
      rewrite app_nil_r. destruct (update_first _ _ _); reflexivity.
    + rewrite (extract_rowless (XElem "CELL" cattrs ctext content ctail)).
      2: { cbn [has_row]. rewrite Er. reflexivity. }
      cbn [rbind fst snd app].
      change (String.eqb "ROW" "TBL") with false. change (String.eqb "ROW" "ROW") with true. cbv iota. cbv zeta.
      change (String.eqb "__GR.NOTES__" "__GR.NOTES__") with true. cbv iota.
      unfold note_of. rewrite (find_skip a) by (auto). cbn [find x_has_tag]. change (String.eqb "CELL" "CELL") with true. cbv iota.
      unfold open. destruct (update_first _ _ _); reflexivity.
  - rewrite (walks_open _ HF1). unfold open. destruct (extract_list children) as [[ch m]|]; cbn [rbind fst snd]; [|reflexivity].
    destruct (String.eqb tag "TBL").
    + destruct (insert_notes text ch m); reflexivity.
    + destruct (String.eqb tag "ROW") eqn:Er; [|reflexivity]. cbv zeta. unfold is_footer in Ef. rewrite Er in Ef. cbn [andb] in Ef.
      destruct (dget attrs "TYPE") as [t|]; [rewrite Ef|]; reflexivity.
Qed.

Lemma loop_same doc : footers_ready doc -> tables_first doc -> loop_gr_notes doc = extract_gr_notes doc.
Proof.
  intros HR HT. unfold loop_gr_notes, extract_gr_notes. rewrite (proj1 (walk_open doc HR HT)). unfold open.
  destruct (extract_in doc) as [[l m]|]; cbn [rbind fst snd]; reflexivity.
Qed.

(** ** Where the loop stops *)

Lemma walks_app w l m e : walks w (l ++ m) e =
  (a <-? walks w l e ;; b <-? walks w m (snd a) ;; Ok (fst (fst a) ++ fst (fst b), snd (fst a) ++ snd (fst b), snd b)).
Proof.
  revert e. induction l as [|c l IH]; intros e; cbn [app].
  - change (walks w [] e) with (@Ok walked ([], [], e)). cbn [rbind fst snd app]. destruct (walks w m e) as [[[? ?] ?]|]; reflexivity.
  - rewrite !walks_cons. destruct (w c e) as [x|]; cbn [rbind]; [|reflexivity]. rewrite IH. destruct (walks w l (snd x)) as [y|]; cbn [rbind]; [|reflexivity].
    cbn [fst snd]. destruct (walks w m (snd y)) as [z|]; cbn [rbind fst snd]; [|reflexivity]. rewrite !app_assoc. reflexivity.
Qed.
Lemma walks_ended l : walks walk l true = Ok (l, [], true).
Proof. induction l as [|c l IH]; [reflexivity|]. rewrite walks_cons, walk_ended. cbn [rbind fst snd]. rewrite IH. reflexivity. Qed.

Definition stops (n : xnode) : Prop := forall e r, walk n e = Ok r -> snd r = true.

Lemma walk_footer_ends a c b : (forall d, In d a -> x_tag d <> Some "CELL") -> x_tag c = Some "CELL" ->
  forall rows e r, rows = true \/ existsb has_row a = true \/ (has_row c = false /\ existsb has_row b = true) ->
  walk_footer walk rows e (a ++ c :: b) = Ok r -> snd r = true.
Proof.
  intros Ha Hc. induction a as [|d a IH]; intros rows e r H E.
  - cbn [app] in E. rewrite walk_footer_cons in E. destruct c as [tag attrs text content tail| |]; [|discriminate..].
    cbn [x_tag] in Hc. injection Hc as ->. change (String.eqb "CELL" "CELL") with true in E. cbv iota in E.
    destruct rows.
    + destruct (walks walk b e); cbn [rbind] in E; [|discriminate]. injection E as <-. reflexivity.
    + destruct H as [H|[H|[H1 H2]]]; [discriminate|discriminate|]. cbn [has_row] in H1. change (String.eqb "CELL" "ROW") with false in H1. cbn [orb] in H1.
      rewrite H1, H2 in E. destruct (walks walk b false); cbn [rbind] in E; [|discriminate]. injection E as <-. reflexivity.
  - cbn [app] in E. rewrite walk_footer_cons in E.
    assert (IH' : forall rows e r, rows = true \/ existsb has_row a = true \/ (has_row c = false /\ existsb has_row b = true) ->
      walk_footer walk rows e (a ++ c :: b) = Ok r -> snd r = true).
    { apply IH. intros x Hx. apply Ha. right. exact Hx. }
    cbn [existsb] in H.
    destruct d as [tag attrs text content tail| |].
    + destruct (String.eqb_spec tag "CELL") as [->|]; [destruct (Ha _ (or_introl eq_refl)); reflexivity|].
      destruct (walk _ e) as [x|]; cbn [rbind] in E; [|discriminate]. apply (IH' _ _ _) with (2 := E).
      destruct H as [->|[H|H]]; [left; reflexivity| |auto]. apply Bool.orb_true_iff in H as [->|H]; [left; apply Bool.orb_true_r|auto].
    + apply (IH' _ _ _) with (2 := E). cbn [has_row orb] in H. exact H.
    + apply (IH' _ _ _) with (2 := E). cbn [has_row orb] in H. exact H.
Qed.

Lemma footer_stops r a c b : footer_row r -> first_named "CELL" (x_children r) a c b ->
  (exists d, In d a /\ ~ rowless d) \/ (rowless c /\ exists d, In d b /\ ~ rowless d) -> stops r.
Proof.
  intros [Ht Hf] (Ech & Hc & Ha) H e x E. destruct e; [rewrite walk_ended in E; injection E as <-; reflexivity|].
  destruct r as [tag attrs text children tail| |]; [|discriminate..]. cbn [x_tag x_attrs x_children] in *. injection Ht as ->. subst children.
  rewrite walk_elem in E. unfold is_footer in E. change (String.eqb "ROW" "ROW") with true in E. unfold footer_type in Hf. rewrite Hf in E.
  change (true && String.eqb "__GR.NOTES__" "__GR.NOTES__") with true in E. cbv iota in E.
  destruct (walk_footer walk false false (a ++ c :: b)) as [y|] eqn:Ey; cbn [rbind] in E; [|discriminate].
  destruct (note_of _ _); cbn [rbind] in E; [|discriminate]. injection E as <-. cbn [snd].
  apply (walk_footer_ends a c b Ha Hc false false y); [|exact Ey].
  assert (HX : forall l d, In d l -> ~ rowless d -> existsb has_row l = true).
  { intros l d Hd Hn. apply existsb_exists. exists d. split; [exact Hd|]. destruct (has_row d) eqn:E'; [reflexivity|].
    apply has_row_false in E'. contradiction. }
  destruct H as [(d & Hd & Hn)|(Hr & d & Hd & Hn)]; [right; left; eapply HX; eassumption|].
  right. right. split; [apply has_row_false, Hr|eapply HX; eassumption].
Qed.

Lemma split_corpus_after l a b : split_corpus l = Some (a, b) -> l = a ++ b /\ forall d, In d a -> x_tag d <> Some "CORPUS".
Proof.
  revert a b. induction l as [|c l IH]; intros a b E; cbn [split_corpus] in E; [discriminate|].
  destruct (x_has_tag c "CORPUS") eqn:Ec.
  - injection E as <- <-. split; [reflexivity|intros d []].
  - destruct (split_corpus l) as [[u v]|]; [|discriminate]. injection E as <- <-. destruct (IH u v eq_refl) as [-> H].
    split; [reflexivity|]. intros d [<-|Hd]; [rewrite <- has_tag_iff, Ec; discriminate|apply H, Hd].
Qed.
Lemma insert_keeps text l notes tc c : insert_notes text l notes = Ok tc -> In c l -> x_tag c = Some "CORPUS" -> In c (snd tc).
Proof.
  unfold insert_notes. destruct notes as [|x notes]; [intros [= <-] H _; exact H|].
  destruct (split_corpus l) as [[a b]|] eqn:E; [|discriminate]. apply split_corpus_after in E as [-> H].
  destruct (put_notes text a (x :: notes)) as [t' a']. intros [= <-] Hc Ht. cbn [snd]. apply in_app_iff. right.
  apply in_app_iff in Hc as [Hc|Hc]; [destruct (H c Hc Ht)|exact Hc].
Qed.

Lemma rest_untouched attrs text before cattrs ctext pre r post ctail after tail doc' : stops r ->
  loop_gr_notes (XElem "TBL" attrs text (before ++ XElem "CORPUS" cattrs ctext (pre ++ r :: post) ctail :: after) tail) = Ok doc' ->
  exists kept after', In (XElem "CORPUS" cattrs ctext (kept ++ post) ctail) (x_children doc') /\ x_children doc' = after' ++ after.
Proof.
  intros Hs E. unfold loop_gr_notes in E. rewrite walk_elem in E.
  replace (is_footer "TBL" attrs) with false in E by reflexivity. rewrite walks_app in E.
  destruct (walks walk before false) as [[[u1 m1] e1]|]; cbn [rbind fst snd] in E; [|discriminate].
  rewrite walks_cons in E.
  set (corpus := XElem "CORPUS" cattrs ctext (pre ++ r :: post) ctail) in *.
  assert (HC : forall x, walk corpus e1 = Ok x -> snd x = true /\ exists kept, fst (fst x) = [XElem "CORPUS" cattrs ctext (kept ++ post) ctail]).
  { intros x Ex. destruct e1.
    - rewrite walk_ended in Ex. injection Ex as <-. split; [reflexivity|]. exists (pre ++ [r]). unfold corpus. rewrite <- app_assoc. reflexivity.
    - unfold corpus in Ex. rewrite walk_elem in Ex. replace (is_footer "CORPUS" cattrs) with false in Ex by reflexivity.
      rewrite walks_app in Ex. destruct (walks walk pre false) as [[[u2 m2] e2]|]; cbn [rbind fst snd] in Ex; [|discriminate].
      rewrite walks_cons in Ex. destruct (walk r e2) as [[[u3 m3] e3]|] eqn:Er; cbn [rbind fst snd] in Ex; [|discriminate].
      pose proof (Hs e2 _ Er) as H3. cbn [snd] in H3. subst e3. rewrite walks_ended in Ex. cbn [rbind fst snd] in Ex.
      change (String.eqb "CORPUS" "TBL") with false in Ex. change (String.eqb "CORPUS" "ROW") with false in Ex. cbv iota in Ex.
      injection Ex as <-. cbn [fst snd]. split; [reflexivity|]. exists (u2 ++ u3). rewrite <- app_assoc. reflexivity. }
  destruct (walk corpus e1) as [[[u4 m4] e4]|] eqn:Ec; cbn [rbind fst snd] in E; [|discriminate].
  destruct (HC _ eq_refl) as (He & kept & Hk). cbn [fst snd] in He, Hk. subst e4 u4. rewrite walks_ended in E. cbn [rbind fst snd] in E.
  change (String.eqb "TBL" "TBL") with true in E. cbv iota in E.
  destruct (insert_notes text _ _) as [tc|] eqn:Ei; cbn [rbind] in E; [|discriminate]. injection E as <-.
  exists kept. cbn [x_children].
  assert (Hin : In (XElem "CORPUS" cattrs ctext (kept ++ post) ctail) (snd tc)).
  { eapply insert_keeps; [exact Ei| |reflexivity]. apply in_app_iff. right. left. reflexivity. }
  assert (Hafter : exists after', snd tc = after' ++ after).
  { unfold insert_notes in Ei. destruct (m1 ++ m4 ++ []) as [|x ms].
    - injection Ei as <-. cbn [snd]. exists (u1 ++ [XElem "CORPUS" cattrs ctext (kept ++ post) ctail]). rewrite <- app_assoc. reflexivity.
    - destruct (split_corpus _) as [[a b]|] eqn:Es; [|discriminate].
      apply split_corpus_after in Es as [Es Hn]. destruct (put_notes text a (x :: ms)) as [t' a']. injection Ei as <-. cbn [snd].
      assert (Hb : exists b', b = b' ++ after).
      { cbn [app] in Es. clear - Es Hn. revert u1 Es. induction a as [|d a IH]; intros u1 Es.
        - exists (u1 ++ [XElem "CORPUS" cattrs ctext (kept ++ post) ctail]). rewrite <- app_assoc. symmetry. exact Es.
        - destruct u1 as [|d' u1]; cbn [app] in Es.
          + injection Es as <- Es. destruct (Hn _ (or_introl eq_refl)). reflexivity.
          + injection Es as -> Es. apply (IH ltac:(intros y Hy; apply Hn; right; exact Hy) u1 Es). }
      destruct Hb as (b' & ->). exists (a' ++ b'). rewrite <- app_assoc. reflexivity. }
  destruct Hafter as (after' & Ha). exists after'. split; [exact Hin|exact Ha].
Qed.
