(** * Theorems about Formex documents which have tables inside tables (C80) *)
From Coq Require Import QArith.
From Verif Require Import Base M_Geometry M_Xml M_Cell M_Grid M_Table M_Str M_Builder M_Cals M_CalsParser M_Formex M_FormexParser M_FormexRead M_FormexFinal M_FormexFinish M_Ooxml M_Transform M_Convert M_ConvertDoc M_Nested M_NestedFormex.
From Verif Require Import S_Geometry S_Grid S_Table S_Builder S_Cals S_Int S_CalsParser S_Formex S_FormexFinal S_Transform S_FormexFinished S_Convert S_ConvertDoc S_Nested S_NestedFormex.
From Verif Require Import P_Table P_Cals P_Formex P_FormexFinished P_Transform P_Source P_ConvertDoc P_ConvertFinish P_ConvertFormex P_NoneLeft P_Nested P_NestedKept P_NestedFlat P_NestedTops P_NestedFormex.
From Verif Require Import T_CalsParser T_Convert T_FormexRead T_ConvertBack T_Options T_ConvertDoc T_ConvertFormex T_Nested.
Open Scope string_scope.
Open Scope list_scope.
Open Scope Z_scope.

(** The elements from which the contents of the cells of a table are made *)
Definition CONTENT_NAMES : list string := ["CELL"; "TI.BLK"; "STI.BLK"; "GR.NOTES"].
(** No CORPUS inside a CORPUS is directly in the content of a cell: it has an element around it (a TBL). *)
Definition wrapped (kw : kwargs) (doc : xnode) : Prop :=
  forall t p c name, within doc t -> formex kw "CORPUS" t = true -> inside t p -> In c (x_children p) -> formex kw "CORPUS" c = true ->
    In name CONTENT_NAMES -> formex kw name p = false.

Lemma drop_children n : x_children (drop_mark n) = x_children n.
Proof. destruct n as [tag [|[a v] attrs] text ch tail| |]; cbn; try destruct (String.eqb _ _); reflexivity. Qed.
Lemma drop_tag n : x_tag (drop_mark n) = x_tag n.
Proof. destruct n as [tag [|[a v] attrs] text ch tail| |]; cbn; try destruct (String.eqb _ _); reflexivity. Qed.
Lemma inside_children n m x : x_children n = x_children m -> inside n x -> inside m x.
Proof. intros E H. inversion H; subst; rewrite E in *; [apply in_child; assumption|eapply in_deep; eassumption]. Qed.

Section Labels.
  Variable name : string.
  Lemma mark_tag k n : x_tag (snd (mark_from name k n)) = x_tag n.
  Proof. destruct n; reflexivity. Qed.
  Lemma mark_child k n x : In x (x_children (snd (mark_from name k n))) -> exists y j, In y (x_children n) /\ x = snd (mark_from name j y).
  Proof.
    destruct n as [tag attrs text ch tail| |]; [|intros []..]. rewrite mark_elem. cbn [snd x_children]. generalize (if String.eqb name tag then S k else k). clear.
    induction ch as [|y l IHl]; intros j Hx; [destruct Hx|]. cbn [mark_list snd] in Hx. destruct Hx as [<-|Hx]; [exists y, j; split; [left; reflexivity|reflexivity]|].
    destruct (IHl _ Hx) as (z & j' & H1 & H2). exists z, j'. split; [right; exact H1|exact H2].
  Qed.
  (** what is inside a document with labels is inside the document *)
  Lemma mark_inside n p : forall k, inside (snd (mark_from name k n)) p -> exists p' j, inside n p' /\ p = snd (mark_from name j p').
  Proof.
    induction n as [tag attrs text ch tail IH| |] using xnode_ind'; intros k H.
    - inversion H as [? x Hx|? x ? Hx Hi]; subst; apply mark_child in Hx as (y & j & Hy & ->).
      + exists y, j. split; [apply in_child, Hy|reflexivity].
      + rewrite Forall_forall in IH. destruct (IH y Hy j Hi) as (p' & j' & H1 & H2). exists p', j'. split; [apply (in_deep _ y); assumption|exact H2].
    - apply inside_child in H as (c & [] & _).
    - apply inside_child in H as (c & [] & _).
  Qed.
End Labels.

(** ** What is in the table made from a CORPUS *)
Section Ok.
  Variable kw : kwargs.
  Let o := formex_parser kw.
  Notation name := (fmx o "CORPUS").
  Notation tbl m := (x_has_tag m name).
  Variable doc : xnode.
  Let src : xnode := snd (mark_from name 1 doc).
  Hypothesis HW : wrapped kw doc.
  Lemma src_wrapped t p c s : In t (tree_nodes src) -> tbl t = true -> inside t p -> In c (x_children p) -> tbl c = true -> In s CONTENT_NAMES -> x_has_tag p (fmx o s) = false.
  Proof.
    intros H Ht Hp Hc Htc Hs. assert (H1 : exists t' j, within doc t' /\ t = snd (mark_from name j t')).
    { apply in_nodes in H as [->|H]; [exists doc, 1%nat; split; [left; reflexivity|reflexivity]|]. apply mark_inside in H as (t' & j & H1 & H2). exists t', j. split; [right; exact H1|exact H2]. }
    destruct H1 as (t' & j & Ht' & ->). apply mark_inside in Hp as (p' & j' & Hp' & ->). apply mark_child in Hc as (c' & j2 & Hc' & ->).
    rewrite (has_tag_tag _ _ _ (mark_tag name _ _)) in Ht. rewrite (has_tag_tag _ _ _ (mark_tag name _ _)) in Htc. rewrite (has_tag_tag _ _ _ (mark_tag name _ _)). unfold o in *. rewrite formex_name in *. exact (HW t' p' c' s Ht' Ht Hp' Hc' Htc Hs).
  Qed.
  Variables (i : nat) (m0 : xnode).
  Hypothesis Hi : nth_error (srcs name src) i = Some m0.
  Definition Q (m : xnode) : Prop := inner name m0 m /\ local o doc m.
  Definition top (m : xnode) : Prop := tbl m = false.
  Lemma m0_src : In m0 (tree_nodes src) /\ tbl m0 = true.
  Proof. apply nth_error_In, filter_In in Hi. exact Hi. Qed.
  Lemma inside_src x : inside m0 x -> In x (tree_nodes src).
  Proof.
    intros H. destruct m0_src as [H0 _]. apply in_nodes in H0. apply in_nodes. right. destruct H0 as [E|H0]; [rewrite E in H; exact H|].
    clear -H0 H. induction H0 as [y z Hz|y z w Hz _ IH]; [apply (in_deep _ z); assumption|apply (in_deep _ z); [exact Hz|apply IH, H]].
  Qed.
  Lemma top_tail n t : top (x_set_tail n t) <-> top n.
  Proof. unfold top. assert (E : tbl (x_set_tail n t) = tbl n) by (destruct n; reflexivity). rewrite E. tauto. Qed.
  Lemma Q_tail n t : Q (x_set_tail n t) <-> Q n.
  Proof.
    unfold Q. rewrite (inner_tail name m0 n t). assert (E : local o doc (x_set_tail n t) <-> local o doc n) by (unfold local; destruct n; reflexivity). rewrite E. tauto.
  Qed.
  Lemma local_free n : (forall c, In c (x_children n) -> tbl c = false) -> local o doc n.
  Proof. intros H l1 c l2 j E Hc. assert (K : tbl c = false) by (apply H; rewrite E; apply in_or_app; right; left; reflexivity). congruence. Qed.
  Lemma inside_all x : inside m0 x -> all Q x.
  Proof.
    intros H m Hm. assert (K : inside m0 m).
    { apply in_nodes in Hm as [->|Hm]; [exact H|]. clear -Hm H. induction H as [y z Hz|y z w Hz _ IH]; [apply (in_deep _ z); assumption|apply (in_deep _ z); [exact Hz|apply IH, Hm]]. }
    split; [intros _; exists m; split; [exact K|reflexivity]|]. apply (src_orderly o doc). apply inside_src, K.
  Qed.
  Lemma free_all x : free o x -> all Q x.
  Proof.
    intros H m Hm. split; [intros Ht; rewrite (H m Hm) in Ht; discriminate Ht|]. apply local_free. intros c Hc. apply H.
    apply in_nodes in Hm. apply in_nodes. right. destruct Hm as [->|Hm]; [apply in_child, Hc|]. clear -Hm Hc. induction Hm as [y z Hz|y z w Hz _ IH]; [apply (in_deep _ z); [exact Hz|apply in_child, Hc]|apply (in_deep _ z); [exact Hz|apply IH, Hc]].
  Qed.
  Lemma char_piece s p : In p (otext_pieces s) -> alltop_piece Q top p.
  Proof. destruct s as [s|]; [|intros []]. unfold otext_pieces, text_pieces. intros H. apply in_map_iff in H as (a & <- & _). exact I. Qed.
  Lemma node_piece x p : all Q x -> top x -> In p (node_pieces x) -> alltop_piece Q top p.
  Proof.
    intros H1 H2 [<-|Hp]; [|exact (char_piece _ p Hp)]. split; [apply (all_tail Q Q_tail), H1|apply top_tail, H2].
  Qed.
  Lemma elem_piece x p : (forall c, In c (x_children x) -> all Q c /\ top c) -> In p (elem_pieces x) -> alltop_piece Q top p.
  Proof.
    intros H Hp. unfold elem_pieces in Hp. apply in_app_or in Hp as [Hp|Hp]; [exact (char_piece _ p Hp)|].
    apply in_flat_map in Hp as (c & Hc & Hp). destruct (H c Hc) as [H1 H2]. exact (node_piece c p H1 H2 Hp).
  Qed.
  Lemma inside_elem x s p : inside m0 x -> In s CONTENT_NAMES -> x_has_tag x (fmx o s) = true -> In p (elem_pieces x) -> alltop_piece Q top p.
  Proof.
    intros Hx Hs Ht Hp. refine (elem_piece x p _ Hp). intros c Hc. assert (K : inside m0 c).
    { clear -Hx Hc. induction Hx as [y z Hz|y z w Hz _ IH]; [apply (in_deep _ z); [exact Hz|apply in_child, Hc]|apply (in_deep _ z); [exact Hz|apply IH, Hc]]. }
    split; [apply inside_all, K|]. unfold top. destruct (tbl c) eqn:E; [|reflexivity]. rewrite (src_wrapped m0 x c s (proj1 m0_src) (proj2 m0_src) Hx Hc E Hs) in Ht. discriminate Ht.
  Qed.

  Lemma formex2cals_ok P b bef n e : formex2cals kw (Some P) b bef (drop_mark n) = Ok e -> Forall (free o) bef -> same_node n m0 ->
    tbl e = false /\ (forall m, inside e m -> tbl m = true -> exists x, inside m0 x /\ same_node m x) /\ orderly o doc e.
  Proof.
    unfold formex2cals. intros H HB Hs. bind H as co Eo. bind H as t Et. destruct (C70_formex _ _ _ _ _ _ Et) as (HR & HX & _).
    assert (A : forall s, In s CALS_NAMES -> cals co s <> name).
    { intros s Hs'. unfold cals, fmx. cbn in Hs'. repeat destruct Hs' as [<-|Hs']; try (apply names_apart; discriminate). destruct Hs'. }
    assert (HT : forall s x, within (drop_mark n) x -> In s CONTENT_NAMES -> x_has_tag x (fmx o s) = true -> inside m0 x).
    { intros s x [->|Hx] Hs' Ht.
      - exfalso. destruct m0_src as [_ K]. rewrite <- (tbl_same name _ _ Hs) in K. rewrite <- (has_tag_tag _ _ name (drop_tag n)) in K. unfold o in *. rewrite formex_name in *.
        assert (D : s <> "CORPUS") by (intros ->; cbn in Hs'; repeat destruct Hs' as [Hs'|Hs']; try discriminate Hs'; destruct Hs').
        apply (two_names _ _ _ _ Ht) in D. unfold formex in K. congruence.
      - apply (inside_same n m0 x Hs). exact (inside_children _ _ _ (drop_children n) Hx). }
    assert (EN : forall s x, has_name (pf_ns (formex_parser kw)) s x = true -> x_has_tag x (fmx o s) = true).
    { intros s x Hx. unfold o. rewrite formex_name. unfold formex. rewrite <- formex_parser_space. exact Hx. }
    assert (K : alltop Q top e).
    { refine (cals_top Q top Q_tail _ top_tail _ co _ _ t e HR HX _ H).
      - intros a b' c. split; [apply inner_pi|]. apply local_free. intros x [].
      - intros a b' c. reflexivity.
      - intros s attrs text ch tail Hs'. unfold top. cbn [x_has_tag]. apply String.eqb_neq. intros E. apply (A s Hs'). symmetry. exact E.
      - intros s attrs text ch tail Hs' HF. split; [apply inner_other, A, Hs'|]. apply local_free. cbn [x_children]. rewrite Forall_forall in HF. exact HF.
      - intros c Hc. apply Forall_forall. intros p Hp. destruct (C77_formex _ _ _ _ _ _ _ _ Et Hc Hp) as [(x & s & Hx & Hs' & Hnx & Hpx)|(x & Hx & Hnx & Hpx)].
        + apply EN in Hnx. assert (Hs2 : In s CONTENT_NAMES) by (cbn in Hs' |- *; tauto). exact (inside_elem x s p (HT s x Hx Hs2 Hnx) Hs2 Hnx Hpx).
        + apply EN in Hnx. assert (Hs2 : In "GR.NOTES" CONTENT_NAMES) by (cbn; tauto). destruct Hx as [Hx|Hx].
          * rewrite Forall_forall in HB. apply HB in Hx. destruct (pf_embed _).
            -- refine (node_piece x p (free_all x Hx) _ Hpx). apply Hx, nodes_self.
            -- refine (elem_piece x p _ Hpx). intros y Hy. pose proof (free_child o x y Hx Hy) as F. split; [apply free_all, F|apply F, nodes_self].
          * apply HT with (1 := Hx) (2 := Hs2) in Hnx as Hin. destruct (pf_embed _); [|exact (inside_elem x "GR.NOTES" p Hin Hs2 Hnx Hpx)].
            refine (node_piece x p (inside_all x Hin) _ Hpx). unfold top, o. rewrite formex_name. apply (two_names _ "GR.NOTES"); [|discriminate]. unfold o in Hnx. rewrite formex_name in Hnx. exact Hnx. }
    destruct K as [K1 K2]. split; [exact K2|]. split.
    - intros m Hm. apply K1, in_nodes. right. exact Hm.
    - intros p Hp. apply K1, Hp.
  Qed.
End Ok.

(** ** The notes which are taken away *)
Lemma strip_out o n : notes_out (is_corpus o) (is_notes o) n (strip o n).
Proof.
  induction n as [tag attrs text ch tail IH| |] using xnode_ind'; [|apply no_pi|apply no_comment]. cbn [strip]. destruct (is_corpus o _) eqn:E; [apply no_corpus, E|].
  apply no_elem; [exact E|]. clear E. induction IH as [|c l Hc _ IHl]; [apply nol_nil|]. cbn [map notes_taken].
  assert (T : forall m, is_corpus o (strip o m) = is_corpus o m) by (intros m; apply (has_tag_tag _ _ _ (strip_tag o m))).
  assert (T2 : is_notes o (strip o c) = is_notes o c) by (apply (has_tag_tag _ _ _ (strip_tag o c))). rewrite T2.
  assert (X : existsb (is_corpus o) (map (strip o) l) = existsb (is_corpus o) l) by (clear -T; induction l as [|x l IH]; [reflexivity|]; cbn [map existsb]; rewrite T, IH; reflexivity).
  rewrite X. destruct (is_notes o c) eqn:En; cbn [andb].
  - destruct (existsb _ l) eqn:Ex; [apply nol_out; [exact En|apply Exists_exists, existsb_exists, Ex|exact IHl]|].
    apply nol_kept; [|exact Hc|exact IHl]. right. apply Forall_forall. intros x Hx. destruct (is_corpus o x) eqn:Ec; [|reflexivity].
    exfalso. assert (K : existsb (is_corpus o) l = true) by (apply existsb_exists; exists x; auto). congruence.
  - apply nol_kept; [left; exact En|exact Hc|exact IHl].
Qed.
Lemma taken_id o l : Forall (fun n => is_corpus o n = false) l -> notes_taken o l = l.
Proof.
  induction 1 as [|c l Hc HF IH]; [reflexivity|]. cbn [notes_taken]. rewrite IH. assert (E : existsb (is_corpus o) l = false).
  { destruct (existsb _ l) eqn:E; [|reflexivity]. apply existsb_exists in E as (x & Hx & E). rewrite Forall_forall in HF. rewrite (HF x Hx) in E. discriminate E. }
  rewrite E, andb_false_r. reflexivity.
Qed.
Lemma strip_id o n : free o n -> strip o n = n.
Proof.
  induction n as [tag attrs text ch tail IH| |] using xnode_ind'; intros H; [|reflexivity..]. cbn [strip]. destruct (is_corpus o _); [reflexivity|]. f_equal.
  assert (E : map (strip o) ch = ch).
  { rewrite Forall_forall in IH. rewrite <- (map_id ch) at 2. apply map_ext_in. intros c Hc. apply (IH c Hc). exact (free_child o _ c H Hc). }
  rewrite E. apply taken_id, Forall_forall. intros c Hc. apply (free_child o _ c H Hc), nodes_self.
Qed.

Lemma notes_out_ext c1 n1 c2 n2 : (forall x, c1 x = c2 x) -> (forall x, n1 x = n2 x) -> forall n n', notes_out c1 n1 n n' -> notes_out c2 n2 n n'.
Proof.
  intros HC HN. fix F 3. intros n n' H. destruct H as [n H|tag attrs text ch ch' tail H HL|target pitext tail|ctext tail].
  - apply no_corpus. rewrite <- HC. exact H.
  - apply no_elem; [rewrite <- HC; exact H|]. clear H. revert ch ch' HL. fix G 3. intros l l' HL. destruct HL as [|c l l' K1 K2 HL|c c' l l' K1 K2 HL].
    + apply nol_nil.
    + apply nol_out; [rewrite <- HN; exact K1| |apply G, HL]. clear -K2 HC. induction K2 as [x l K|x l _ IH]; [apply Exists_cons_hd; rewrite <- HC; exact K|apply Exists_cons_tl, IH].
    + apply nol_kept; [|apply F, K2|apply G, HL]. rewrite <- HN. destruct K1 as [K1|K1]; [left; exact K1|right]. clear -K1 HC. induction K1 as [|x l K _ IH]; constructor; [rewrite <- HC; exact K|exact IH].
  - apply no_pi.
  - apply no_comment.
Qed.
Lemma ffull_ext c1 n1 b1 c2 n2 b2 (R1 R2 : xnode -> Z -> list xnode -> xnode -> xnode -> Prop) : (forall x, c1 x = c2 x) -> (forall x, n1 x = n2 x) -> (forall x, b1 x = b2 x) ->
  (forall P b bef n e, R1 P b bef n e -> R2 P b bef n e) -> forall b n n', ffull c1 n1 b1 R1 b n n' -> ffull c2 n2 b2 R2 b n n'.
Proof.
  intros HC HN HB HR. fix F 4. intros b n n' H. destruct H as [b tag attrs text ch ch' tail H HL|b target pitext tail|b ctext tail]; [|apply ff_pi|apply ff_comment].
  apply ff_elem; [rewrite <- HC; exact H|]. rewrite HB in HL. clear H. revert HL.
  generalize (XElem tag attrs text ch tail) at 1 3 as P. generalize (if b2 (XElem tag attrs text ch tail) then b + 1 else b) as k. generalize (@nil xnode) as done.
  clear -F HC HN HR. intros done k P HL. revert P k done ch ch' HL. fix G 6. intros P k done l r HL. destruct HL as [P k done|P k done c e e' l r K1 K2 K3 HL|P k done c c' l r K1 K2 HL].
  - apply ffc_end.
  - apply (ffc_table _ _ _ _ _ _ _ c e e'); [rewrite <- HC; exact K1|apply HR, K2|apply F, K3|].
    rewrite (filter_ext _ (fun n => negb (n2 n))) in HL by (intros x; rewrite HN; reflexivity). apply G, HL.
  - apply (ffc_other _ _ _ _ _ _ _ c c'); [rewrite <- HC; exact K1|apply F, K2|apply G, HL].
Qed.

(** ** C80: tables inside tables, Formex *)

(** The converted document is the source in which each CORPUS, at every depth, is replaced by the table which is made from
    it, with the notes before it in the same parent, followed by the text which followed it; these notes are taken away. *)
Theorem C80_formex_to_cals : forall kw o doc doc', cals_builder kw = Ok o -> wrapped kw doc -> nested_formex2cals kw doc = Ok doc' ->
  exists memory, labelled (formex kw "CORPUS") doc memory /\
    ffull (formex kw "CORPUS") (formex kw "GR.NOTES") (formex kw "BLK")
      (fun parent blks before n e => exists n1 t e0, label_off n n1 /\
         parse_formex (formex_parser kw) (Some parent) blks before n1 = Ok t /\ generate_table_tree o t = Ok e0 /\
         notes_out (formex kw "CORPUS") (formex kw "GR.NOTES") e0 e) 0 memory doc'.
Proof.
  intros kw o doc doc' Ho HW H. unfold nested_formex2cals in H. rewrite Ho in H. cbn [rbind] in H.
  apply fnested_full in H as [H _].
  - exists (snd (mark_from (fmx (formex_parser kw) "CORPUS") 1 doc)). split.
    + unfold formex, has_name. change (expanded (formex_space kw) "CORPUS") with (qname (formex_space kw) "CORPUS"). rewrite <- formex_parser_space. apply (mark_labelled (fmx (formex_parser kw) "CORPUS")).
    + refine (ffull_ext _ _ _ _ _ _ _ _ (formex_name kw "CORPUS") (formex_name kw "GR.NOTES") (formex_name kw "BLK") _ _ _ _ H).
      intros P b bef n e (n1 & e0 & H1 & H2 & ->). unfold formex2cals in H2. rewrite Ho in H2. cbn [rbind] in H2. bind H2 as t Et. exists n1, t, e0.
      split; [exact H1|]. split; [exact Et|]. split; [exact H2|]. refine (notes_out_ext _ _ _ _ (formex_name kw "CORPUS") (formex_name kw "GR.NOTES") _ _ (strip_out _ _)).
  - intros P b bef n e i m0 K1 K2 K3 K4. exact (formex2cals_ok kw doc HW i m0 K3 P b bef n e K1 K2 K4).
  - intros P P' b bef n _ K. unfold formex2cals. rewrite (parse_parent _ (Some P) (Some P')) by exact K. reflexivity.
Qed.
(** No CORPUS is left, at any depth. *)
Theorem C80_no_corpus : forall kw doc doc' n, wrapped kw doc -> nested_formex2cals kw doc = Ok doc' -> within doc' n -> formex kw "CORPUS" n = false.
Proof.
  intros kw doc doc' n HW H Hn. unfold nested_formex2cals in H. bind H as o Ho. apply fnested_full in H as [_ H].
  - rewrite <- formex_name. apply H, in_nodes, Hn.
  - intros P b bef x e i m0 K1 K2 K3 K4. exact (formex2cals_ok kw doc HW i m0 K3 P b bef x e K1 K2 K4).
  - intros P P' b bef x _ K. unfold formex2cals. rewrite (parse_parent _ (Some P) (Some P')) by exact K. reflexivity.
Qed.
(** A conversion which fails does so with an error of the options or of a CORPUS, at some depth, or because the root is a CORPUS. *)
Theorem C80_formex_failure : forall kw doc x, wrapped kw doc -> nested_formex2cals kw doc = Err x ->
  cals_builder kw = Err x \/
  (exists o memory parent blks before n n1, cals_builder kw = Ok o /\ labelled (formex kw "CORPUS") doc memory /\ within memory n /\ formex kw "CORPUS" n = true /\ unlabelled n n1 /\
     (parse_formex (formex_parser kw) parent blks before n1 = Err x \/
      exists t, parse_formex (formex_parser kw) parent blks before n1 = Ok t /\ generate_table_tree o t = Err x)) \/
  (formex kw "CORPUS" doc = true /\ x = EAttributeError).
Proof.
  intros kw doc x HW H. unfold nested_formex2cals in H. destruct (cals_builder kw) as [o|y] eqn:Ho; cbn [rbind] in H; [right|left; injection H as ->; reflexivity].
  apply fnested_error in H as [(P & b & bef & n & n1 & H1 & H2 & H3 & H4)|[H1 H2]].
  - left. exists o, (snd (mark_from (fmx (formex_parser kw) "CORPUS") 1 doc)), P, b, bef, n, n1. split; [reflexivity|]. split.
    { unfold formex, has_name. change (expanded (formex_space kw) "CORPUS") with (qname (formex_space kw) "CORPUS"). rewrite <- formex_parser_space. apply (mark_labelled (fmx (formex_parser kw) "CORPUS")). }
    split; [apply tree_within, H1|]. split; [rewrite <- formex_name; exact H2|]. split; [exact H3|].
    unfold formex2cals in H4. rewrite Ho in H4. cbn [rbind] in H4. destruct (parse_formex _ _ _ _ _) as [t|y] eqn:E; cbn [rbind] in H4; [right; exists t; auto|left; injection H4 as ->; reflexivity].
  - right. rewrite formex_name in H1. auto.
  - intros P b bef n e i m0 K1 K2 K3 K4. exact (formex2cals_ok kw doc HW i m0 K3 P b bef n e K1 K2 K4).
  - intros P P' b bef n _ K. unfold formex2cals. rewrite (parse_parent _ (Some P) (Some P')) by exact K. reflexivity.
Qed.

(** ** Documents in which no table is inside another *)
Section Flat.
  Variable kw : kwargs.
  Let o := formex_parser kw.
  Notation name := (fmx o "CORPUS").
  Notation tbl m := (x_has_tag m name).
  Definition alone (n : xnode) : Prop := forall m x, In m (tree_nodes n) -> tbl m = true -> inside m x -> tbl x = false.
  Lemma alone_child n c : alone n -> In c (x_children n) -> alone c.
  Proof. intros H Hc m x Hm. apply H, (nodes_child n c); assumption. Qed.
  (** there is nothing to mark *)
  Lemma mark_free n : free o n -> forall k, snd (mark_from name k n) = n.
  Proof.
    induction n as [tag attrs text ch tail IH| |] using xnode_ind'; intros H k; [|reflexivity..]. rewrite mark_elem. cbn [snd].
    pose proof (H _ (nodes_self _)) as Ht. cbn [x_has_tag] in Ht. rewrite Ht. f_equal. assert (HF : Forall (free o) ch) by (apply Forall_forall; intros c Hc; exact (free_child o _ c H Hc)).
    generalize k. clear H Ht k. induction IH as [|c l Hc _ IHl]; intros k; [reflexivity|]. inversion HF; subst. cbn [mark_list snd]. rewrite Hc, IHl by assumption. reflexivity.
  Qed.
  Variable R0 : xnode -> Z -> list xnode -> xnode -> xnode -> Prop.
  Variable R1 : xnode -> Z -> list xnode -> xnode -> xnode -> Prop.
  (** one CORPUS, with its label *)
  Hypothesis step : forall P b bef c k e, tbl c = true -> (forall x, inside c x -> tbl x = false) -> Forall (free o) bef ->
    R1 P b bef (snd (mark_from name k c)) e -> R0 P b bef c e /\ free o e.
  Hypothesis R0_parent : forall P P' b bef c e, x_attrs P = x_attrs P' -> R0 P b bef c e -> R0 P' b bef c e.
  Notation FF := (ffull (fun m => tbl m) (is_notes o) (fun m => x_has_tag m (fmx o "BLK")) R1).
  Notation FC := (ffull_children (fun m => tbl m) (is_notes o) (fun m => x_has_tag m (fmx o "BLK")) R1).
  Notation GG := (fconverted (fun m => tbl m) (is_notes o) (fun m => x_has_tag m (fmx o "BLK")) R0).
  Notation GC := (fchildren (fun m => tbl m) (is_notes o) (fun m => x_has_tag m (fmx o "BLK")) R0).
  Lemma free_tail n t : free o (x_set_tail n t) <-> free o n.
  Proof.
    unfold free. split; intros H m Hm; apply in_nodes in Hm as [->|Hm].
    - specialize (H (x_set_tail n t) (nodes_self _)). destruct n; exact H.
    - apply H, in_nodes. right. apply inside_tail, Hm.
    - specialize (H n (nodes_self n)). destruct n; exact H.
    - apply H, in_nodes. right. apply (inside_tail n t), Hm.
  Qed.
  Lemma free_elem tag attrs text ch tail : String.eqb name tag = false -> Forall (free o) ch -> free o (XElem tag attrs text ch tail).
  Proof. intros H HF m [<-|Hm]; [exact H|]. apply in_flat_map in Hm as (c & Hc & Hm). rewrite Forall_forall in HF. exact (HF c Hc m Hm). Qed.
  (** [FF] does nothing where there is no table *)
  Lemma full_free n : free o n -> forall b n', FF b n n' -> n' = n.
  Proof.
    induction n as [tag attrs text ch tail IH| |] using xnode_ind'; intros H b n' HF; inversion HF as [? ? ? ? ? ch' ? H1 H2| |]; subst; [|reflexivity..]. f_equal.
    assert (HC : Forall (free o) ch) by (apply Forall_forall; intros c Hc; exact (free_child o _ c H Hc)). clear H H1 HF.
    change ch with ([] ++ ch). revert H2. generalize (XElem tag attrs text ch tail) at 1 as P. generalize (if x_has_tag (XElem tag attrs text ch tail) (fmx o "BLK") then b + 1 else b) as k. generalize (@nil xnode) as done.
    revert ch'. induction IH as [|c l Hc _ IHl]; intros ch' done k P HF; inversion HF as [|? ? ? ? e e' ? ? K HR HE HC'|? ? ? ? c' ? ? K HE HC']; subst; inversion HC as [|? ? F1 F2]; subst.
    - symmetry. apply app_nil_r.
    - cbn beta in K. rewrite (F1 c (nodes_self c)) in K. discriminate K.
    - apply (Hc F1) in HE as ->. apply (IHl F2) in HC' as ->. rewrite <- app_assoc. reflexivity.
  Qed.
  Lemma full_flat n : forall b k n', alone n -> FF b (snd (mark_from name k n)) n' -> GG b n n' /\ free o n'.
  Proof.
    induction n as [tag attrs text ch tail IH| |] using xnode_ind'; intros b k n' HA HF.
    - rewrite mark_elem in HF. cbn [snd] in HF. inversion HF as [? ? ? ? ? r ? H1 H2| |]; subst. cbn [x_has_tag] in H1, H2. rewrite H1 in *. clear HF.
      assert (G : Forall (free o) r /\ GC (XElem tag attrs text ch tail) (if String.eqb (fmx o "BLK") tag then b + 1 else b) [] ch r).
      { assert (AL : forall c, In c ch -> alone c) by (intros c Hc; exact (alone_child _ c HA Hc)). clear HA.
        assert (PA : forall l, x_attrs (XElem tag attrs text l tail) = attrs) by reflexivity. revert H2. set (kk := if String.eqb (fmx o "BLK") tag then b + 1 else b).
        generalize (PA ch). generalize (PA (snd (mark_list name k ch))). generalize (XElem tag attrs text (snd (mark_list name k ch)) tail) as P1. generalize (XElem tag attrs text ch tail) as P0.
        assert (D0 : Forall (free o) []) by constructor. revert D0. generalize (@nil xnode) as done. clear PA H1. revert k r. rewrite Forall_forall in IH.
        induction ch as [|c l IHl]; intros k r done D P0 P1 E1 E0 HF; cbn [mark_list snd] in HF; inversion HF as [|? ? ? ? e e' ? ? K HR HE HC'|? ? ? ? c' ? ? K HE HC']; subst.
        - split; [exact D|apply fch_end].
        - assert (Tc : tbl c = true) by (rewrite <- (has_tag_tag _ _ _ (mark_tag name k c)); exact K).
          assert (Ic : forall x, inside c x -> tbl x = false) by (intros x; exact (AL c (or_introl eq_refl) c x (nodes_self c) Tc)).
          destruct (step _ _ _ c k e Tc Ic D HR) as [S1 S2]. apply (full_free e S2) in HE as ->.
          assert (TL : x_tail (snd (mark_from name k c)) = x_tail c) by (destruct c; reflexivity). rewrite TL in HC'.
          apply (IHl (fun x Hx => IH x (or_intror Hx)) (fun x Hx => AL x (or_intror Hx))) with (P0 := P0) in HC' as [G1 G2]; [|apply Forall_app; split; [|constructor; [apply free_tail, S2|constructor]]|reflexivity|exact E0].
          + split; [exact G1|]. apply (fch_table _ _ _ _ _ _ _ c e); [exact Tc|refine (R0_parent _ _ _ _ _ _ _ S1); congruence|exact G2].
          + apply Forall_forall. intros x Hx. apply filter_In in Hx as [Hx _]. rewrite Forall_forall in D. exact (D x Hx).
        - assert (Tc : tbl c = false) by (rewrite <- (has_tag_tag _ _ _ (mark_tag name k c)); exact K).
          apply (IH c (or_introl eq_refl) _ _ _ (AL c (or_introl eq_refl))) in HE as [S1 S2].
          apply (IHl (fun x Hx => IH x (or_intror Hx)) (fun x Hx => AL x (or_intror Hx))) with (P0 := P0) in HC' as [G1 G2]; [|apply Forall_app; split; [exact D|constructor; [exact S2|constructor]]|reflexivity|exact E0].
          split; [exact G1|]. apply (fch_other _ _ _ _ _ _ _ c c'); [exact Tc|exact S1|exact G2]. }
      destruct G as [G1 G2]. split; [apply fc_elem; [exact H1|exact G2]|apply free_elem; assumption].
    - inversion HF; subst. split; [apply fc_pi|]. intros m [<-|[]]. reflexivity.
    - inversion HF; subst. split; [apply fc_comment|]. intros m [<-|[]]. reflexivity.
  Qed.
End Flat.

Lemma mark_alone kw c k : x_has_tag c (fmx (formex_parser kw) "CORPUS") = true -> (forall x, inside c x -> x_has_tag x (fmx (formex_parser kw) "CORPUS") = false) ->
  exists tag attrs text ch tail, c = XElem tag attrs text ch tail /\ snd (mark_from (fmx (formex_parser kw) "CORPUS") k c) = XElem tag (("", unary k) :: attrs) text ch tail.
Proof.
  set (name := fmx (formex_parser kw) "CORPUS"). intros Ht Hi. destruct c as [tag attrs text ch tail| |]; try discriminate Ht. exists tag, attrs, text, ch, tail. split; [reflexivity|].
  rewrite mark_elem. cbn [snd]. cbn [x_has_tag] in Ht. rewrite Ht. f_equal. assert (HF : Forall (free (formex_parser kw)) ch).
  { apply Forall_forall. intros c Hc m Hm. apply Hi. apply in_nodes in Hm as [->|Hm]; [apply in_child, Hc|apply (in_deep _ c); assumption]. }
  generalize (S k). clear Ht Hi k. induction HF as [|c l Hc _ IH]; intros k; [reflexivity|]. cbn [mark_list snd]. rewrite IH. f_equal. apply (mark_free kw c Hc).
Qed.
Lemma convert_alone kw P b bef c e : x_has_tag c (fmx (formex_parser kw) "CORPUS") = true -> (forall x, inside c x -> x_has_tag x (fmx (formex_parser kw) "CORPUS") = false) ->
  Forall (free (formex_parser kw)) bef -> formex2cals kw (Some P) b bef c = Ok e -> free (formex_parser kw) e.
Proof.
  set (name := fmx (formex_parser kw) "CORPUS"). intros Ht Hi HB H.
  assert (HW : wrapped kw c).
  { intros t p d s H1 _ H3 H4 H5 _. exfalso. rewrite <- formex_name in H5. assert (K : inside c d); [|unfold name in Hi; rewrite (Hi d K) in H5; discriminate H5].
    assert (K1 : inside t d) by (clear -H3 H4; induction H3 as [y z Hz|y z w Hz _ IH]; [apply (in_deep _ z); [exact Hz|apply in_child, H4]|apply (in_deep _ z); [exact Hz|apply IH, H4]]).
    destruct H1 as [->|H1]; [exact K1|]. clear -H1 K1. induction H1 as [y z Hz|y z w Hz _ IH]; [apply (in_deep _ z); assumption|apply (in_deep _ z); [exact Hz|apply IH, K1]]. }
  assert (H0 : nth_error (srcs name (snd (mark_from name 1 c))) 0 = Some (snd (mark_from name 1 c))).
  { unfold srcs. destruct (nodes_cons (snd (mark_from name 1 c))) as (l & ->). cbn [filter]. rewrite (has_tag_tag _ _ _ (mark_tag name 1 c)), Ht. reflexivity. }
  destruct (mark_alone kw c 1 Ht Hi) as (tag & attrs & text & ch & tail & Ec & Em). fold name in Em.
  assert (ED : drop_mark (snd (mark_from name 1 c)) = c) by (rewrite Em, Ec; reflexivity). rewrite <- ED in H.
  destruct (formex2cals_ok kw c HW 0 _ H0 P b bef _ e H HB eq_refl) as (K1 & K2 & _).
  intros m Hm. apply in_nodes in Hm as [->|Hm]; [exact K1|]. destruct (x_has_tag m _) eqn:Et; [|reflexivity]. destruct (K2 m Hm Et) as (x & Hx & Hs).
  apply mark_inside in Hx as (y & j & Hy & ->). rewrite (tbl_same _ _ _ Hs) in Et. fold name in Et. rewrite (has_tag_tag _ _ _ (mark_tag name j y)) in Et. unfold name in *. rewrite (Hi y Hy) in Et. discriminate Et.
Qed.
(** When no CORPUS is inside another, the conversion gives what the one of M_ConvertDoc.v gives (C78, C79). *)
Theorem C80_formex_flat : forall kw doc doc', formex kw "CORPUS" doc = false -> not_nested (formex kw "CORPUS") doc ->
  nested_formex2cals kw doc = Ok doc' -> convert_formex2cals kw doc = Ok doc'.
Proof.
  intros kw doc doc' Hr Hn H. pose proof H as H0. unfold nested_formex2cals in H. bind H as o Ho. apply (C78_formex_to_cals kw doc o doc' Ho Hr Hn).
  assert (HA : alone kw doc).
  { intros m x Hm Ht Hx. rewrite formex_name in Ht |- *. apply in_nodes in Hm as [->|Hm]; [congruence|]. exact (Hn m x (conj Hm Ht) Hx). }
  assert (HW : wrapped kw doc).
  { intros t p c s H1 H2 H3 H4 H5 _. exfalso. assert (K : inside t c) by (clear -H3 H4; induction H3 as [y z Hz|y z w Hz _ IH]; [apply (in_deep _ z); [exact Hz|apply in_child, H4]|apply (in_deep _ z); [exact Hz|apply IH, H4]]).
    apply in_nodes in H1. rewrite <- formex_name in H2, H5. rewrite (HA t c H1 H2 K) in H5. discriminate H5. }
  apply fnested_full in H as [H _].
  - apply (full_flat kw (fun parent blks before n e => exists t, parse_formex (formex_parser kw) (Some parent) blks before n = Ok t /\ generate_table_tree o t = Ok e)) in H as [H _]; [| | |exact HA].
    + unfold formex in *. rewrite <- formex_parser_space. exact H.
    + intros P b bef c k e Ht Hi HB (n1 & e0 & L & E & ->). destruct (mark_alone kw c k Ht Hi) as (tag & attrs & text & ch & tail & Ec & Em). rewrite Em in L.
      destruct L as (tag' & v & attrs' & text' & ch' & tail' & L1 & ->). injection L1 as <- _ <- <- <- <-. rewrite <- Ec in E.
      pose proof (convert_alone kw P b bef c e0 Ht Hi HB E) as F. rewrite (strip_id _ _ F). split; [|exact F].
      unfold formex2cals in E. rewrite Ho in E. cbn [rbind] in E. bind E as t Et. exists t. auto.
    + intros P P' b bef c e E (t & K1 & K2). exists t. split; [|exact K2]. rewrite <- K1. apply parse_parent. symmetry. exact E.
  - intros P b bef n e i m0 K1 K2 K3 K4. exact (formex2cals_ok kw doc HW i m0 K3 P b bef n e K1 K2 K4).
  - intros P P' b bef n _ K. unfold formex2cals. rewrite (parse_parent _ (Some P) (Some P')) by exact K. reflexivity.
Qed.

(** ** Examples *)

(** a table in a table in a table; there are notes before the second one and before the third one *)
Definition formex_small (body : list xnode) : xnode :=
  el "CORPUS" [] [el "ROW" [] [XElem "CELL" [("COL", "1")] (Some "x") body None; say "CELL" [("COL", "2")] "y"]].
Definition formex_nested : xnode :=
  XElem "DOC" [] (Some "begin")
    [XElem "TBL" [("NO.SEQ", "0001")] None
       [say "GR.NOTES" [] "first";
        after "between" (formex_small [say "P" [] "before"; after "after" (el "TBL" [] [say "GR.NOTES" [] "second"; after "end" (formex_small [el "TBL" [] [formex_small []]])])])] None] None.
Definition wrappedb (kw : kwargs) (doc : xnode) : bool :=
  forallb (fun p => negb (existsb (fun s => formex kw s p) CONTENT_NAMES) || forallb (fun c => negb (formex kw "CORPUS" c)) (x_children p)) (tree_nodes doc).
Lemma wrappedb_wrapped kw doc : wrappedb kw doc = true -> wrapped kw doc.
Proof.
  intros H t p c s H1 _ H2 H3 H4 H5. unfold wrappedb in H. rewrite forallb_forall in H.
  assert (Hp : In p (tree_nodes doc)).
  { apply in_nodes. right. destruct H1 as [->|H1]; [exact H2|]. clear -H1 H2. induction H1 as [y z Hz|y z w Hz _ IH]; [apply (in_deep _ z); assumption|apply (in_deep _ z); [exact Hz|apply IH, H2]]. }
  specialize (H p Hp). destruct (formex kw s p) eqn:E; [|reflexivity]. exfalso. apply orb_prop in H as [H|H].
  - apply negb_true_iff in H. assert (K : existsb (fun s => formex kw s p) CONTENT_NAMES = true) by (apply existsb_exists; exists s; auto). congruence.
  - rewrite forallb_forall in H. specialize (H c H3). rewrite H4 in H. discriminate H.
Qed.
Example C80_formex_ex : exists o d, cals_builder kw_conv = Ok o /\ wrapped kw_conv formex_nested /\ nested_formex2cals kw_conv formex_nested = Ok d /\
  List.length (filter (formex kw_conv "CORPUS") (tree_nodes formex_nested)) = 3%nat /\ List.length (filter (formex kw_conv "CORPUS") (tree_nodes d)) = 0%nat /\
  List.length (filter (formex kw_conv "GR.NOTES") (tree_nodes formex_nested)) = 2%nat /\ List.length (filter (formex kw_conv "GR.NOTES") (tree_nodes d)) = 0%nat /\
  tails_of "table" d = [Some "between"; Some "end"; None] /\
  string_value formex_nested = "beginfirstxbeforesecondxxyyendafterybetween" /\
  map (fun n => map x_text (entries (cals_space kw_conv) n)) (filter (has_name (cals_space kw_conv) "table") (tree_nodes d)) =
    [[Some "second"; Some "y"; Some "first"; Some "x"; None]; [Some "x"; Some "y"]; [Some "x"; Some "y"]].
Proof.
  assert (B : exists o, cals_builder kw_conv = Ok o) by (eexists; vm_compute; reflexivity). destruct B as (o & B). exists o.
  assert (E : exists d, nested_formex2cals kw_conv formex_nested = Ok d) by (eexists; vm_compute; reflexivity). destruct E as (d & E). exists d.
  split; [exact B|]. split; [apply wrappedb_wrapped; vm_compute; reflexivity|]. split; [exact E|]. vm_compute in E. injection E as <-.
  vm_compute. repeat (split; [reflexivity|]). reflexivity.
Qed.

(** The notes before a nested table are rows of the enclosing one, and the cells which follow in the row of the source are
    put in the row of the notes: two cells of a row are in two rows after the conversion. *)
Definition formex_noted : xnode :=
  el "DOC" [] [el "TBL" [] [formex_small [el "TBL" [] [say "GR.NOTES" [] "n"; formex_small []]]]].
Theorem C80_formex_notes_refuted : exists kw doc doc' row cell other,
  wrapped kw doc /\ nested_formex2cals kw doc = Ok doc' /\
  within doc row /\ formex kw "ROW" row = true /\ x_children row = [cell; other] /\ (exists n, inside cell n /\ formex kw "CORPUS" n = true) /\ x_text other = Some "y" /\
  (exists r e, within doc' r /\ has_name (cals_space kw) "row" r = true /\ In e (x_children r) /\ (exists n, inside e n /\ has_name (cals_space kw) "table" n = true)) /\
  (forall r e e', within doc' r -> has_name (cals_space kw) "row" r = true -> In e (x_children r) -> (exists n, inside e n /\ has_name (cals_space kw) "table" n = true) ->
     In e' (x_children r) -> x_text e' <> Some "y").
Proof.
  assert (E : exists d, nested_formex2cals kw_conv formex_noted = Ok d) by (eexists; vm_compute; reflexivity). destruct E as (d & E).
  exists kw_conv, formex_noted, d.
  exists (el "ROW" [] [XElem "CELL" [("COL", "1")] (Some "x") [el "TBL" [] [say "GR.NOTES" [] "n"; formex_small []]] None; say "CELL" [("COL", "2")] "y"]).
  do 2 eexists. split; [apply wrappedb_wrapped; vm_compute; reflexivity|]. split; [exact E|].
  split; [apply tree_within; cbn; tauto|]. split; [reflexivity|]. split; [reflexivity|].
  split; [eexists; split; [eapply in_deep; [left; reflexivity|apply in_child; right; left; reflexivity]|reflexivity]|]. split; [reflexivity|].
  set (tabled := fun e => existsb (has_name (cals_space kw_conv) "table") (flat_map tree_nodes (x_children e))).
  assert (TB : forall e, (exists n, inside e n /\ has_name (cals_space kw_conv) "table" n = true) <-> tabled e = true).
  { intros e. unfold tabled. rewrite existsb_exists. split; intros (n & H1 & H2); exists n; (split; [|exact H2]).
    - apply inside_nodes, H1.
    - apply in_flat_map in H1 as (c & Hc & H1). apply in_nodes in H1 as [->|H1]; [apply in_child, Hc|apply (in_deep _ c); assumption]. }
  assert (C1 : existsb (fun r => has_name (cals_space kw_conv) "row" r && existsb tabled (x_children r)) (tree_nodes d) = true) by (vm_compute in E; injection E as <-; vm_compute; reflexivity).
  assert (C2 : forallb (fun r => negb (has_name (cals_space kw_conv) "row" r) || negb (existsb tabled (x_children r)) ||
                 forallb (fun e => match x_text e with Some s => negb (String.eqb s "y") | None => true end) (x_children r)) (tree_nodes d) = true) by (vm_compute in E; injection E as <-; vm_compute; reflexivity).
  clear E. split.
  - apply existsb_exists in C1 as (r & H1 & H2). apply andb_prop in H2 as [H2 H3]. apply existsb_exists in H3 as (e & H3 & H4). exists r, e. split; [apply tree_within, H1|]. split; [exact H2|]. split; [exact H3|apply TB, H4].
  - intros r e e' Hr Hn He Ht He'. apply in_nodes in Hr. rewrite forallb_forall in C2. specialize (C2 r Hr). apply TB in Ht.
    assert (K : existsb tabled (x_children r) = true) by (apply existsb_exists; exists e; auto). rewrite Hn, K in C2. cbn [negb orb] in C2. rewrite forallb_forall in C2. specialize (C2 e' He').
    intros Hx. rewrite Hx in C2. discriminate C2.
Qed.

(** the hypotheses of the flat case *)
Example C80_formex_flat_ex : exists d, formex kw_conv "CORPUS" formex_doc = false /\ not_nested (formex kw_conv "CORPUS") formex_doc /\ nested_formex2cals kw_conv formex_doc = Ok d.
Proof. eexists. split; [reflexivity|]. split; [apply apart_not_nested; vm_compute; reflexivity|]. vm_compute. reflexivity. Qed.
(** the error of a nested table, and of a root *)
Example C80_formex_failure_ex : exists x y, wrapped kw_conv (el "DOC" [] [formex_small [el "TBL" [] [el "CORPUS" [] [el "MARGIN" [] []]]]]) /\
  nested_formex2cals kw_conv (el "DOC" [] [formex_small [el "TBL" [] [el "CORPUS" [] [el "MARGIN" [] []]]]]) = Err x /\
  nested_formex2cals kw_conv corpus_small = Err y.
Proof. do 2 eexists. split; [apply wrappedb_wrapped; vm_compute; reflexivity|]. split; vm_compute; reflexivity. Qed.

Print Assumptions C80_formex_to_cals.
Print Assumptions C80_no_corpus.
Print Assumptions C80_formex_failure.
Print Assumptions C80_formex_flat.
Print Assumptions C80_formex_notes_refuted.
