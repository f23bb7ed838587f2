(** * C80: the section and the number used for each Word table of a document, at any depth *)
From Coq Require Import QArith.
From Verif Require Import Base M_Geometry M_Xml M_Cell M_Grid M_Table M_Str M_Builder M_Cals M_CalsParser M_Formex M_FormexParser M_FormexRead M_FormexFinal M_FormexFinish M_Ooxml M_Transform M_Convert M_ConvertDoc M_Nested.
From Verif Require Import S_Geometry S_Grid S_Table S_Builder S_Cals S_Int S_CalsParser S_Formex S_FormexFinal S_Transform S_FormexFinished S_Convert S_ConvertDoc S_Nested.
From Verif Require Import P_Table P_Cals P_Formex P_FormexFinished P_Transform P_Source P_ConvertDoc P_ConvertFinish P_ConvertFormex P_NoneLeft P_Nested P_NestedKept P_NestedFlat P_FinishNames P_NestedSect.
From Verif Require Import T_CalsParser T_Convert T_FormexRead T_ConvertBack T_Options T_ConvertDoc T_ConvertFormex T_Nested.
From Verif Require T_Ooxml.
Open Scope string_scope.
Open Scope list_scope.
Open Scope Z_scope.

(** In a Word document no section is inside a table, and no table is inside a section. *)
Definition sections_apart (doc : xnode) : Prop := forall n m, within doc n -> inside n m ->
  (word "tbl" n = true -> word "sectPr" m = false) /\ (word "sectPr" n = true -> word "tbl" m = false).
(** The labels tell the tables apart. *)
Definition distinct_labels (is_table : xnode -> bool) (memory : xnode) : Prop := NoDup (map (fun m => x_get m "") (filter is_table (tree_nodes memory))).

Lemma formex_sect kw ox sect k n e : ooxml2formex kw ox sect k n = Ok e ->
  x_has_tag e (wq "sectPr") = false /\ forall m, inside e m -> x_has_tag m (wq "sectPr") = true -> exists m0, inside n m0 /\ same_node m m0.
Proof.
  unfold ooxml2formex. intros H. bind H as t Et. destruct (C70_word _ _ _ _ Et) as (HR & HX & _).
  assert (A : forall name, In name FORMEX_NAMES -> name <> wq "sectPr").
  { intros name Hf E. change name with (qname None name) in E. change (wq "sectPr") with (qname (Some WNS) "sectPr") in E. revert E.
    cbn in Hf. repeat destruct Hf as [<-|Hf]; try (apply names_apart; discriminate); destruct Hf. }
  assert (K : all (inner (wq "sectPr") n) e).
  { refine (generated_all _ (inner_tail _ _) (inner_pi _ _) (formex_builder kw) _ _ k t e HR HX _ H).
    - intros name attrs text ch tail Hf. apply inner_other, A, Hf.
    - intros attrs text ch tail. apply inner_other. change (wq "sectPr") with (qname (Some WNS) "sectPr"). apply names_apart; discriminate.
    - intros c Hc. apply Forall_forall. intros p Hp. destruct (C77_word _ _ _ _ _ _ Et Hc Hp) as (x & y & Hx & _ & Hy & _ & ->). cbn [allp].
      apply (all_tail _ (inner_tail _ n)). exact (inner_child _ n x y Hx Hy). }
  split; [|intros m Hm; apply K, in_nodes; right; exact Hm].
  unfold generate_tbl in H. bind H as cols E1. bind H as a1 E2. bind H as a2 E3. bind H as ch E4. injection H as <-. cbn [x_has_tag]. apply String.eqb_neq.
  intros E. apply (A "TBL"); [cbn; tauto|symmetry; exact E].
Qed.
Lemma cals_sect kw ox sect n e : ooxml2cals kw ox sect n = Ok e ->
  x_has_tag e (wq "sectPr") = false /\ forall m, inside e m -> x_has_tag m (wq "sectPr") = true -> exists m0, inside n m0 /\ same_node m m0.
Proof.
  unfold ooxml2cals. intros H. bind H as o Eo. bind H as t Et. destruct (C70_word _ _ _ _ Et) as (HR & HX & _).
  assert (A : forall name, In name CALS_NAMES -> cals o name <> wq "sectPr").
  { intros name Hname. change (wq "sectPr") with (qname (Some WNS) "sectPr"). unfold cals. cbn in Hname. repeat destruct Hname as [<-|Hname]; try (apply names_apart; discriminate). destruct Hname. }
  assert (K : all (inner (wq "sectPr") n) e).
  { refine (cals_all _ (inner_tail _ _) (inner_pi _ _) o _ t e HR HX _ H).
    - intros name attrs text ch tail Hf. apply inner_other, A, Hf.
    - intros c Hc. apply Forall_forall. intros p Hp. destruct (C77_word _ _ _ _ _ _ Et Hc Hp) as (x & y & Hx & _ & Hy & _ & ->). cbn [allp].
      apply (all_tail _ (inner_tail _ n)). exact (inner_child _ n x y Hx Hy). }
  split; [|intros m Hm; apply K, in_nodes; right; exact Hm].
  unfold generate_table_tree in H. bind H as fr E1. bind H as car E2. destruct car as [[cs rs] a].
  bind H as a1 E3. bind H as a2 E4. bind H as a3 E5. bind H as tg E6. injection H as <-. cbn [x_has_tag]. apply String.eqb_neq.
  intros E. apply (A "table"); [cbn; tauto|symmetry; exact E].
Qed.
Lemma sect_other : wq "sectPr" <> wq "tbl".
Proof. discriminate. Qed.
Lemma apart_tables doc : sections_apart doc -> tables_plain (wq "tbl") (wq "sectPr") doc /\ sections_plain (wq "tbl") (wq "sectPr") doc.
Proof.
  intros H. split.
  - intros m Hm Ht x Hx. apply in_nodes in Hm. exact (proj1 (H m x Hm Hx) Ht).
  - intros s Hs Hss m Hm. apply in_nodes in Hs. apply in_nodes in Hm as [->|Hm]; [|exact (proj2 (H s m Hs Hm) Hss)].
    destruct s as [tag ? ? ? ?| |]; [|reflexivity..]. cbn [x_has_tag] in *. apply String.eqb_eq in Hss. apply String.eqb_neq. rewrite <- Hss. intros E. symmetry in E. exact (sect_other E).
Qed.
Lemma sect_same a b : secl (wq "sectPr") a = secl (wq "sectPr") b -> sect_after a = sect_after b.
Proof.
  assert (G : forall l, sect_after l = hd_error (secl (wq "sectPr") l)).
  { intros l. unfold sect_after, secl, secs. rewrite <- filter_flat. induction (flat_map tree_nodes l) as [|n m IH]; [reflexivity|]. cbn [find filter].
    destruct (x_has_tag n (wq "sectPr")); [reflexivity|exact IH]. }
  intros E. rewrite !G, E. reflexivity.
Qed.

(** Each table is read with the first section which comes after it in the source document, also when it is inside
    another table; it has the number of its rank in the source. *)
Theorem C80_word_sections_to_cals : forall kw ox doc used doc', styles_used (word "styles") (ox_styles ox) doc used -> sections_apart doc ->
  nested_ooxml2cals kw ox doc = Ok doc' ->
  exists o memory, cals_builder kw = Ok o /\ labelled (word "tbl") doc memory /\ distinct_labels (word "tbl") memory /\
    full (word "tbl")
      (fun n e => exists n1 before after m sect t, unlabelled n n1 /\ place [] [] memory before after m /\ same_node n m /\
         first_of (word "sectPr") after sect /\ ox_parse_table (with_sheet ox used) sect n1 = Ok t /\ generate_table_tree o t = Ok e) memory doc'.
Proof.
  intros kw ox doc used doc' Hs HA H. unfold nested_ooxml2cals in H. bind H as o Eo. rewrite (styles_used_with _ _ _ Hs) in H.
  apply apart_tables in HA as [HA1 HA2].
  apply (nested_sections (wq "tbl") (wq "sectPr") _
           (fun a k n e => fun H => proj1 (ooxml2cals_inner kw _ (sect_after a) n e H)) (fun a k n e => fun H => proj2 (ooxml2cals_inner kw _ (sect_after a) n e H))
           (fun a k n e => fun H => proj1 (cals_sect kw _ (sect_after a) n e H)) (fun a k n e => fun H => proj2 (cals_sect kw _ (sect_after a) n e H)) doc HA1 HA2) in H.
  exists o, (snd (mark_from (wq "tbl") 1 doc)). split; [reflexivity|]. split; [apply (mark_labelled (wq "tbl"))|]. split; [exact (marks_apart (wq "tbl") doc)|].
  refine (full_impl _ _ _ _ _ _ H). intros n e (a & i & n1 & B & A & m0 & H1 & H2 & H3 & H4 & _ & H6). unfold ooxml2cals in H2. rewrite Eo in H2. cbn [rbind] in H2. bind H2 as t Et.
  exists n1, B, A, m0, (sect_after a), t. split; [exact H1|]. split; [exact H3|]. split; [exact H4|]. split; [|auto]. apply sect_found. symmetry. apply sect_same, H6.
Qed.
Theorem C80_word_sections_to_formex : forall kw ox doc used doc', styles_used (word "styles") (ox_styles ox) doc used -> sections_apart doc ->
  nested_ooxml2formex kw ox doc = Ok doc' ->
  exists memory doc1, labelled (word "tbl") doc memory /\ distinct_labels (word "tbl") memory /\
    full (word "tbl")
      (fun n e => exists i n1 before after m sect t, unlabelled n n1 /\ place [] [] memory before after m /\ same_node n m /\
         nth_error (filter (word "tbl") (tree_nodes memory)) i = Some m /\ first_of (word "sectPr") after sect /\
         ox_parse_table (with_sheet ox used) sect n1 = Ok t /\ generate_tbl (formex_builder kw) (Z.of_nat (S i)) t = Ok e) memory doc1 /\
    finalize_tree (formex_cals_space kw) doc1 = Ok doc'.
Proof.
  intros kw ox doc used doc' Hs HA H. unfold nested_ooxml2formex in H. rewrite (styles_used_with _ _ _ Hs) in H. bind H as d E.
  apply apart_tables in HA as [HA1 HA2].
  apply (nested_sections (wq "tbl") (wq "sectPr") _
           (fun a k n e => fun H => proj1 (ooxml2formex_inner kw _ (sect_after a) k n e H)) (fun a k n e => fun H => proj2 (ooxml2formex_inner kw _ (sect_after a) k n e H))
           (fun a k n e => fun H => proj1 (formex_sect kw _ (sect_after a) k n e H)) (fun a k n e => fun H => proj2 (formex_sect kw _ (sect_after a) k n e H)) doc HA1 HA2) in E.
  exists (snd (mark_from (wq "tbl") 1 doc)), d. split; [apply (mark_labelled (wq "tbl"))|]. split; [exact (marks_apart (wq "tbl") doc)|].
  split; [|rewrite <- formex_builder_space; exact H].
  refine (full_impl _ _ _ _ _ _ E). intros n e (a & i & n1 & B & A & m0 & H1 & H2 & H3 & H4 & H5 & H6). unfold ooxml2formex in H2. bind H2 as t Et.
  exists i, n1, B, A, m0, (sect_after a), t. split; [exact H1|]. split; [exact H3|]. split; [exact H4|]. split; [exact H5|]. split; [|auto]. apply sect_found. symmetry. apply sect_same, H6.
Qed.
(** ** Example: two sections; the tables of the first one are inside each other *)
Definition word_sections : xnode :=
  T_Ooxml.w "document" [] [T_Ooxml.ex_sheet; T_Ooxml.w "body" []
    [word_small [word_small [T_Ooxml.text_p "y"]]; T_Ooxml.w "p" [] [T_Ooxml.w "pPr" [] [wide_section]]; word_small []; tall_section]].
Lemma apart_decided doc : forallb (fun n => forallb (fun m => negb (word "tbl" n && word "sectPr" m) && negb (word "sectPr" n && word "tbl" m)) (tree_nodes n)) (tree_nodes doc) = true ->
  sections_apart doc.
Proof.
  intros H n m Hn Hm. rewrite forallb_forall in H. apply in_nodes in Hn. specialize (H n Hn). rewrite forallb_forall in H. assert (Hm' : In m (tree_nodes n)) by (apply in_nodes; right; exact Hm).
  specialize (H m Hm'). apply andb_true_iff in H as [H1 H2]. apply negb_true_iff in H1, H2. split; intros E; rewrite E in *; assumption.
Qed.
Example C80_sections_ex : sections_apart word_sections /\ styles_used (word "styles") (ox_styles ox_pt) word_sections (Some T_Ooxml.ex_sheet) /\
  exists d1 d2, nested_ooxml2formex kw_conv ox_pt word_sections = Ok d1 /\ nested_ooxml2cals kw_conv ox_pt word_sections = Ok d2 /\
  map (fun n => x_get n "orient") (filter (has_name (cals_space kw_conv) "table") (tree_nodes d2)) = [Some "land"; Some "land"; Some "port"].
Proof.
  split; [apply apart_decided; vm_compute; reflexivity|]. split; [unfold styles_used; cbn [ox_styles ox_pt]; apply first_of_find; vm_compute; reflexivity|].
  do 2 eexists. split; [vm_compute; reflexivity|]. split; [vm_compute; reflexivity|]. vm_compute. reflexivity.
Qed.

(** A section inside a table, but in none of its cells, is lost when that table is converted: the tables of the
    cells before it are then read with a later section. *)
Definition word_inner_section : xnode :=
  T_Ooxml.w "document" [] [T_Ooxml.ex_sheet; T_Ooxml.w "body" []
    [T_Ooxml.w "tbl" [] [T_Ooxml.w "tblGrid" [] [T_Ooxml.w "gridCol" [("w", "400")] []]; T_Ooxml.w "tr" [] [T_Ooxml.w "tc" [] [T_Ooxml.w "tcPr" [] []; T_Ooxml.text_p "x"; word_small []]]; wide_section]; tall_section]].
Theorem C80_inner_section_refuted : exists kw ox doc used before after doc', styles_used (word "styles") (ox_styles ox) doc used /\
  place [] [] doc before after (word_small []) /\ first_of (word "sectPr") after (Some wide_section) /\ nested_ooxml2cals kw ox doc = Ok doc' /\
  (exists e, ooxml2cals kw (with_sheet ox used) (Some wide_section) (word_small []) = Ok e /\ x_get e "orient" = Some "land") /\
  map (fun n => x_get n "orient") (filter (has_name (cals_space kw) "table") (tree_nodes doc')) = [Some "port"; Some "port"].
Proof.
  destruct (node_place [1; 0; 1; 0; 2]%nat word_inner_section (word_small []) [] [] eq_refl) as (B & HB). rewrite app_nil_r in HB.
  exists kw_conv, ox_pt, word_inner_section, (Some T_Ooxml.ex_sheet), B. do 2 eexists. split; [unfold styles_used; cbn [ox_styles ox_pt]; apply first_of_find; vm_compute; reflexivity|].
  split; [exact HB|]. split; [apply sect_found; vm_compute; reflexivity|]. split; [vm_compute; reflexivity|].
  split; [eexists; split; vm_compute; reflexivity|]. vm_compute. reflexivity.
Qed.

Print Assumptions C80_word_sections_to_cals.
Print Assumptions C80_word_sections_to_formex.
Print Assumptions C80_inner_section_refuted.
