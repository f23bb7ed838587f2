(** * Theorems about the error of a conversion which fails (C85) *)
From Coq Require Import QArith.
From Verif Require Import Base M_Geometry M_Xml M_Cell M_Grid M_Table M_Str M_Builder M_Cals M_CalsParser M_Formex M_FormexParser M_FormexRead M_FormexFinal M_FormexFinish M_Ooxml M_Transform M_Convert M_ConvertDoc M_Nested M_NestedFormex.
From Verif Require Import S_Geometry S_Grid S_Table S_Builder S_Cals S_Int S_CalsParser S_Formex S_FormexFinal S_Transform S_FormexFinished S_Convert S_ConvertDoc S_Nested S_NestedFormex S_FirstError.
From Verif Require Import P_Table P_Cals P_Formex P_FormexFinished P_Transform P_Source P_ConvertDoc P_ConvertFinish P_ConvertFormex P_NoneLeft P_Nested P_NestedKept P_NestedFormex P_NestedFirst P_FormexFirst.
From Verif Require Import T_CalsParser T_Convert T_FormexRead T_ConvertBack T_Options T_ConvertDoc T_ConvertFormex T_Nested T_NestedFormex.
From Verif Require T_Ooxml.
Open Scope string_scope.
Open Scope list_scope.
Open Scope Z_scope.

(** The conversion of one table, which fails or succeeds; [i] tables come before it *)
Section One.
  Variable parse : xnode -> result table.
  Variable build : table -> result xnode.
  Definition one_fails (n : xnode) (x : exn) : Prop := parse n = Err x \/ exists t, parse n = Ok t /\ build t = Err x.
  Definition one_works (n : xnode) : Prop := exists t e, parse n = Ok t /\ build t = Ok e.
  Lemma one_err n x : (t <-? parse n ;; build t) = Err x -> one_fails n x.
  Proof. intros H. unfold one_fails. destruct (parse n) as [t|y]; cbn [rbind] in H; [right; eauto|left; injection H as ->; reflexivity]. Qed.
  Lemma one_ok n e : (t <-? parse n ;; build t) = Ok e -> one_works n.
  Proof. intros H. bind H as t E. exists t, e. auto. Qed.
End One.

Lemma first_node name n : x_has_tag n name = true -> nth_error (filter (fun n => x_has_tag n name) (tree_nodes n)) 0 = Some n.
Proof. intros H. destruct (nodes_cons n) as (l & ->). cbn [filter]. rewrite H. reflexivity. Qed.
Lemma nested_first_error name conv (fails : nat -> xnode -> exn -> Prop) (works : nat -> xnode -> Prop) doc x :
  (forall after k n e, conv after k n = Ok e -> x_has_tag e name = false) ->
  (forall after k n e, conv after k n = Ok e -> forall m, inside e m -> x_has_tag m name = true -> exists m0, inside n m0 /\ same_node m m0) ->
  (forall after i n x, conv after (Z.of_nat (S i)) n = Err x -> fails i n x) -> (forall after i n e, conv after (Z.of_nat (S i)) n = Ok e -> works i n) ->
  nested_tables name conv doc = Err x ->
  first_error (fun n => x_has_tag n name) fails works (snd (mark_from name 1 doc)) x \/ root_error (fun n => x_has_tag n name) works (snd (mark_from name 1 doc)) x.
Proof.
  intros H1 H2 HF HW H. apply (nested_first name conv H1 H2 doc x) in H as (i & [H|(H & Hx & after & n & n1 & e & K1 & K2 & K3)] & HO); [left|right].
  2: { unfold P_Nested.srcs in K1. rewrite (first_node _ _ H) in K1. injection K1 as <-. split; [exact H|]. split; [exact Hx|]. exists n1. split; [exact K2|exact (HW _ _ _ _ K3)]. }
  destruct H as (after & n & n1 & K1 & K2 & K3). exists i, n, n1. split; [exact K1|]. split; [exact K2|]. split; [exact (HF _ _ _ _ K3)|].
  intros i' Hi'. destruct (HO i' Hi') as (after' & m & m1 & e & L1 & L2 & L3). exists m, m1. split; [exact L1|]. split; [exact L2|exact (HW _ _ _ _ L3)].
Qed.

(** ** C85: the error of a conversion is the one of the first table, in the order of the document, which cannot be converted. *)

Theorem C85_cals_to_formex : forall kw doc x, nested_cals2formex kw doc = Err x ->
  exists memory, labelled (cals_table kw) doc memory /\
    (first_error (cals_table kw) (fun i => one_fails (parse_table (cals_parser kw)) (generate_tbl (formex_builder kw) (Z.of_nat (S i))))
       (fun i => one_works (parse_table (cals_parser kw)) (generate_tbl (formex_builder kw) (Z.of_nat (S i)))) memory x \/
     root_error (cals_table kw) (fun i => one_works (parse_table (cals_parser kw)) (generate_tbl (formex_builder kw) (Z.of_nat (S i)))) memory x \/
     (exists doc1, full (cals_table kw) (fun n e => exists k n1 t, unlabelled n n1 /\ parse_table (cals_parser kw) n1 = Ok t /\ generate_tbl (formex_builder kw) k t = Ok e) memory doc1 /\
        finalize_tree (formex_cals_space kw) doc1 = Err x)).
Proof.
  intros kw doc x H. unfold nested_cals2formex in H. unfold cals_table, has_name. change (expanded (cals_space kw) "table") with (qname (cals_space kw) "table"). rewrite <- cals_parser_space.
  exists (snd (mark_from (pcals (cals_parser kw) "table") 1 doc)). split; [apply (mark_labelled (pcals (cals_parser kw) "table"))|].
  destruct (nested_tables _ _ doc) as [d|y] eqn:E; cbn [rbind] in H.
  - right. right. apply (nested_full _ _ (fun _ k n e => fun H => proj1 (cals2formex_inner kw k n e H)) (fun _ k n e => fun H => proj2 (cals2formex_inner kw k n e H))) in E.
    exists d. split; [|rewrite <- formex_builder_space; exact H].
    refine (full_impl _ _ _ _ _ _ E). intros n e (_ & k & n1 & H1 & H2). unfold cals2formex in H2. bind H2 as t Et. exists k, n1, t. auto.
  - injection H as ->. apply (nested_first_error _ _ (fun i => one_fails (parse_table (cals_parser kw)) (generate_tbl (formex_builder kw) (Z.of_nat (S i))))
      (fun i => one_works (parse_table (cals_parser kw)) (generate_tbl (formex_builder kw) (Z.of_nat (S i))))) in E as [E|E]; [left; exact E|right; left; exact E|..].
    + exact (fun _ k n e => fun H => proj1 (cals2formex_inner kw k n e H)).
    + exact (fun _ k n e => fun H => proj2 (cals2formex_inner kw k n e H)).
    + intros _ i n y H. apply one_err, H.
    + intros _ i n e H. eapply one_ok, H.
Qed.
Theorem C85_word_to_formex : forall kw ox doc used x, styles_used (word "styles") (ox_styles ox) doc used -> nested_ooxml2formex kw ox doc = Err x ->
  exists memory, labelled (word "tbl") doc memory /\
    (first_error (word "tbl") (fun i n x => exists sect, one_fails (ox_parse_table (with_sheet ox used) sect) (generate_tbl (formex_builder kw) (Z.of_nat (S i))) n x)
       (fun i n => exists sect, one_works (ox_parse_table (with_sheet ox used) sect) (generate_tbl (formex_builder kw) (Z.of_nat (S i))) n) memory x \/
     root_error (word "tbl") (fun i n => exists sect, one_works (ox_parse_table (with_sheet ox used) sect) (generate_tbl (formex_builder kw) (Z.of_nat (S i))) n) memory x \/
     (exists doc1, full (word "tbl") (fun n e => exists k n1 sect t, unlabelled n n1 /\ ox_parse_table (with_sheet ox used) sect n1 = Ok t /\ generate_tbl (formex_builder kw) k t = Ok e) memory doc1 /\
        finalize_tree (formex_cals_space kw) doc1 = Err x)).
Proof.
  intros kw ox doc used x Hs H. unfold nested_ooxml2formex in H. rewrite (styles_used_with _ _ _ Hs) in H.
  exists (snd (mark_from (wq "tbl") 1 doc)). split; [apply (mark_labelled (wq "tbl"))|]. destruct (nested_tables _ _ doc) as [d|y] eqn:E; cbn [rbind] in H.
  - right. right. apply (nested_full _ _ (fun a k n e => fun H => proj1 (ooxml2formex_inner kw _ (sect_after a) k n e H)) (fun a k n e => fun H => proj2 (ooxml2formex_inner kw _ (sect_after a) k n e H))) in E.
    exists d. split; [|rewrite <- formex_builder_space; exact H].
    refine (full_impl _ _ _ _ _ _ E). intros n e (a & k & n1 & H1 & H2). unfold ooxml2formex in H2. bind H2 as t Et. exists k, n1, (sect_after a), t. auto.
  - injection H as ->. apply (nested_first_error _ _ (fun i n x => exists sect, one_fails (ox_parse_table (with_sheet ox used) sect) (generate_tbl (formex_builder kw) (Z.of_nat (S i))) n x)
      (fun i n => exists sect, one_works (ox_parse_table (with_sheet ox used) sect) (generate_tbl (formex_builder kw) (Z.of_nat (S i))) n)) in E as [E|E]; [left; exact E|right; left; exact E|..].
    + exact (fun a k n e => fun H => proj1 (ooxml2formex_inner kw _ (sect_after a) k n e H)).
    + exact (fun a k n e => fun H => proj2 (ooxml2formex_inner kw _ (sect_after a) k n e H)).
    + intros a i n y H. exists (sect_after a). apply one_err, H.
    + intros a i n e H. exists (sect_after a). eapply one_ok, H.
Qed.
Theorem C85_word_to_cals : forall kw ox doc used x, styles_used (word "styles") (ox_styles ox) doc used -> nested_ooxml2cals kw ox doc = Err x ->
  cals_builder kw = Err x \/
  exists o memory, cals_builder kw = Ok o /\ labelled (word "tbl") doc memory /\
    (first_error (word "tbl") (fun _ n x => exists sect, one_fails (ox_parse_table (with_sheet ox used) sect) (generate_table_tree o) n x)
       (fun _ n => exists sect, one_works (ox_parse_table (with_sheet ox used) sect) (generate_table_tree o) n) memory x \/
     root_error (word "tbl") (fun _ n => exists sect, one_works (ox_parse_table (with_sheet ox used) sect) (generate_table_tree o) n) memory x).
Proof.
  intros kw ox doc used x Hs H. unfold nested_ooxml2cals in H. rewrite (styles_used_with _ _ _ Hs) in H. destruct (cals_builder kw) as [o|y] eqn:Eo; cbn [rbind] in H; [right|left; injection H as ->; reflexivity].
  exists o, (snd (mark_from (wq "tbl") 1 doc)). split; [reflexivity|]. split; [apply (mark_labelled (wq "tbl"))|].
  apply (nested_first_error _ _ (fun _ n x => exists sect, one_fails (ox_parse_table (with_sheet ox used) sect) (generate_table_tree o) n x)
    (fun _ n => exists sect, one_works (ox_parse_table (with_sheet ox used) sect) (generate_table_tree o) n)) in H; [exact H|..].
  + exact (fun a k n e => fun H => proj1 (ooxml2cals_inner kw _ (sect_after a) n e H)).
  + exact (fun a k n e => fun H => proj2 (ooxml2cals_inner kw _ (sect_after a) n e H)).
  + intros a i n y K. unfold ooxml2cals in K. rewrite Eo in K. exists (sect_after a). apply one_err, K.
  + intros a i n e K. unfold ooxml2cals in K. rewrite Eo in K. exists (sect_after a). eapply one_ok, K.
Qed.
Theorem C85_formex_to_cals : forall kw doc x, wrapped kw doc -> nested_formex2cals kw doc = Err x ->
  cals_builder kw = Err x \/
  exists o memory, cals_builder kw = Ok o /\ labelled (formex kw "CORPUS") doc memory /\
    (first_error (formex kw "CORPUS") (fun _ n x => exists parent blks before, one_fails (parse_formex (formex_parser kw) parent blks before) (generate_table_tree o) n x)
       (fun _ n => exists parent blks before, one_works (parse_formex (formex_parser kw) parent blks before) (generate_table_tree o) n) memory x \/
     root_error (formex kw "CORPUS") (fun _ n => exists parent blks before, one_works (parse_formex (formex_parser kw) parent blks before) (generate_table_tree o) n) memory x).
Proof.
  intros kw doc x HW H. unfold nested_formex2cals in H. destruct (cals_builder kw) as [o|y] eqn:Ho; cbn [rbind] in H; [right|left; injection H as ->; reflexivity].
  exists o, (snd (mark_from (fmx (formex_parser kw) "CORPUS") 1 doc)). split; [reflexivity|]. split.
  { unfold formex, has_name. change (expanded (formex_space kw) "CORPUS") with (qname (formex_space kw) "CORPUS"). rewrite <- formex_parser_space. apply (mark_labelled (fmx (formex_parser kw) "CORPUS")). }
  apply fnested_first in H as (i & [H|(H & Hx & P & b & bef & n & n1 & e & K1 & K2 & K3)] & HO).
  - left. destruct H as (P & b & bef & n & n1 & K1 & K2 & K3). unfold formex2cals in K3. rewrite Ho in K3. cbn [rbind] in K3.
    exists i, n, n1. rewrite (filter_ext _ _ (fun n => eq_sym (formex_name kw "CORPUS" n))). split; [exact K1|]. split; [exact K2|]. split; [exists P, b, bef; apply one_err, K3|].
    intros i' Hi'. destruct (HO i' Hi') as (P' & b' & bef' & m & m1 & e & L1 & L2 & L3). unfold formex2cals in L3. rewrite Ho in L3. cbn [rbind] in L3.
    exists m, m1. split; [exact L1|]. split; [exact L2|]. exists P', b', bef'. eapply one_ok, L3.
  - right. unfold P_Nested.srcs in K1. rewrite (first_node _ _ H) in K1. injection K1 as <-. rewrite formex_name in H. split; [exact H|]. split; [exact Hx|]. exists n1. split; [exact K2|].
    unfold formex2cals in K3. rewrite Ho in K3. cbn [rbind] in K3. exists P, b, bef. eapply one_ok, K3.
  - intros P b bef n e j m0 K1 K2 K3 K4. exact (formex2cals_ok kw doc HW j m0 K3 P b bef n e K1 K2 K4).
  - intros P P' b bef n _ K. unfold formex2cals. rewrite (parse_parent _ (Some P) (Some P')) by exact K. reflexivity.
Qed.

(** ** Examples: a table in a table and a third one after them; the inner one raises an error, and the third one, which is
    not reached, another one *)
Definition cals_bad (attrs : list (string * string)) : xnode :=
  el "table" [] [el "tgroup" [] [el "tbody" [] [el "row" [] [say "entry" attrs "y"]]]].
Definition cals_bad_doc (l : list xnode) : xnode := el "doc" [] [small l; cals_bad [("namest", "a"); ("nameend", "b")]].
Example C85_cals_ex : nested_cals2formex kw_conv (cals_bad_doc [cals_bad [("morerows", "x")]]) = Err EValueError /\
  List.length (filter (cals_table kw_conv) (tree_nodes (cals_bad_doc [cals_bad [("morerows", "x")]]))) = 3%nat /\
  nested_cals2formex kw_conv (cals_bad_doc []) = Err EIndexError /\ nested_cals2formex kw_conv (cals_bad []) = Err EAttributeError.
Proof. vm_compute. repeat (split; [reflexivity|]). reflexivity. Qed.

Definition word_control : xnode :=
  T_Ooxml.w "tbl" [] [T_Ooxml.grid 1; T_Ooxml.tr [] [T_Ooxml.w "tc" [] [T_Ooxml.w "sdt" [] [T_Ooxml.w "sdtContent" [] [T_Ooxml.text_p "a"]]]]].
Definition word_flag : xnode := T_Ooxml.w "tbl" [] [T_Ooxml.grid 1; T_Ooxml.tr [T_Ooxml.header [("val", "on")]] [T_Ooxml.tc [] "a"]].
Definition word_bad_doc (l : list xnode) : xnode :=
  T_Ooxml.w "document" [] [T_Ooxml.ex_sheet; T_Ooxml.w "body" [] [word_small l; word_flag; T_Ooxml.text_p "end"; tall_section]].
Example C85_word_ex : styles_used (word "styles") (ox_styles ox_pt) (word_bad_doc [word_control]) (Some T_Ooxml.ex_sheet) /\
  nested_ooxml2formex kw_conv ox_pt (word_bad_doc [word_control]) = Err EIndexError /\ nested_ooxml2cals kw_conv ox_pt (word_bad_doc [word_control]) = Err EIndexError /\
  nested_ooxml2formex kw_conv ox_pt (word_bad_doc []) = Err EKeyError /\ nested_ooxml2cals kw_conv ox_pt (word_bad_doc []) = Err EKeyError.
Proof. split; [unfold styles_used; cbn [ox_styles ox_pt]; apply first_of_find; vm_compute; reflexivity|]. vm_compute. repeat (split; [reflexivity|]). reflexivity. Qed.

Definition formex_bad_doc (l : list xnode) : xnode :=
  el "DOC" [] [el "TBL" [] [formex_small l]; el "TBL" [] [el "CORPUS" [] [el "MARGIN" [] []]]].
Definition formex_bad : xnode := el "TBL" [] [el "CORPUS" [] [el "ROW" [] [say "CELL" [("COL", "1"); ("COLSPAN", "x")] "y"]]].
Example C85_formex_ex : wrapped kw_conv (formex_bad_doc [formex_bad]) /\ nested_formex2cals kw_conv (formex_bad_doc [formex_bad]) = Err EValueError /\
  nested_formex2cals kw_conv (formex_bad_doc []) = Err ENotImplementedError /\ List.length (filter (formex kw_conv "CORPUS") (tree_nodes (formex_bad_doc [formex_bad]))) = 3%nat.
Proof. split; [apply wrappedb_wrapped; vm_compute; reflexivity|]. vm_compute. repeat (split; [reflexivity|]). reflexivity. Qed.

Print Assumptions C85_cals_to_formex.
Print Assumptions C85_word_to_formex.
Print Assumptions C85_word_to_cals.
Print Assumptions C85_formex_to_cals.
