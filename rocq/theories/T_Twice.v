(** * Theorems about documents which are converted a second time (C82) *)
From Coq Require Import QArith.
From Verif Require Import Base M_Geometry M_Xml M_Cell M_Grid M_Table M_Str M_Builder M_Cals M_CalsParser M_Formex M_FormexParser M_FormexRead M_FormexFinal M_FormexFinish M_Ooxml M_Transform M_Convert M_ConvertDoc M_Nested.
From Verif Require Import S_Geometry S_Grid S_Table S_Builder S_Cals S_CalsParser S_Formex S_FormexFinal S_Transform S_FormexFinished S_Convert S_ConvertDoc S_Nested S_Twice.
From Verif Require Import P_Table P_Cals P_Formex P_FormexFinished P_Transform P_Source P_ConvertDoc P_ConvertFinish P_ConvertFormex P_NoneLeft P_Nested P_NestedKept P_FinishNames P_Twice P_TwiceDoc.
From Verif Require Import T_CalsParser T_Convert T_FormexRead T_ConvertBack T_ConvertDoc T_ConvertFormex T_Nested.
From Verif Require T_Ooxml T_ThereBack.
Open Scope string_scope.
Open Scope list_scope.
Open Scope Z_scope.

Lemma within_nodes d m : In m (tree_nodes d) -> within d m.
Proof. intros H. apply in_nodes in H as [->|H]; [left; reflexivity|right; exact H]. Qed.
Lemma nothing_found is_table convert d : find_all is_table d = [] -> doc_tables is_table convert d = Ok d.
Proof. intros H. unfold doc_tables. rewrite H. reflexivity. Qed.

(** ** To CALS: nothing is changed, with any options which the builder accepts *)
Theorem C82_word_to_cals : forall kw ox kw' ox' o' doc doc', word "tbl" doc = false -> not_nested (word "tbl") doc ->
  convert_ooxml2cals kw ox doc = Ok doc' -> cals_builder kw' = Ok o' -> convert_ooxml2cals kw' ox' doc' = Ok doc'.
Proof.
  intros kw ox kw' ox' o' doc doc' Hr Hn H Ho. unfold convert_ooxml2cals. rewrite Ho. cbn [rbind]. apply nothing_found, no_tables_found.
  intros m Hm. exact (C79_no_word_table kw ox doc doc' m Hr Hn H (within_nodes _ _ Hm)).
Qed.
Theorem C82_formex_to_cals : forall kw kw' o' doc doc', formex kw "CORPUS" doc = false -> not_nested (formex kw "CORPUS") doc ->
  convert_formex2cals kw doc = Ok doc' -> cals_builder kw' = Ok o' -> formex_space kw' = formex_space kw -> convert_formex2cals kw' doc' = Ok doc'.
Proof.
  intros kw kw' o' doc doc' Hr Hn H Ho Hs. unfold convert_formex2cals. rewrite Ho. cbn [rbind]. unfold formex_tables. rewrite no_tables_found; [reflexivity|].
  intros m Hm. pose proof (C79_no_corpus kw doc doc' m Hr Hn H (within_nodes _ _ Hm)) as K. unfold formex in K. rewrite <- Hs, <- formex_parser_space in K. exact K.
Qed.
(** with tables inside tables *)
Theorem C82_nested_word_to_cals : forall kw ox kw' ox' o' doc doc', nested_ooxml2cals kw ox doc = Ok doc' ->
  cals_builder kw' = Ok o' -> nested_ooxml2cals kw' ox' doc' = Ok doc'.
Proof.
  intros kw ox kw' ox' o' doc doc' H Ho. assert (K : forall m, within doc' m -> word "tbl" m = false) by (intros m Hm; exact (C80_no_word_table_cals kw ox doc doc' m H Hm)).
  assert (Hr : word "tbl" doc' = false) by (apply K; left; reflexivity).
  assert (Hn : not_nested (word "tbl") doc') by (intros n m [H1 H2] _; rewrite (K n (or_intror H1)) in H2; discriminate H2).
  rewrite (proj2 (C80_word_flat kw' ox' doc' Hr Hn)). unfold convert_ooxml2cals. rewrite Ho. cbn [rbind]. apply nothing_found, no_tables_found.
  intros m Hm. apply K, within_nodes, Hm.
Qed.

(** ** To Formex: the second conversion takes the types of the rows away and changes nothing else; the third one
    changes nothing.  The rows have types only if the CALS attributes are written. *)
Theorem C82_cals_to_formex : forall kw doc doc1, let table := has_name (cals_space kw) "table" in
  table doc = false -> not_nested table doc -> lacks ["TBL"; "ROW"; "CORPUS"] doc -> convert_cals2formex kw doc = Ok doc1 ->
  exists doc2, rows_untyped doc1 doc2 /\ convert_cals2formex kw doc1 = Ok doc2 /\ convert_cals2formex kw doc2 = Ok doc2 /\
    (kw_use_cals kw = false -> doc2 = doc1).
Proof.
  intros kw doc doc1 table Hr Hn HL H. exists (untypes doc1). split; [apply untypes_spec|].
  set (is_t := cals_is_table (cals_parser kw)). assert (E : forall n, is_t n = table n) by apply cals_table_name.
  assert (HX : forall n n', x_tag n = x_tag n' -> is_t n = is_t n').
  { intros n n' Ht. unfold is_t, cals_is_table, x_has_tag. destruct n, n'; cbn in Ht; try discriminate Ht; try reflexivity. injection Ht as ->. reflexivity. }
  assert (F1 : find_all is_t doc1 = []).
  { apply no_tables_found. intros m Hm. rewrite E. exact (C79_no_cals_table kw doc doc1 m Hr Hn H (within_nodes _ _ Hm)). }
  assert (HF : flat is_t doc).
  { split; [rewrite E; congruence|]. intros n m [H1 H2] H3. rewrite E in *. apply (Hn n m); [split; assumption|exact H3]. }
  unfold convert_cals2formex in *. fold is_t in H |- *. bind H as d0 E0. rewrite formex_builder_space in *.
  apply (doc_converted is_t) in E0; [|rewrite E; exact Hr|exact (proj2 HF)].
  assert (G : finalize_tree (formex_cals_space kw) doc1 = Ok (untypes doc1) /\ finalize_tree (formex_cals_space kw) (untypes doc1) = Ok (untypes doc1) /\ (kw_use_cals kw = false -> untypes doc1 = doc1)).
  { refine (again is_t (kw_use_cals kw) (formex_cals_space kw) (by_number is_t (fun _ k n => cals2formex kw k n)) _ _ _ doc d0 doc1 HF HL E0 H).
    - intros b a n e (k & _ & K). unfold cals2formex in K. bind K as t Et. exact (generated_tag _ _ _ _ K).
    - intros b a n e L (k & Hk & K). apply counted_numb in Hk. unfold cals2formex in K. bind K as t Et. destruct (C70_cals _ _ _ Et) as (R & X & _).
      rewrite <- Hk. replace k with (k + 1 - 1) by lia. exact (generated_shaped _ _ _ _ R X (cals_clean _ _ _ L Et) K).
    - intros b a n e L (k & Hk & K). unfold cals2formex in K. bind K as t Et. destruct (C70_cals _ _ _ Et) as (R & X & _).
      rewrite <- formex_builder_space. exact (generated_P0 (formex_builder kw) _ _ _ R X (cals_clean _ _ _ L Et) K). }
  destruct G as (G1 & G2 & G3). rewrite !nothing_found; [|apply untypes_found; assumption|exact F1]. cbn [rbind]. auto.
Qed.
Theorem C82_word_to_formex : forall kw ox ox1 ox2 doc doc1,
  word "tbl" doc = false -> not_nested (word "tbl") doc -> lacks ["TBL"; "ROW"; "CORPUS"] doc -> convert_ooxml2formex kw ox doc = Ok doc1 ->
  exists doc2, rows_untyped doc1 doc2 /\ convert_ooxml2formex kw ox1 doc1 = Ok doc2 /\ convert_ooxml2formex kw ox2 doc2 = Ok doc2 /\
    (kw_use_cals kw = false -> doc2 = doc1).
Proof.
  intros kw ox ox1 ox2 doc doc1 Hr Hn HL H. exists (untypes doc1). split; [apply untypes_spec|].
  assert (HX : forall n n', x_tag n = x_tag n' -> is_word_tbl n = is_word_tbl n').
  { intros n n' Ht. unfold is_word_tbl, x_has_tag. destruct n, n'; cbn in Ht; try discriminate Ht; try reflexivity. injection Ht as ->. reflexivity. }
  assert (F1 : find_all is_word_tbl doc1 = []).
  { apply no_tables_found. intros m Hm. exact (C79_no_word_table_formex kw ox doc doc1 m Hr Hn H (within_nodes _ _ Hm)). }
  assert (HF : flat is_word_tbl doc) by (split; [change (is_word_tbl doc) with (word "tbl" doc); congruence|exact Hn]).
  unfold convert_ooxml2formex in *. bind H as d0 E0. rewrite formex_builder_space in *.
  apply (doc_converted is_word_tbl) in E0; [|exact Hr|exact (proj2 HF)].
  assert (G : finalize_tree (formex_cals_space kw) doc1 = Ok (untypes doc1) /\ finalize_tree (formex_cals_space kw) (untypes doc1) = Ok (untypes doc1) /\ (kw_use_cals kw = false -> untypes doc1 = doc1)).
  { refine (again is_word_tbl (kw_use_cals kw) (formex_cals_space kw) (by_number is_word_tbl (fun after k n => ooxml2formex kw (with_styles ox doc) (sect_after after) k n)) _ _ _ doc d0 doc1 HF HL E0 H).
    - intros b a n e (k & _ & K). unfold ooxml2formex in K. bind K as t Et. exact (generated_tag _ _ _ _ K).
    - intros b a n e L (k & Hk & K). apply counted_numb in Hk. unfold ooxml2formex in K. bind K as t Et. destruct (C70_word _ _ _ _ Et) as (R & X & _).
      rewrite <- Hk. replace k with (k + 1 - 1) by lia. exact (generated_shaped _ _ _ _ R X (word_clean _ _ _ _ L Et) K).
    - intros b a n e L (k & Hk & K). unfold ooxml2formex in K. bind K as t Et. destruct (C70_word _ _ _ _ Et) as (R & X & _).
      rewrite <- formex_builder_space. exact (generated_P0 (formex_builder kw) _ _ _ R X (word_clean _ _ _ _ L Et) K). }
  destruct G as (G1 & G2 & G3). rewrite !nothing_found; [|apply untypes_found; assumption|exact F1]. cbn [rbind]. auto.
Qed.

(** ** Examples *)
Definition kw_bare : kwargs := MkKwargs None None None false [] false false None false (fun _ => "0").
Definition kinds (d : xnode) : list (option string) := map (fun n => x_get n "TYPE") (filter (fun n => x_has_tag n "ROW") (tree_nodes d)).
Example C82_cals_ex : exists d1 d2 d3, let doc := T_ThereBack.doc_trip in
  has_name (cals_space kw_conv) "table" doc = false /\ not_nested (has_name (cals_space kw_conv) "table") doc /\ lacks ["TBL"; "ROW"; "CORPUS"] doc /\
  convert_cals2formex kw_conv doc = Ok d1 /\ convert_cals2formex kw_conv d1 = Ok d2 /\ kinds d1 = [Some "HEADER"; Some "TOTAL"; None; None; None; None] /\ kinds d2 = [None; None; None; None; None; None] /\
  kw_use_cals kw_bare = false /\ convert_cals2formex kw_bare doc = Ok d3 /\ d3 <> doc /\ convert_cals2formex kw_bare d3 = Ok d3.
Proof.
  do 3 eexists. cbv zeta. split; [reflexivity|]. split; [apply apart_not_nested; vm_compute; reflexivity|]. split; [apply lacksb_lacks; vm_compute; reflexivity|].
  split; [vm_compute; reflexivity|]. split; [vm_compute; reflexivity|]. split; [vm_compute; reflexivity|]. split; [vm_compute; reflexivity|]. split; [reflexivity|].
  split; [vm_compute; reflexivity|]. split; [intros E; vm_compute in E; discriminate E|]. vm_compute. reflexivity.
Qed.
Example C82_word_ex : exists d1 d2, word "tbl" word_doc = false /\ not_nested (word "tbl") word_doc /\ lacks ["TBL"; "ROW"; "CORPUS"] word_doc /\
  convert_ooxml2formex kw_conv ox_pt word_doc = Ok d1 /\ convert_ooxml2cals kw_conv ox_none word_doc = Ok d2 /\ d1 <> word_doc /\ d2 <> word_doc.
Proof.
  do 2 eexists. split; [reflexivity|]. split; [apply apart_not_nested; vm_compute; reflexivity|]. split; [apply lacksb_lacks; vm_compute; reflexivity|].
  split; [vm_compute; reflexivity|]. split; [vm_compute; reflexivity|]. split; intros E; vm_compute in E; discriminate E.
Qed.
Example C82_formex_ex : exists d, formex kw_conv "CORPUS" formex_doc = false /\ not_nested (formex kw_conv "CORPUS") formex_doc /\ convert_formex2cals kw_conv formex_doc = Ok d /\ d <> formex_doc.
Proof.
  eexists. split; [reflexivity|]. split; [apply apart_not_nested; vm_compute; reflexivity|]. split; [vm_compute; reflexivity|]. intros E; vm_compute in E; discriminate E.
Qed.
Example C82_nested_ex : exists d, nested_ooxml2cals kw_conv ox_pt word_nested = Ok d /\ d <> word_nested.
Proof. eexists. split; [vm_compute; reflexivity|]. intros E; vm_compute in E; discriminate E. Qed.

(** The second conversion to Formex is not always without effect: the types of the rows are taken away. *)
Theorem C82_types_refuted : exists kw doc doc1 doc2, let table := has_name (cals_space kw) "table" in
  table doc = false /\ not_nested table doc /\ lacks ["TBL"; "ROW"; "CORPUS"] doc /\ convert_cals2formex kw doc = Ok doc1 /\ convert_cals2formex kw doc1 = Ok doc2 /\
  (exists n, within doc1 n /\ x_tag n = Some "ROW" /\ x_get n "TYPE" = Some "HEADER") /\ (forall n, within doc2 n -> x_tag n = Some "ROW" -> x_get n "TYPE" = None).
Proof.
  pose (again_ := fun d => match convert_cals2formex kw_conv d with Ok d' => d' | Err _ => d end).
  exists kw_conv, T_ThereBack.doc_trip, (again_ T_ThereBack.doc_trip), (again_ (again_ T_ThereBack.doc_trip)). cbv zeta.
  split; [reflexivity|]. split; [apply apart_not_nested; vm_compute; reflexivity|]. split; [apply lacksb_lacks; vm_compute; reflexivity|].
  split; [vm_compute; reflexivity|]. split; [vm_compute; reflexivity|].
  assert (C1 : existsb (fun n => x_has_tag n "ROW" && match x_get n "TYPE" with Some s => String.eqb s "HEADER" | None => false end)%bool (tree_nodes (again_ T_ThereBack.doc_trip)) = true) by (vm_compute; reflexivity).
  assert (C2 : forallb (fun n => negb (x_has_tag n "ROW") || match x_get n "TYPE" with None => true | Some _ => false end)%bool (tree_nodes (again_ (again_ T_ThereBack.doc_trip))) = true) by (vm_compute; reflexivity).
  revert C1 C2. generalize (again_ (again_ T_ThereBack.doc_trip)); intros d2; generalize (again_ T_ThereBack.doc_trip); clear again_; intros d1 C1 C2. split.
  - apply existsb_exists in C1 as (n & Hn & E). apply andb_prop in E as [E1 E2]. exists n. split; [apply within_nodes, Hn|].
    destruct n as [tag attrs text ch tail| |]; try discriminate E1. apply String.eqb_eq in E1 as <-. split; [reflexivity|].
    destruct (x_get _ "TYPE") as [s|]; [|discriminate E2]. apply String.eqb_eq in E2 as ->. reflexivity.
  - intros n Hn Ht. assert (K : In n (tree_nodes d2)) by (apply in_nodes; destruct Hn as [->|Hn]; auto). rewrite forallb_forall in C2. specialize (C2 n K).
    destruct n as [tag attrs text ch tail| |]; try discriminate Ht. injection Ht as ->. cbn [x_has_tag] in C2. rewrite String.eqb_refl in C2. cbn [negb orb] in C2.
    destruct (x_get _ "TYPE"); [discriminate C2|reflexivity].
Qed.

Print Assumptions C82_word_to_cals.
Print Assumptions C82_formex_to_cals.
Print Assumptions C82_nested_word_to_cals.
Print Assumptions C82_cals_to_formex.
Print Assumptions C82_word_to_formex.
Print Assumptions C82_types_refuted.
