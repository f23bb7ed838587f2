(** * Proofs: the conversion of files *)
From Verif Require Import Base M_Xml M_Geometry M_Cell M_Grid M_Table M_Str M_Cals M_CalsParser M_Formex M_FormexParser M_FormexRead M_FormexFinal M_FormexFinish M_Ooxml M_Transform M_Convert M_ConvertDoc M_Nested M_NestedFormex M_Files.
From Verif Require Import S_Transform S_Nested S_Files P_Cals P_Transform P_ConvertDoc P_Nested P_NestedKept P_NoSeq T_Nested.
Open Scope string_scope.
Open Scope list_scope.
Open Scope Z_scope.

(** ** The counter *)
Section Counter.
  Variable name : string.
  Variable parse : list xnode -> xnode -> result table.
  Variable build : Z -> table -> result xnode.
  Definition from (d : Z) (after : list xnode) (k : Z) (n : xnode) : result xnode := t <-? parse after n ;; build (d + k) t.

  Lemma counted_turn d src doc k : snd (counted_one name parse build src doc k (d + Z.of_nat k - 1)) = nested_one name (from d) src doc k /\
    (forall doc', snd (counted_one name parse build src doc k (d + Z.of_nat k - 1)) = Ok doc' -> fst (counted_one name parse build src doc k (d + Z.of_nat k - 1)) = d + Z.of_nat k).
  Proof.
    unfold counted_one, nested_one, counted_table, from. replace (d + Z.of_nat k - 1 + 1) with (d + Z.of_nat k) by lia. destruct (find_all _ _) as [|p ps].
    - destruct (find _ _) as [x|]; [|split; [reflexivity|discriminate]]. destruct (parse _ _) as [t|y]; cbn [rbind fst snd]; split; try reflexivity. discriminate.
    - destruct (node_at doc p) as [x|]; [|split; [reflexivity|discriminate]]. destruct (parse _ _) as [t|y]; cbn [rbind fst snd]; split; try reflexivity. discriminate.
  Qed.
  Lemma counted_turns d src j : forall k doc, snd (counted_all name parse build src doc (seq k j) (d + Z.of_nat k - 1)) = nested_all name (from d) src doc (seq k j).
  Proof.
    induction j as [|j IH]; intros k doc; [reflexivity|]. cbn [seq counted_all nested_all]. destruct (counted_turn d src doc k) as [E1 E2].
    destruct (counted_one name parse build src doc k (d + Z.of_nat k - 1)) as [n r]. cbn [fst snd] in *. rewrite <- E1. destruct r as [doc'|x]; cbn [rbind]; [|reflexivity].
    rewrite (E2 doc' eq_refl). rewrite <- IH. do 2 f_equal. lia.
  Qed.
  Lemma counted_nested d doc : snd (counted_tables name parse build doc d) = nested_tables name (from d) doc.
  Proof. unfold counted_tables, nested_tables. rewrite <- counted_turns. do 2 f_equal. lia. Qed.
End Counter.

Lemma from_zero name parse build doc : nested_tables name (from parse build 0) doc = nested_tables name (fun after k n => t <-? parse after n ;; build k t) doc.
Proof. reflexivity. Qed.

Lemma table_name ns nm : In nm ["table"; "tbl"] -> String.eqb (qname ns nm) "TBL" = false.
Proof. intros H. apply String.eqb_neq. apply not_eq_sym. apply formex_other; [exact H|]. cbn. tauto. Qed.

Lemma cals_count kw doc d ns : (doc' <-? snd (counted_tables (pcals (cals_parser kw) "table") (fun _ => parse_table (cals_parser kw)) (generate_tbl (formex_builder kw)) doc d) ;; finalize_tree ns doc') =
  (doc' <-? nested_tables (pcals (cals_parser kw) "table") (fun _ k n => cals2formex kw k n) doc ;; finalize_tree ns doc').
Proof.
  rewrite counted_nested. symmetry. apply alike_finished.
  - intros after after' k n _. unfold cals2formex, from. destruct (parse_table _ n) as [t|x]; cbn [rbind]; [|reflexivity]. apply tbl_alike. apply table_name. cbn. tauto.
  - exact (fun _ k n e => fun H => proj1 (cals2formex_inner kw k n e H)).
  - exact (fun _ k n e => fun H => proj2 (cals2formex_inner kw k n e H)).
Qed.
Lemma word_count kw ox doc d ns : (doc' <-? snd (counted_tables (wq "tbl") (fun after => ox_parse_table ox (sect_after after)) (generate_tbl (formex_builder kw)) doc d) ;; finalize_tree ns doc') =
  (doc' <-? nested_tables (wq "tbl") (fun after k n => ooxml2formex kw ox (sect_after after) k n) doc ;; finalize_tree ns doc').
Proof.
  rewrite counted_nested. symmetry. apply alike_finished.
  - intros after after' k n H. unfold ooxml2formex, from. rewrite (alike_parse (wq "tbl") ox _ _ n (alike_sect _ _ _ H)). destruct (ox_parse_table _ _ n) as [t|x]; cbn [rbind]; [|reflexivity].
    apply tbl_alike. reflexivity.
  - exact (fun a k n e => fun H => proj1 (ooxml2formex_inner kw _ (sect_after a) k n e H)).
  - exact (fun a k n e => fun H => proj2 (ooxml2formex_inner kw _ (sect_after a) k n e H)).
Qed.

Section Files.
  Variable lib : library.
  Variable c : converter.
  Variable s : settings.

  Lemma sheet_read fs : match c with
    | Ooxml2Cals | Ooxml2Formex => style_sheet lib s fs
    | _ => Ok None
    end = match sheet_path c s with
          | None => Ok None
          | Some path => tree <-? read_tree lib fs path ;; Ok (Some (snd tree))
          end.
  Proof.
    unfold style_sheet, sheet_path, or_nothing. destruct c; try reflexivity; destruct (s_styles_path s) as [p|]; try reflexivity;
      (destruct (String.eqb p "") eqn:E; [apply String.eqb_eq in E; subst p; reflexivity|destruct p; [discriminate|reflexivity]]).
  Qed.
  Definition sheet_of (fs : files) : result (option xnode) :=
    match sheet_path c s with None => Ok None | Some path => tree <-? read_tree lib fs path ;; Ok (Some (snd tree)) end.

  (** The document in memory, whatever the counter *)
  Lemma transform_converted fs doc n : make_parser c s = Ok tt ->
    (doc' <-? snd (transform lib c s fs doc n) ;; finalize c s doc') = (sheet <-? sheet_of fs ;; converted c s sheet doc).
  Proof.
    intros HM. unfold sheet_of. rewrite <- sheet_read. unfold transform, finalize, converted, make_parser in *. destruct c; cbn [snd rbind].
    - apply cals_count.
    - unfold nested_formex2cals. destruct (cals_builder (s_kw s)); [|discriminate HM]. cbn [rbind]. destruct (fnested_tables _ _ doc); reflexivity.
    - unfold nested_ooxml2cals. destruct (cals_builder (s_kw s)); [|discriminate HM]. cbn [rbind]. destruct (style_sheet lib s fs) as [sheet|x]; cbn [rbind]; [|reflexivity].
      destruct (nested_tables _ _ doc); reflexivity.
    - destruct (style_sheet lib s fs) as [sheet|x]; cbn [snd rbind]; [|reflexivity]. apply word_count.
  Qed.
  Definition result_of (fs : files) (src : string) : result string :=
    tree <-? read_tree lib fs src ;; sheet <-? sheet_of fs ;; doc' <-? converted c s sheet (snd tree) ;; l_write lib (s_encoding s) (fst tree, doc').
  Definition effect (fs : files) (src dst : string) : files * result unit :=
    match result_of fs src with
    | Err x => (fs, Err x)
    | Ok out => if l_writable lib dst then (put_file fs dst out, Ok tt) else (fs, Err (l_io lib))
    end.
  Lemma parse_effect src dst n fs : make_parser c s = Ok tt -> snd (parse_file lib c s src dst n fs) = effect fs src dst.
  Proof.
    intros HM. unfold parse_file, effect, result_of. destruct (read_tree lib fs src) as [[around doc]|x]; cbn [rbind snd fst]; [|reflexivity].
    pose proof (transform_converted fs doc n HM) as E. destruct (transform lib c s fs doc n) as [n' r]. cbn [snd] in *. rewrite E.
    destruct (sheet_of fs) as [sheet|x]; cbn [rbind]; [|reflexivity]. destruct (converted c s sheet doc) as [doc'|x]; cbn [rbind]; [|reflexivity].
    unfold write_tree. destruct (l_write _ _ _); reflexivity.
  Qed.
  Lemma convert_effect src dst fs : convert_file lib c s src dst fs = match make_parser c s with Err x => (fs, Err x) | Ok _ => effect fs src dst end.
  Proof. unfold convert_file. destruct (make_parser c s) as [[]|x] eqn:E; [|reflexivity]. apply parse_effect, E. Qed.

  Lemma read_has fs path tree : read_tree lib fs path = Ok tree <-> has_document lib fs path tree.
  Proof.
    unfold read_tree, has_document. split.
    - destruct (fs path) as [b|]; [eauto|discriminate].
    - intros (b & -> & H). exact H.
  Qed.
  Lemma sheet_has fs sheet : sheet_of fs = Ok sheet <-> has_sheet lib fs c s sheet.
  Proof.
    unfold sheet_of, has_sheet. destruct (sheet_path c s) as [path|]; [|split; [intros H; injection H as <-; reflexivity|intros ->; reflexivity]]. split.
    - intros H. bind H as tree E. injection H as <-. destruct tree as [around root]. exists around, root. split; [apply read_has, E|reflexivity].
    - intros (around & root & H & ->). apply read_has in H. rewrite H. reflexivity.
  Qed.
  Lemma result_write fs src out : result_of fs src = Ok out <-> to_write lib fs c s src out.
  Proof.
    unfold result_of, to_write. split.
    - intros H. bind H as tree E. bind H as sheet Es. bind H as doc' Ed. destruct tree as [around doc]. cbn [fst snd] in *. exists around, doc, sheet, doc'.
      split; [apply read_has, E|]. split; [apply sheet_has, Es|]. auto.
    - intros (around & doc & sheet & doc' & H1 & H2 & H3 & H4). apply read_has in H1. apply sheet_has in H2. rewrite H1, H2. cbn [rbind fst snd]. rewrite H3. exact H4.
  Qed.
  Lemma result_same fs fs' src : fs src = fs' src -> (forall p, sheet_path c s = Some p -> fs p = fs' p) -> result_of fs src = result_of fs' src.
  Proof.
    intros H1 H2. unfold result_of, sheet_of, read_tree. rewrite H1. destruct (fs' src); [|reflexivity]. destruct (sheet_path c s) as [p|]; [|reflexivity]. rewrite (H2 p eq_refl). reflexivity.
  Qed.
  Lemma put_only fs dst out : only_written fs (put_file fs dst out) dst out.
  Proof. unfold only_written, put_file. split; [rewrite String.eqb_refl; reflexivity|]. intros p Hp. apply String.eqb_neq in Hp. rewrite Hp. reflexivity. Qed.
End Files.
