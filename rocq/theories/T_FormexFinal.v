(** * C46, C47: blocks and numbers in Formex documents *)
From Verif Require Import Base M_Geometry M_Xml M_Cell M_Regex M_Str M_Table M_Cals M_Formex M_FormexFinal.
From Verif Require Import S_Units S_Int S_Builder S_Cals S_Formex S_FormexFinal.
From Verif Require Import P_FormexNumber P_FormexBlk.
Open Scope string_scope.
Open Scope list_scope.
Open Scope Z_scope.

(** ** C46 *)

(** In each CORPUS every row, or the title which replaces it, is at the depth which its style says, in
    the order of the rows; no block is empty and two blocks never follow one another, hence
    ([C46_unique]) nothing is left to choose. *)
Theorem C46_blocks : forall ns doc doc', plain_corpora doc -> insert_blk ns doc = Ok doc' -> blocked ns doc doc'.
Proof. intros ns doc doc' HP H. apply insert_blocked; assumption. Qed.
Theorem C46_unique : forall l m, tidy l -> tidy m -> leaves_of 0 l = leaves_of 0 m -> l = m.
Proof. exact tidy_unique. Qed.
Theorem C46_succeeds : forall ns doc, plain_corpora doc -> titles_ready ns doc -> exists doc', insert_blk ns doc = Ok doc'.
Proof. exact insert_ok. Qed.
(** Nothing is lost when no row is a title. *)
Theorem C46_text_partial : forall ns doc doc', plain_corpora doc -> untitled ns doc -> insert_blk ns doc = Ok doc' ->
    string_value doc' = string_value doc.
Proof. intros ns doc doc' HP HU H. apply (blocked_value ns doc HU). apply insert_blocked; assumption. Qed.

(** A small document: levels 1, 2, 0, 2 and 1 *)
Definition el (tag : string) (attrs : dict string) (text : string) (children : list xnode) : xnode :=
  XElem tag attrs (Some text) children None.
Definition row_of (style : string) (cells : list string) : xnode :=
  XElem "ROW" [("rowstyle", style)] None (map (fun s => el "CELL" [] s []) cells) None.
Definition doc_of (rows : list xnode) : xnode := XElem "TBL" [] None [XElem "CORPUS" [] None rows None] None.
Definition blk (l : list xnode) : xnode := XElem "BLK" [] None l None.
Definition doc_levels := doc_of [row_of "ROW-level1" ["a"]; row_of "ROW-TOTAL-level2" ["b"; "c"]; row_of "other" ["d"]; row_of "ROW-level2" ["e"]; row_of "TI.BLK-level1" ["f"]].

Lemma plain_rows rows : (forall r, In r rows -> exists s cs, r = row_of s cs) -> plain_corpora (doc_of rows).
Proof.
  assert (PL : forall n, x_children n = [] -> plain_corpora n).
  { intros n E. constructor; rewrite E; [intros c []|intros _ c []]. }
  assert (PR : forall s cs, plain_corpora (row_of s cs)).
  { intros s cs. constructor; cbn [row_of x_children x_tag]; [|discriminate]. intros c Hc. apply in_map_iff in Hc as (t & <- & _). apply PL. reflexivity. }
  intros H. constructor; cbn [doc_of x_children x_tag]; [|discriminate]. intros c [<-|[]]. constructor; cbn [x_children x_tag].
  - intros r Hr. destruct (H r Hr) as (s & cs & ->). apply PR.
  - intros _ r Hr. destruct (H r Hr) as (s & cs & ->). split; [reflexivity|discriminate].
Qed.
Lemma untitled_rows rows :
  (forall r, In r rows -> exists s cs, r = row_of s cs /\ ri_tag (guess_row_info (Some s)) = "ROW") -> untitled None (doc_of rows).
Proof.
  assert (PL : forall n, x_children n = [] -> untitled None n).
  { intros n E. constructor; rewrite E; [intros c []|intros _ c ? ? ? []]. }
  assert (PR : forall s cs, untitled None (row_of s cs)).
  { intros s cs. constructor; cbn [row_of x_children x_tag]; [|discriminate]. intros c Hc. apply in_map_iff in Hc as (t & <- & _). apply PL. reflexivity. }
  intros H. constructor; cbn [doc_of x_children x_tag]; [|discriminate]. intros c [<-|[]]. constructor; cbn [x_children x_tag].
  - intros r Hr. destruct (H r Hr) as (s & cs & -> & _). apply PR.
  - intros _ r tag type level Hr Hd. destruct (H r Hr) as (s & cs & -> & E). apply decoded_is_guess in Hd. change (x_get (row_of s cs) (qname None "rowstyle")) with (Some s) in Hd. rewrite Hd in E. exact E.
Qed.

Example C46_ex : plain_corpora doc_levels /\ titles_ready None doc_levels /\
  insert_blk None doc_levels = Ok (doc_of
    [blk [row_of "ROW-level1" ["a"];
          blk [XElem "ROW" [("rowstyle", "ROW-TOTAL-level2"); ("TYPE", "TOTAL")] None [el "CELL" [("TYPE", "TOTAL")] "b" []; el "CELL" [("TYPE", "TOTAL")] "c" []] None]];
     row_of "other" ["d"];
     blk [blk [row_of "ROW-level2" ["e"]];
          XElem "TI.BLK" [("COL.START", "1"); ("COL.END", "1"); ("rowstyle", "TI.BLK-level1")] (Some "f") [] None]]).
Proof.
  split; [|split; [|reflexivity]].
  - apply plain_rows. intros r Hr. cbn in Hr. repeat (destruct Hr as [<-|Hr]; [eexists; eexists; reflexivity|]). destruct Hr.
  - assert (PL : forall n, x_children n = [] -> titles_ready None n).
    { intros n E. constructor; rewrite E; [intros c []|intros _ c []]. }
    assert (PR : forall s cs, titles_ready None (row_of s cs)).
    { intros s cs. constructor; cbn [row_of x_children x_tag]; [|discriminate]. intros c Hc. apply in_map_iff in Hc as (t & <- & _). apply PL. reflexivity. }
    constructor; cbn [doc_levels doc_of x_children x_tag]; [|discriminate]. intros c [<-|[]]. constructor; cbn [x_children x_tag].
    + intros r Hr. repeat (destruct Hr as [<-|Hr]; [apply PR|]). destruct Hr.
    + intros _ r Hr tag type level Hd N. repeat (destruct Hr as [<-|Hr]; [split; [discriminate|]; intros c Hc s t Hs; cbn in Hc; repeat (destruct Hc as [<-|Hc]; [discriminate|]); destruct Hc|]). destruct Hr.
Qed.
Definition doc_rows := doc_of [row_of "ROW-level1" ["a"]; row_of "ROW-TOTAL-level2" ["b"; "c"]; row_of "other" ["d"]].
Example C46_text_ex : plain_corpora doc_rows /\ untitled None doc_rows /\ string_value doc_rows = "abcd".
Proof.
  split; [|split; [|reflexivity]].
  - apply plain_rows. intros r Hr. cbn in Hr. repeat (destruct Hr as [<-|Hr]; [eexists; eexists; reflexivity|]). destruct Hr.
  - apply untitled_rows. intros r Hr. cbn in Hr. repeat (destruct Hr as [<-|Hr]; [eexists; eexists; split; reflexivity|]). destruct Hr.
Qed.

(** The full claim (nothing is lost, whatever the rows) is false: of a title row with two cells, only
    the first filled cell is kept. *)
Theorem C46_titles_refuted : exists doc doc', plain_corpora doc /\ titles_ready None doc /\ insert_blk None doc = Ok doc' /\
    string_value doc = "Title1,0" /\ string_value doc' = "Title".
Proof.
  exists (doc_of [row_of "TI.BLK-level1" ["Title"; "1,0"]]). eexists.
  split; [apply plain_rows; intros r [<-|[]]; eexists; eexists; reflexivity|]. split; [|split; [reflexivity|split; reflexivity]].
  assert (PL : forall n, x_children n = [] -> titles_ready None n).
  { intros n E. constructor; rewrite E; [intros c []|intros _ c []]. }
  constructor; cbn [doc_of x_children x_tag]; [|discriminate]. intros c [<-|[]]. constructor; cbn [x_children x_tag].
  - intros r [<-|[]]. constructor; cbn [row_of x_children x_tag]; [|discriminate]. intros c Hc. apply in_map_iff in Hc as (t & <- & _). apply PL. reflexivity.
  - intros _ r [<-|[]] tag type level Hd N. split; [discriminate|]. intros c Hc s t Hs. cbn in Hc. destruct Hc as [<-|[<-|[]]]; discriminate.
Qed.
(** A title cell which is empty but marked so (IE) hides the text which follows; the columns of the
    title are those of the first cell. *)
Theorem C46_empty_cell_refuted : exists doc doc', plain_corpora doc /\ insert_blk None doc = Ok doc' /\
    string_value doc = "Title" /\ string_value doc' = "".
Proof.
  exists (doc_of [XElem "ROW" [("rowstyle", "TI.BLK-level1")] None [XElem "CELL" [] None [XElem "IE" [] None [] None] None; el "CELL" [] "Title" []] None]).
  eexists. split; [|split; [reflexivity|split; reflexivity]].
  assert (PL : forall n, x_children n = [] -> plain_corpora n).
  { intros n E. constructor; rewrite E; [intros c []|intros _ c []]. }
  constructor; cbn [doc_of x_children x_tag]; [|discriminate]. intros c [<-|[]]. constructor; cbn [x_children x_tag].
  - intros r [<-|[]]. constructor; cbn [x_children x_tag]; [|discriminate]. intros c [<-|[<-|[]]].
    + constructor; cbn [x_children x_tag]; [|discriminate]. intros c [<-|[]]. apply PL. reflexivity.
    + apply PL. reflexivity.
  - intros _ c [<-|[]]. split; [reflexivity|discriminate].
Qed.
(** A mark (a processing instruction) before a row is put in the block of the row before. *)
Theorem C46_marks_refuted : exists pi a b c, insert_blk None (doc_of [a; pi; b; c]) =
    Ok (doc_of [blk [a; pi]; b; c]) /\ x_get b "rowstyle" = None.
Proof.
  exists (XPI "change-start" "id=1" None), (row_of "ROW-level1" ["a"]), (XElem "ROW" [] None [] None), (XElem "ROW" [] None [] None).
  split; reflexivity.
Qed.

(** ** C47 *)

(** The tables of a document are numbered 0001, 0002... in document order; those which are in a table
    have its number, a dot and again 0001, 0002...; the numbers are distinct; nothing else changes. *)
Theorem C47_numbers : forall root, numbered "" (outer_tables (update_no_seq root)).
Proof. exact update_numbered. Qed.
Theorem C47_distinct : forall root, NoDup (map (fun a => x_get a "NO.SEQ") (all_tables (update_no_seq root))).
Proof. intros root. apply numbered_distinct, update_numbered. Qed.
Theorem C47_else_same : forall root, without_numbers (update_no_seq root) = without_numbers root.
Proof. intros root. apply number_same. Qed.

Definition tbl (l : list xnode) : xnode := XElem "TBL" [] None l None.
Definition doc_tables := XElem "ACT" [] None [tbl [el "P" [] "" [tbl []; tbl []]]; el "P" [] "" [tbl [tbl [tbl []]]]] None.
Example C47_ex : map (fun a => x_get a "NO.SEQ") (all_tables (update_no_seq doc_tables)) =
  map Some ["0001"; "0001.0001"; "0001.0002"; "0002"; "0002.0001"; "0002.0001.0001"] /\
  numbered "" (outer_tables (update_no_seq doc_tables)).
Proof. split; [reflexivity|apply C47_numbers]. Qed.

Print Assumptions C46_blocks.
Print Assumptions C46_unique.
Print Assumptions C46_succeeds.
Print Assumptions C46_text_partial.
Print Assumptions C46_titles_refuted.
Print Assumptions C46_empty_cell_refuted.
Print Assumptions C46_marks_refuted.
Print Assumptions C47_numbers.
Print Assumptions C47_distinct.
Print Assumptions C47_else_same.
