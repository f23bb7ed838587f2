(** * C57, C58: the notes of the tables and the attributes of the finished Formex documents *)
From Verif Require Import Base M_Geometry M_Xml M_Cell M_Grid M_Table M_Str M_Builder M_Cals M_Formex M_FormexFinal M_FormexFinish.
From Verif Require Import S_Table S_Builder S_Cals S_Formex S_FormexFinal S_FormexFinish P_FormexFinish.
From Verif Require Import T_Table T_Cals T_Formex T_FormexFinal.
Open Scope string_scope.
Open Scope list_scope.
Open Scope Z_scope.

(** ** C57 *)

(** The content of the footer rows of a table is put before its CORPUS, in order, in GR.NOTES elements
    with the attributes of the rows; the other rows stay, without their TYPE; the rest is the same. *)
Theorem C57_notes : forall doc doc', orderly doc -> extract_gr_notes doc = Ok doc' -> noted doc doc'.
Proof. exact extract_noted. Qed.
Theorem C57_succeeds : forall doc, orderly doc -> footers_ready doc -> exists doc', extract_gr_notes doc = Ok doc'.
Proof. exact extract_total. Qed.
(** No TBL stays a child of a TBL: its children take its place. *)
Theorem C57_flattened : forall doc, flattened doc (cleanup_tbl_in_tbl doc).
Proof. exact cleanup_flattened. Qed.

Definition typed (type : string) (cells : list xnode) : xnode := XElem "ROW" [("TYPE", type)] None cells None.
Definition doc_notes := XElem "TBL" [] None
  [XElem "TITLE" [] None [] None;
   XElem "CORPUS" [] None
     [typed "HEADER" [el "CELL" [] "h" []]; XElem "ROW" [] None [el "CELL" [] "b" []] None;
      XElem "ROW" [("TYPE", "__GR.NOTES__"); ("{urn:cals}valign", "top")] None [el "CELL" [] "n1" [el "P" [] "n2" []]] None;
      typed "__GR.NOTES__" [el "CELL" [] "n3" [XElem "GR.NOTES" [("NUMBERING", "1")] (Some "n4") [] (Some "n5")]]] None] None.
Example C57_ex : orderly doc_notes /\ footers_ready doc_notes /\
  extract_gr_notes doc_notes = Ok (XElem "TBL" [] None
    [XElem "TITLE" [] None [] None;
     XElem "GR.NOTES" [("{urn:cals}valign", "top")] (Some "n1") [el "P" [] "n2" []] (Some "n3");
     XElem "GR.NOTES" [("NUMBERING", "1")] (Some "n4") [] (Some "n5");
     XElem "CORPUS" [] None [XElem "ROW" [] None [el "CELL" [] "h" []] None; XElem "ROW" [] None [el "CELL" [] "b" []] None] None] None).
Proof.
  assert (OL : forall tag attrs text tail, tag <> "TBL" -> tag <> "ROW" -> orderly (XElem tag attrs text [] tail)) by (intros; apply orderly_elem; [assumption..|constructor]).
  split; [|split; [|reflexivity]].
  - apply orderly_tbl. apply Forall_cons; [left; split; [discriminate|apply OL; discriminate]|]. apply Forall_cons; [|constructor].
    right. split; [reflexivity|]. cbn [x_children].
    repeat (apply Forall_cons; [right; split; [reflexivity|]; split;
      [cbn [x_attrs map fst]; repeat (constructor; [intros H; repeat (destruct H as [H|H]; [discriminate H|]); destruct H|]); constructor
      |cbn [x_children]; apply Forall_cons; [|constructor];
       apply orderly_elem; [discriminate..|]; repeat (apply Forall_cons; [apply OL; discriminate|]); constructor]|]). constructor.
  - assert (FL : forall n, x_tag n <> Some "ROW" -> (forall c, In c (x_children n) -> footers_ready c) -> footers_ready n).
    { intros n N H. constructor; [exact H|]. intros E. contradiction. }
    assert (F0 : forall tag attrs text tail, tag <> "ROW" -> footers_ready (XElem tag attrs text [] tail)).
    { intros tag attrs text tail N. apply FL; [cbn; congruence|intros c []]. }
    apply FL; [discriminate|]. intros c [<-|[<-|[]]]; [apply F0; discriminate|]. apply FL; [discriminate|].
    intros r Hr. cbn [x_children] in Hr. repeat (destruct Hr as [<-|Hr]; [constructor; [intros c [<-|[]]|intros _ _; eexists; split; [left; reflexivity|reflexivity]];
      apply FL; [discriminate|]; intros d Hd; cbn [el x_children] in Hd; repeat (destruct Hd as [<-|Hd]; [apply F0; discriminate|]); destruct Hd|]). destruct Hr.
Qed.
Example C57_flattened_ex : cleanup_tbl_in_tbl (el "P" [] "" [tbl [tbl [tbl [el "P" [] "a" []]; el "P" [] "b" [tbl []]]; el "CORPUS" [] "" []]]) =
  el "P" [] "" [tbl [el "P" [] "a" []; el "P" [] "b" [tbl []]; el "CORPUS" [] "" []]].
Proof. reflexivity. Qed.

(** "The other rows keep what they say" is false: the header rows are not marked any more in the
    finished document, although build_row marks them. *)
Definition rows_of_tbl (e : xnode) : list xnode := children_named "ROW" (children_named "CORPUS" [e]).
Theorem C57_headers_refuted : exists t e e', treachable t /\ generate_tbl fplain 1 t = Ok e /\ finalize_tree None e = Ok e' /\
    map (fun r => x_get r "TYPE") (rows_of_tbl e) = [Some "HEADER"; None] /\
    map (fun r => x_get r "TYPE") (rows_of_tbl e') = [None; None].
Proof.
  exists et. eexists. eexists. split; [apply et_reachable|]. split; [vm_compute; reflexivity|]. split; [vm_compute; reflexivity|]. split; reflexivity.
Qed.
(** The other cells of a footer row are lost. *)
Theorem C57_other_cells_refuted : exists doc doc', orderly doc /\ footers_ready doc /\ extract_gr_notes doc = Ok doc' /\
    string_value doc = "ab" /\ string_value doc' = "a".
Proof.
  assert (OC : forall s, orderly (el "CELL" [] s [])) by (intros; apply orderly_elem; [discriminate..|constructor]).
  assert (FC : forall s, footers_ready (el "CELL" [] s [])) by (intros; constructor; [intros c []|discriminate]).
  exists (doc_of [typed "__GR.NOTES__" [el "CELL" [] "a" []; el "CELL" [] "b" []]]). eexists.
  split; [|split; [|split; [reflexivity|split; reflexivity]]].
  - apply orderly_tbl. apply Forall_cons; [|constructor]. right. split; [reflexivity|]. apply Forall_cons; [|constructor].
    right. split; [reflexivity|]. split; [constructor; [intros []|constructor]|]. apply Forall_cons; [apply OC|]. apply Forall_cons; [apply OC|constructor].
  - constructor; [|discriminate]. intros c [<-|[]]. constructor; [|discriminate]. intros r [<-|[]]. constructor.
    + intros c [<-|[<-|[]]]; apply FC.
    + intros _ _. eexists. split; [left; reflexivity|reflexivity].
Qed.
(** The text which is between the parts of a table in a table is lost. *)
Theorem C57_nested_text_refuted : exists doc, string_value doc = "abc" /\ string_value (cleanup_tbl_in_tbl doc) = "b".
Proof. exists (tbl [XElem "TBL" [] (Some "a") [el "P" [] "b" []] (Some "c")]). split; reflexivity. Qed.

(** ** C58 *)

(** The elements of the tables have no attribute which says again what others say; all other
    attributes, and the rest, are the same. *)
Theorem C58_attributes : forall ns doc, proper doc -> lightened ns false doc (drop_superfluous_attrs ns doc).
Proof. intros ns doc H. apply drop_lightened, H. Qed.
Example C58_ex : proper doc_levels /\
  drop_superfluous_attrs (Some "urn") (doc_of [XElem "ROW" [("{urn}rowstyle", "s"); ("rowstyle", "s")] None
     [el "CELL" [("COL", "1"); ("{urn}namest", "c1"); ("{urn}nameend", "c2"); ("{urn}align", "left"); ("{urn}morerows", "1"); ("COLSPAN", "2")] "a" [el "P" [("{urn}namest", "c1")] "" []]] None]) =
  doc_of [XElem "ROW" [("rowstyle", "s")] None [el "CELL" [("COL", "1"); ("{urn}align", "left"); ("COLSPAN", "2")] "a" [el "P" [("{urn}namest", "c1")] "" []]] None].
Proof.
  split; [|reflexivity]. assert (PL : forall tag text, proper (el tag [] text [])) by (intros; constructor; [constructor|intros c []]).
  constructor; [constructor|]. intros c [<-|[]]. constructor; [constructor|]. intros r Hr. cbn [x_children] in Hr.
  repeat (destruct Hr as [<-|Hr]; [constructor; [constructor; [intros []|constructor]|]; intros c Hc; cbn [row_of map x_children] in Hc; repeat (destruct Hc as [<-|Hc]; [apply PL|]); destruct Hc|]). destruct Hr.
Qed.

(** The numbers of the tables of the finished document are distinct (see C47). *)
Theorem C47_finished : forall ns doc doc', finalize_tree ns doc = Ok doc' ->
    NoDup (map (fun a => x_get a "NO.SEQ") (all_tables doc')).
Proof. exact finish_distinct. Qed.
Example C47_finished_ex : exists doc', finalize_tree None (el "P" [] "" [doc_notes; el "P" [] "" [tbl [tbl [el "P" [] "" [tbl []]]]]]) = Ok doc' /\
  map (fun a => x_get a "NO.SEQ") (all_tables doc') = map Some ["0001"; "0002"; "0002.0001.0001"].
Proof. eexists. split; reflexivity. Qed.

Print Assumptions C57_notes.
Print Assumptions C57_succeeds.
Print Assumptions C57_flattened.
Print Assumptions C57_headers_refuted.
Print Assumptions C57_other_cells_refuted.
Print Assumptions C57_nested_text_refuted.
Print Assumptions C58_attributes.
Print Assumptions C47_finished.
