(** * C89: the loop which extracts the notes, when there are tables in the footer rows *)
From Verif Require Import Base M_Geometry M_Xml M_Cell M_Grid M_Table M_Str M_Builder M_Cals M_Formex M_FormexFinal M_FormexFinish M_NotesLoop.
From Verif Require Import S_Table S_Builder S_Cals S_Formex S_FormexFinal S_FormexFinish S_NotesLoop P_FormexFinish P_NotesLoop.
From Verif Require Import T_Table T_Cals T_Formex T_FormexFinal T_FormexFinish.
Open Scope string_scope.
Open Scope list_scope.
Open Scope Z_scope.

(** When tables are only found in the first cells of the footer rows, the loop treats all the rows: the content of each
    footer row is put before the CORPUS of its table (see C57), and no footer row is left. *)
Theorem C89_notes_partial : forall doc, orderly doc -> footers_ready doc -> tables_first doc ->
  exists doc', loop_gr_notes doc = Ok doc' /\ noted doc doc'.
Proof.
  intros doc HO HR HT. destruct (C57_succeeds doc HO HR) as (doc' & E). exists doc'. rewrite (loop_same doc HR HT).
  split; [exact E|]. exact (C57_notes doc doc' HO E).
Qed.
(** The same for the passes of finalize_tree: what C56 to C58 and C69 say is then true of the loop of the code. *)
Theorem C89_finalize_partial : forall ns root, let r := cleanup_tbl_in_tbl (update_no_seq root) in
  footers_ready r -> tables_first r -> finalize_loop ns root = finalize_tree ns root.
Proof. intros ns root r HR HT. unfold finalize_loop, finalize_tree. fold r. rewrite (loop_same r HR HT). reflexivity. Qed.

(** Otherwise the loop can stop: if a footer row has a table in its second cell (or after), and none in
    the first one, then all that follows in the CORPUS, and after it, stays as it was, rows "__GR.NOTES__" included. *)
Theorem C89_stops : forall attrs text before cattrs ctext pre r post ctail after tail doc' a c b,
  footer_row r -> first_named "CELL" (x_children r) a c b ->
  (exists d, In d a /\ ~ rowless d) \/ (rowless c /\ exists d, In d b /\ ~ rowless d) ->
  loop_gr_notes (XElem "TBL" attrs text (before ++ XElem "CORPUS" cattrs ctext (pre ++ r :: post) ctail :: after) tail) = Ok doc' ->
  exists kept after', In (XElem "CORPUS" cattrs ctext (kept ++ post) ctail) (x_children doc') /\ x_children doc' = after' ++ after.
Proof. intros until b. intros HF H1 H E. exact (rest_untouched _ _ _ _ _ _ _ _ _ _ _ _ (footer_stops r a c b HF H1 H) E). Qed.
Theorem C89_footer_left : forall attrs text before cattrs ctext pre r mid r' post ctail after tail doc' a c b,
  footer_row r -> first_named "CELL" (x_children r) a c b -> rowless c -> (exists d, In d b /\ ~ rowless d) -> footer_row r' ->
  loop_gr_notes (XElem "TBL" attrs text (before ++ XElem "CORPUS" cattrs ctext (pre ++ r :: mid ++ r' :: post) ctail :: after) tail) = Ok doc' ->
  footers_left doc'.
Proof.
  intros until b. intros HF H1 Hc Hb HF' E.
  destruct (C89_stops _ _ _ _ _ _ _ _ _ _ _ _ _ _ _ HF H1 (or_intror (conj Hc Hb)) E) as (kept & after' & Hin & _).
  exists r'. split; [|exact HF']. eapply part_deeper; [exact Hin|]. eapply part_deeper; [|apply part_self].
  cbn [x_children]. apply in_app_iff. right. apply in_app_iff. right. left. reflexivity.
Qed.

(** A table of two footer rows; there is a table in the second cell of the first one. *)
Definition inner : xnode := XElem "TBL" [] None [XElem "CORPUS" [] None [XElem "ROW" [] None [el "CELL" [] "i" []] None] None] None.
Definition t_stops : table :=
  trun et_start [TReadViews Rows; TSetNature Rows 1 (Some "body"); TSetNature Rows 2 (Some "footer"); TSetNature Rows 3 (Some "footer");
                 TInsert Rows 1 (CText "a") None None 2 1;
                 TInsert Rows 2 (CText "n1") None None 1 1; TInsert Rows 2 (CList [CNode inner]) None None 1 1;
                 TInsert Rows 3 (CText "n2") None None 2 1].
(** "The notes of every footer row are put before the CORPUS" is false. *)
Theorem C89_every_row_refuted : exists t e e', treachable t /\ generate_tbl fplain 1 t = Ok e /\ finalize_loop None e = Ok e' /\
    map (fun r => x_get r "TYPE") (rows_of_tbl e) = [None; Some "__GR.NOTES__"; Some "__GR.NOTES__"] /\
    map (fun n => (x_tag n, string_value n)) (x_children e') = [(Some "GR.NOTES", "n1"); (Some "CORPUS", "an2")] /\
    map (fun r => x_get r "TYPE") (rows_of_tbl e') = [None; Some "__GR.NOTES__"] /\ footers_left e'.
Proof.
  exists t_stops. eexists. eexists. split; [apply et_reachable|]. split; [vm_compute; reflexivity|]. split; [vm_compute; reflexivity|].
  split; [reflexivity|]. split; [reflexivity|]. split; [reflexivity|].
  eexists. split.
  - eapply part_deeper; [right; left; reflexivity|]. eapply part_deeper; [|apply part_self].
    cbn [x_children]. right. left. reflexivity.
  - split; reflexivity.
Qed.

(** There are tables in the first cell of a footer row, and other footer rows in them and after. *)
Definition doc_first : xnode := XElem "TBL" [] None [XElem "CORPUS" [] None
  [typed "__GR.NOTES__" [XElem "CELL" [] (Some "n1")
      [XElem "TBL" [] None [XElem "CORPUS" [] None [XElem "ROW" [] None [el "CELL" [] "i" []] None; typed "__GR.NOTES__" [el "CELL" [] "n2" []]] None] None] None;
      el "CELL" [] "lost" []];
   typed "HEADER" [el "CELL" [] "h" []];
   typed "__GR.NOTES__" [el "CELL" [] "n3" []]] None] None.

Lemma tables_first_intro n : (footer_row n -> forall a c b, first_named "CELL" (x_children n) a c b -> forall d, In d (a ++ b) -> rowless d) ->
  (forall c, In c (x_children n) -> tables_first c) -> tables_first n.
Proof. intros H1 H2 r Hr HF. destruct Hr as [|c r Hc Hr]; [apply H1, HF|exact (H2 c Hc r Hr HF)]. Qed.
Lemma tables_first_rowless n : rowless n -> tables_first n.
Proof. intros H r Hr [Ht _]. destruct (H r Hr Ht). Qed.

Example C89_ex : orderly doc_first /\ footers_ready doc_first /\ tables_first doc_first /\
  loop_gr_notes doc_first = Ok (XElem "TBL" [] None
    [XElem "GR.NOTES" [] (Some "n1")
       [XElem "TBL" [] None [XElem "GR.NOTES" [] (Some "n2") [] None; XElem "CORPUS" [] None [XElem "ROW" [] None [el "CELL" [] "i" []] None] None] None] None;
     XElem "GR.NOTES" [] (Some "n3") [] None;
     XElem "CORPUS" [] None [XElem "ROW" [] None [el "CELL" [] "h" []] None] None] None).
Proof.
  assert (OC : forall s, orderly (el "CELL" [] s [])) by (intros; apply orderly_elem; [discriminate..|constructor]).
  assert (FC : forall s, footers_ready (el "CELL" [] s [])) by (intros; constructor; [intros c []|discriminate]).
  assert (TC : forall s, has_row (el "CELL" [] s []) = false) by reflexivity.
  split; [|split; [|split; [|reflexivity]]].
  - assert (D1 : forall v : string, NoDup (map fst [("TYPE", v)])) by (intros; constructor; [intros []|constructor]).
    apply orderly_tbl. apply Forall_cons; [|constructor]. right. split; [reflexivity|]. cbn [x_children].
    apply Forall_cons; [|apply Forall_cons; [|apply Forall_cons; [|constructor]]]; right; (split; [reflexivity|split; [apply D1|]]); cbn [typed x_children].
    + apply Forall_cons; [|apply Forall_cons; [apply OC|constructor]]. apply orderly_elem; [discriminate..|]. apply Forall_cons; [|constructor].
      apply orderly_tbl. apply Forall_cons; [|constructor]. right. split; [reflexivity|]. cbn [x_children].
      apply Forall_cons; [|apply Forall_cons; [|constructor]]; right; (split; [reflexivity|split; [|cbn [typed x_children]; apply Forall_cons; [apply OC|constructor]]]); [constructor|apply D1].
    + apply Forall_cons; [apply OC|constructor].
    + apply Forall_cons; [apply OC|constructor].
  - assert (FR : forall attrs s, footers_ready (XElem "ROW" attrs None [el "CELL" [] s []] None)).
    { intros. constructor; [intros c [<-|[]]; apply FC|intros _ _; eexists; split; [left; reflexivity|reflexivity]]. }
    constructor; [|discriminate]. intros c [<-|[]]. constructor; [|discriminate]. intros r [<-|[<-|[<-|[]]]]; [|apply FR|apply FR].
    constructor; [|intros _ _; eexists; split; [left; reflexivity|reflexivity]]. intros c [<-|[<-|[]]]; [|apply FC].
    constructor; [|discriminate]. intros c [<-|[]]. constructor; [|discriminate]. intros c [<-|[]]. constructor; [|discriminate].
    intros c [<-|[<-|[]]]; apply FR.
  - assert (TR : forall attrs s, tables_first (XElem "ROW" attrs None [el "CELL" [] s []] None)).
    { intros. apply tables_first_intro; [|intros c [<-|[]]; apply tables_first_rowless, has_row_false, TC].
      intros _ a c b (E & _ & _) d Hd. destruct a as [|x [|y a]]; cbn in E; [|discriminate|discriminate]. injection E as <- <-. destruct Hd. }
    apply tables_first_intro; [intros [[=] _]|]. intros c [<-|[]]. apply tables_first_intro; [intros [[=] _]|]. intros r [<-|[<-|[<-|[]]]]; [|apply TR|apply TR].
    apply tables_first_intro.
    + intros _ a c b (E & Hc & Ha) d Hd. destruct a as [|x a].
      * cbn in E. injection E as <- <-. cbn [app] in Hd. destruct Hd as [<-|[]]. apply has_row_false, TC.
      * cbn in E. injection E as <- E. destruct (Ha _ (or_introl eq_refl)). reflexivity.
    + intros c [<-|[<-|[]]]; [|apply tables_first_rowless, has_row_false, TC]. apply tables_first_intro; [intros [[=] _]|]. intros c [<-|[]].
      apply tables_first_intro; [intros [[=] _]|]. intros c [<-|[]]. apply tables_first_intro; [intros [[=] _]|]. intros c [<-|[<-|[]]]; apply TR.
Qed.
(** A document which meets the hypotheses of C89_stops *)
Example C89_stops_ex : let r := typed "__GR.NOTES__" [el "CELL" [] "n1" []; XElem "CELL" [] None [inner] None] in
  footer_row r /\ first_named "CELL" (x_children r) [] (el "CELL" [] "n1" []) [XElem "CELL" [] None [inner] None] /\
  rowless (el "CELL" [] "n1" []) /\ ~ rowless (XElem "CELL" [] None [inner] None) /\
  loop_gr_notes (doc_of [r; typed "HEADER" [el "CELL" [] "h" []]; typed "__GR.NOTES__" [el "CELL" [] "n2" []]]) =
  Ok (XElem "TBL" [] None [XElem "GR.NOTES" [] (Some "n1") [] None;
        XElem "CORPUS" [] None [typed "HEADER" [el "CELL" [] "h" []]; typed "__GR.NOTES__" [el "CELL" [] "n2" []]] None] None).
Proof.
  cbn zeta. split; [split; reflexivity|]. split; [split; [reflexivity|split; [reflexivity|intros d []]]|].
  split; [apply has_row_false; reflexivity|]. split; [|reflexivity].
  intros H. apply has_row_false in H. discriminate H.
Qed.

Print Assumptions C89_notes_partial.
Print Assumptions C89_finalize_partial.
Print Assumptions C89_stops.
Print Assumptions C89_footer_left.
Print Assumptions C89_every_row_refuted.
