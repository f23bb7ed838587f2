(** * Theorems about the loops over rows and columns (C88) *)
From Verif Require Import Base M_Geometry M_Xml M_Cell M_Grid M_Table M_Views M_Loops.
From Verif Require Import S_Geometry S_Cell S_Grid S_Table S_Views S_Loops P_Geometry P_Cell P_Grid P_GridFacts.
From Verif Require Import P_Table P_TableStep P_TableFacts P_TableMore P_Views P_Loops T_Views.
Open Scope Z_scope.

(** A loop whose calls add no row visits each row of the table once, from the first to the last: it
    ends as the same calls on [table.rows[1]], [table.rows[2]] ... in turn, stopping at the first
    error.  ([fuel] is any bound larger than the number of rows.) *)
Theorem C88_each_row_once : forall ax c n o t fuel, oreachable o -> shows o t -> adds_none ax c -> view_count ax t n ->
    (Z.to_nat n < fuel)%nat ->
    exists x, in_turn (fun p => tstep (at_position ax p c)) (zrange 1 (n + 1)) (fst (views_get ax t)) x /\
      same_end (o_for fuel ax c o) x.
Proof. intros. eapply for_thin; eassumption. Qed.

(** [for row in table.rows: row.insert_cell(text)] never fails: each row gets one cell, at the place
    which was its first free one before the loop. *)
Theorem C88_one_cell_each : forall ax ct s na n o t fuel, oreachable o -> shows o t -> view_count ax t n ->
    (Z.to_nat n < fuel)%nat ->
    exists o' cs, o_for fuel ax (RInsert ct s na 1 1) o = (o', Ok tt) /\
      Permutation (o_grid o') (cs ++ o_grid o) /\
      Forall2 (fun p c => exists i v, first_free ax p i (o_grid o) /\ reads ax p t v /\
                 c = MkCell ct (match s with Some s => s | None => [] end)
                       (match na with None => v_nature v | Some _ => na end) (seat ax p i 1 1))
        (zrange 1 (n + 1)) cs.
Proof.
  intros ax ct s na n o t fuel HR HS Hn Hf.
  destruct (for_thin ax (RInsert ct s na 1 1) n o t fuel HR HS) as (x & Hx & Ho); try assumption.
  { destruct ax; cbn; lia. }
  destruct (shows_rel o t HR HS) as [HT _]. destruct (treachable_tinv t HT) as (oh & Ht & HM).
  destruct (views_get_st ax t _ oh Ht (proj1 (proj1 HM))) as (t1 & vs & E & HS1 & _).
  assert (HT1 : treachable (fst (views_get ax t))).
  { replace (fst (views_get ax t)) with (fst (tstep (TReadViews ax) t)).
    - constructor. exact HT.
    - cbn [tstep]. unfold unit_of, sbind. rewrite E. reflexivity. }
  assert (Hn0 : 0 <= n) by (destruct Hn as (vs' & _ & ->); lia).
  destruct (units_in_turn ax ct s na n (Z.to_nat n) 1 (fst (views_get ax t))) as (t' & cs & A & B & C); try lia; [exact HT1|].
  assert (Hfun : forall l s0 y z, in_turn (fun p => tstep (TInsert ax p ct s na 1 1)) l s0 y ->
            in_turn (fun p => tstep (TInsert ax p ct s na 1 1)) l s0 z -> y = z).
  { clear. intros l s0 y z H. revert z. induction H as [s0|a l s0 s1 y Ea H IH|a l s0 s1 e Ea]; intros z K; inversion K; subst; try congruence.
    apply IH. congruence. }
  assert (x = (t', Ok tt)) as -> by (eapply Hfun; [exact Hx|exact A]).
  destruct Ho as [Ho1 Ho2]. destruct (o_for fuel ax (RInsert ct s na 1 1) o) as [o' r]. cbn [fst snd] in *. subst r.
  exists o', cs. split; [reflexivity|].
  assert (Hg : t_grid (fst (views_get ax t)) = o_grid o).
  { rewrite E. cbn [fst]. rewrite (proj1 HS). apply HS1. }
  rewrite Hg in B, C. rewrite (proj1 Ho2). split; [exact B|].
  assert (Hq : forall q, In q (zrange 1 (n + 1)) -> 1 <= q) by (intros q Hq; apply in_zrange in Hq; lia).
  revert Hq C. generalize (zrange 1 (n + 1)). clear - HT HT1 E. intros l Hq C.
  induction C as [|q d l cs (j & v1 & F & R & ->) C IHC]; constructor.
  - exists j, v1. split; [exact F|]. split; [|reflexivity].
    unfold reads in *. rewrite <- R. unfold view_get, sbind. rewrite E.
    assert (E' : views_get ax (fst (views_get ax t)) = (fst (views_get ax t), Ok vs)).
    { unfold views_get, sbind, sget in E |- *. destruct (t_views ax t) as [vs0|] eqn:Ev.
      - unfold sret in *. injection E as -> ->. cbn [fst]. rewrite Ev. reflexivity.
      - unfold slift, sput, sret in *. destruct (vl_refresh ax (t_grid t) []) as [vs0|]; [|discriminate].
        injection E as <- ->. cbn [fst]. rewrite t_views_set. destruct ax; reflexivity. }
    rewrite E in E'. cbn [fst] in E' |- *. rewrite E'. reflexivity.
  - apply IHC. intros q' Hq'. apply Hq. right. exact Hq'.
Qed.

(** A loop which inserts cells of two rows or more never completes: each cell adds a row, which is
    visited in turn; so the loop ends by an error, or not at all ... *)
Theorem C88_tall_never_completes : forall ax ct s na w h n o t fuel, oreachable o -> shows o t -> view_count ax t n ->
    1 <= n -> 2 <= along ax w h ->
    snd (o_for fuel ax (RInsert ct s na w h) o) <> Ok tt.
Proof.
  intros ax ct s na w h n o t fuel HR HS (vs & Evs & ->) Hn Ha.
  destruct (get_shows ax o t HR HS) as (o' & s' & vs' & E & HR' & HS' & Evs' & Ev' & _).
  assert (vs' = vs) as -> by congruence. unfold o_for, sbind at 1. rewrite E.
  eapply turns_tall; try eassumption. lia.
Qed.

(** ... and it does run for ever when all the cells start on the first row, say. *)
Theorem C88_tall_runs_for_ever : forall ax ct s na w h n o t fuel, oreachable o -> shows o t -> view_count ax t n ->
    1 <= n -> 2 <= along ax w h -> aside ax w h = 1 -> (forall c, In c (o_grid o) -> starts_at ax 1 c) ->
    snd (o_for fuel ax (RInsert ct s na w h) o) = Err EOutOfFuel.
Proof.
  intros ax ct s na w h n o t fuel HR HS (vs & Evs & ->) Hn Ha Hs Hlo.
  destruct (get_shows ax o t HR HS) as (o' & s' & vs' & E & HR' & HS' & Evs' & Ev' & Eg).
  assert (vs' = vs) as -> by congruence. unfold o_for, sbind at 1. rewrite E.
  eapply turns_for_ever; try eassumption; [lia|].
  intros c Hc. rewrite <- (proj1 HS'), Eg in Hc. specialize (Hlo c Hc). destruct ax; cbn in *; lia.
Qed.

(** The table of C87: two rows of one cell.  A cell is added to each row ... *)
Definition loop_one : rcall := RInsert (CText "new") None None 1 1.
Example C88_each_ex : adds_none Rows loop_one /\ (exists t, shows ov t /\ view_count Rows t 2) /\
  snd (o_for 3 Rows loop_one ov) = Ok tt /\
  map (fun c => (c_content c, c_box c, c_nature c)) (o_grid (fst (o_for 3 Rows loop_one ov))) =
  [(CText "a", MkBox (Coord 1 1) (Coord 1 1), None);
   (CText "new", MkBox (Coord 2 1) (Coord 2 1), None);
   (CText "b", MkBox (Coord 1 2) (Coord 1 2), None);
   (CText "new", MkBox (Coord 2 2) (Coord 2 2), Some "body"%string)].
Proof.
  split; [cbn; lia|]. split.
  - destruct (C87_refines ov ov_reachable') as (t & _ & HS). exists t. split; [exact HS|].
    pose proof (proj2 (proj2 (proj2 HS)) Rows) as H. pose proof (refs_len Rows ov t HS) as HL.
    replace (o_refs Rows ov) with (Some [0%nat; 1%nat]) in H, HL by (vm_compute; reflexivity).
    destruct (t_views Rows t) as [vs|] eqn:Ev; [|contradiction].
    replace 2 with (Z.of_nat (List.length vs)) by (rewrite <- HL; reflexivity). apply view_count_some, Ev.
  - split; vm_compute; reflexivity.
Qed.

(** ... and a table of one row, which cells of two rows make grow for ever. *)
Definition ov_one : otable := orun ov_start [OTable (TSet (at_xy 1 1) (unit_cell (CText "a") None None (Coord 1 1)))].
Example C88_tall_ex : oreachable ov_one /\ (exists t, shows ov_one t /\ view_count Rows t 1) /\
  (forall c, In c (o_grid ov_one) -> starts_at Rows 1 c) /\
  map c_box (o_grid (fst (o_for 3 Rows (RInsert (CText "new") None None 1 2) ov_one))) =
  [MkBox (Coord 1 1) (Coord 1 1); MkBox (Coord 2 1) (Coord 2 2); MkBox (Coord 1 2) (Coord 1 3); MkBox (Coord 2 3) (Coord 2 4)].
Proof.
  assert (HR : oreachable ov_one) by (unfold ov_one; apply orun_oreachable, ov_start_reachable).
  split; [exact HR|]. split.
  - destruct (C87_refines ov_one HR) as (t & _ & HS). exists t. split; [exact HS|].
    pose proof (proj2 (proj2 (proj2 HS)) Rows) as H. pose proof (refs_len Rows ov_one t HS) as HL.
    replace (o_refs Rows ov_one) with (Some [0%nat]) in H, HL by (vm_compute; reflexivity).
    destruct (t_views Rows t) as [vs|] eqn:Ev; [|contradiction].
    replace 1 with (Z.of_nat (List.length vs)) by (rewrite <- HL; reflexivity). apply view_count_some, Ev.
  - split; [|vm_compute; reflexivity].
    replace (o_grid ov_one) with [unit_cell (CText "a") None None (Coord 1 1)] by (vm_compute; reflexivity).
    intros c [<-|[]]. reflexivity.
Qed.

Print Assumptions C88_each_row_once.
Print Assumptions C88_one_cell_each.
Print Assumptions C88_tall_never_completes.
Print Assumptions C88_tall_runs_for_ever.
