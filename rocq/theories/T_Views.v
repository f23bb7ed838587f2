(** * Theorems about the rows and columns a program keeps (C87) *)
From Verif Require Import Base M_Geometry M_Xml M_Cell M_Grid M_Table M_Views.
From Verif Require Import S_Geometry S_Cell S_Grid S_Table S_Views P_Geometry P_Cell P_Grid P_GridFacts.
From Verif Require Import P_Table P_TableStep P_TableFacts P_TableMore P_Views.

(** A table of two rows; the second row is kept (it is the object 1); its cell is deleted, which drops
    the row. *)
Definition ov_start : otable := MkO [] [] None [] None [] None.
Definition at_xy (x y : Z) : pyval := PTuple [PInt x; PInt y].
Definition ov_two : list oop :=
  [OTable (TSet (at_xy 1 1) (unit_cell (CText "a") None None (Coord 1 1)));
   OTable (TSet (at_xy 1 2) (unit_cell (CText "b") None None (Coord 1 1)));
   OSetNature Rows 1 (Some "body"%string)].
Definition ov : otable := orun ov_start ov_two.
Definition ov_del : oop := OTable (TDel (at_xy 1 2)).
Definition ov_cut : otable := orun ov [ov_del].
Lemma ov_start_reachable : oreachable ov_start.
Proof. apply (oreach_new [] None None). reflexivity. Qed.
Lemma ov_reachable h : oreachable (orun ov_start h).
Proof. apply orun_oreachable, ov_start_reachable. Qed.
Lemma ov_reachable' : oreachable ov. Proof. exact (ov_reachable ov_two). Qed.
Lemma ov_cut_reachable : oreachable ov_cut. Proof. apply (oreach_step ov ov_del), ov_reachable'. Qed.
Example ov_listed : listed Rows 1 ov /\ listed Cols 0 ov.
Proof. split; eexists; (split; [vm_compute; reflexivity|]); cbn; tauto. Qed.
Example ov_cut_unlisted : ~ listed Rows 1 ov_cut /\ listed Rows 0 ov_cut /\ once_listed Rows 1 ov_cut.
Proof.
  split; [|split].
  - intros (refs & E & H). vm_compute in E. injection E as <-. cbn in H. lia.
  - eexists. split; [vm_compute; reflexivity|]. cbn. tauto.
  - exists ov, [ov_del]. split; [exact ov_reachable'|]. split; [exact (proj1 ov_listed)|unfold ov_cut; reflexivity].
Qed.

(** ** The model of M_Table.v is right about every call made through the table *)

Theorem C87_refines : forall o, oreachable o -> exists t, treachable t /\ shows o t.
Proof. intros o HR. destruct (oreachable_rel o HR) as (t & HT & H). exists t. split; [exact HT|apply rel_shows, H]. Qed.

Theorem C87_table_calls : forall op o t, oreachable o -> shows o t ->
    same_end (ostep (OTable op) o) (tstep op t).
Proof.
  intros op o t HR HS. destruct (shows_rel o t HR HS) as [HT Hr]. destruct (otstep_rel op o t Hr) as [A B].
  split; [exact B|apply rel_shows, A].
Qed.

Example C87_refines_ex : exists t, shows ov t /\
  map (fun c => (c_content c, c_box c)) (table_iter t) =
  [(CText "a", MkBox (Coord 1 1) (Coord 1 1)); (CText "b", MkBox (Coord 1 2) (Coord 1 2))].
Proof. destruct (C87_refines ov ov_reachable') as (t & _ & H). exists t. split; [exact H|]. unfold table_iter. rewrite <- (proj1 H). vm_compute. reflexivity. Qed.

(** ** An object which is in the list is the row *)

(** [table.rows[row.row_pos] is row], and reading it changes nothing. *)
Theorem C87_same_object : forall ax r v o, oreachable o -> listed ax r o -> holds ax r o v ->
    o_view ax (v_pos v) o = (o, Ok r).
Proof.
  intros ax r v o HR Hl Hv. destruct (oreachable_facts o HR) as (t & oh & _ & Hr & Ht & _). eapply o_view_listed; eassumption.
Qed.

(** What [table.rows[p]] gives is in the list from then on, and at position [p]. *)
Theorem C87_reading_gives : forall ax p o o' r, oreachable o -> 1 <= p -> o_view ax p o = (o', Ok r) ->
    listed ax r o' /\ exists v, holds ax r o' v /\ v_pos v = p.
Proof.
  intros ax p o o' r HR Hp E. destruct (oreachable_facts o HR) as (t & oh & HT & Hr & Ht & _).
  destruct (view_sim ax p o t Hr) as (_ & _ & A). rewrite E in A. cbn [fst snd] in A.
  destruct (snd (view_get ax p t)) as [v|] eqn:Ev; [|contradiction]. cbn in A. destruct A as (Hv & Hl & _).
  split; [exact Hl|]. exists v. split; [exact Hv|]. apply (view_membership ax p t v HT Hp Ev).
Qed.

(** Its cells are those of the row now, whatever was called since it was obtained. *)
Theorem C87_cells : forall ax r v o, oreachable o -> listed ax r o -> holds ax r o v ->
    (forall c, In c (v_owned v) <-> In c (grid_iter (o_grid o)) /\ starts_at ax (v_pos v) c) /\
    (forall c, In c (v_caught v) <-> In c (grid_iter (o_grid o)) /\ spans ax (v_pos v) c).
Proof.
  intros ax r v o HR Hl Hv. destruct (oreachable_facts o HR) as (t & oh & HT & Hr & Ht & _).
  destruct (rel_listed ax r o t Hr Hl) as (vs & i & v' & E & Ei & Hv' & _).
  assert (v' = v) as -> by (unfold holds in *; congruence).
  destruct (view_get_listed ax t oh vs i v Ht E Ei) as (Eg & Hp & _).
  destruct (view_membership ax (v_pos v) t v HT) as (_ & A & B); [lia|unfold reads; rewrite Eg; reflexivity|].
  rewrite (proj1 Hr). auto.
Qed.

(** A call on the object is the call on [table.rows[position]]. *)
Theorem C87_calls_on_object : forall ax r v o t, oreachable o -> shows o t -> listed ax r o -> holds ax r o v ->
    (forall ct s na w h,
       same_end (ostep (OInsert ax r ct s na w h) o) (tstep (TInsert ax (v_pos v) ct s na w h) t)) /\
    (forall na, same_end (ostep (OSetNature ax r na) o) (tstep (TSetNature ax (v_pos v) na) t)) /\
    (forall s, same_end (ostep (OSetStyles ax r s) o) (tstep (TSetStyles ax (v_pos v) s) t)) /\
    (forall s, same_end (ostep (OUpdateStyles ax r s) o) (tstep (TUpdateStyles ax (v_pos v) s) t)).
Proof.
  intros ax r v o t HR HS Hl Hv. destruct (shows_rel o t HR HS) as [HT Hr]. destruct (treachable_tinv t HT) as (oh & Ht).
  assert (Hm : forall f, same_end (o_modify ax r f o) (view_modify ax (v_pos v) f t)).
  { intros f. destruct (modify_listed ax r v f o t oh Hr Ht Hl Hv) as (A & B & C). split; [congruence|apply rel_shows, A]. }
  split; [|split; [intros; apply Hm|split; intros; apply Hm]].
  intros ct s na w h. cbn [ostep tstep].
  pose proof (otstep_rel (TInsert ax (v_pos v) ct s na w h) o t Hr) as [A B]. cbn [otstep tstep] in A, B.
  unfold sbind in A, B. rewrite (o_view_listed ax r v o t oh Hr Ht Hl Hv) in A, B.
  split; [exact B|apply rel_shows, A].
Qed.

Example C87_object_ex : exists v, holds Rows 1 ov v /\ v_pos v = 2 /\ v_nature v = Some "body"%string /\
  map c_content (v_owned v) = [CText "b"].
Proof. eexists. split; [vm_compute; reflexivity|]. repeat split; vm_compute; reflexivity. Qed.

(** ** How long it stays *)

(** Only a successful deletion, merge, expansion or pop drops an object, and exactly when its position
    is beyond the last row (column) of the table after the call; it then keeps the cells it had. *)
Theorem C87_stays : forall op ax r v o o' t' res, oreachable o -> listed ax r o -> holds ax r o v ->
    ostep op o = (o', res) -> shows o' t' ->
    (drops op = false \/ res <> Ok tt -> listed ax r o') /\
    (drops op = true -> res = Ok tt -> forall n, last_pos ax t' n ->
       (listed ax r o' <-> v_pos v <= n) /\ (~ listed ax r o' -> holds ax r o' v)).
Proof.
  intros op ax r v o o' t' res HR Hl Hv E HS'. destruct (oreachable_facts o HR) as (t & oh & HT & Hr & Ht & _).
  assert (HR' : oreachable o') by (replace o' with (fst (ostep op o)) by (rewrite E; reflexivity); apply oreach_step, HR).
  destruct (shows_rel o' t' HR' HS') as [HT' Hr']. destruct (treachable_tinv t' HT') as (oh' & Ht').
  assert (HV' : all_valid (t_grid t')) by apply Ht'.
  split.
  - intros Hd. replace o' with (fst (ostep op o)) by (rewrite E; reflexivity).
    destruct res as [[]|e].
    + destruct Hd as [Hd|Hd]; [|congruence]. eapply (ostep_keeps op o t oh ax r EKeyError); eauto.
    + eapply (ostep_keeps op o t oh ax r e); eauto. right. rewrite E. reflexivity.
  - intros Hd -> n Hn. pose proof (ostep_drops op o t oh ax r v n t' Hr Ht Hd) as H. rewrite E in H. cbn [fst snd] in H.
    apply H; auto.
Qed.

(** An object which left the list, or never was in it, never comes back, and its cells never change;
    nor do its attributes, unless they are set on the object. *)
Theorem C87_dropped_for_ever : forall ax r v o h, oreachable o -> ~ listed ax r o -> holds ax r o v ->
    ~ listed ax r (orun o h) /\
    (exists v', holds ax r (orun o h) v' /\ same_cells v v') /\
    (Forall (fun op => ~ sets_object ax r op) h -> holds ax r (orun o h) v).
Proof.
  intros ax r v o h HR Hn Hv. induction h as [|op h (IHn & (v1 & Hv1 & S1) & IHf)] using rev_ind.
  - split; [exact Hn|]. split; [exists v; split; [exact Hv|repeat split]|auto].
  - rewrite orun_app. destruct (oreachable_facts _ (orun_oreachable o h HR)) as (t & oh & HT & Hr & _).
    destruct (ostep_tame op (orun o h) t Hr ax r v1 Hv1) as (v2 & Hv2 & _ & N). destruct (N IHn) as [Hn2 S2].
    split; [exact Hn2|]. split.
    + exists v2. split; [exact Hv2|].
      destruct S1 as (A1 & A2 & A3), S2 as (B1 & B2 & B3). repeat split; congruence.
    + intros HF. apply Forall_app in HF as [HF1 HF2]. inversion HF2; subst.
      eapply ostep_frozen; [exact Hr|exact IHn|apply IHf, HF1|assumption].
Qed.

(** No object changes its position, and the attributes only change by setting them. *)
Theorem C87_attributes : forall op ax r v o, oreachable o -> holds ax r o v ->
    exists v', holds ax r (fst (ostep op o)) v' /\ v_pos v' = v_pos v /\
               (sets_some_attribute op = false -> same_attributes v v').
Proof.
  intros op ax r v o HR Hv. destruct (oreachable_facts o HR) as (t & oh & HT & Hr & _).
  destruct (ostep_tame op o t Hr ax r v Hv) as (v' & Hv' & Hp & _). exists v'. split; [exact Hv'|]. split; [exact Hp|].
  intros Hs. destruct (evO_holds o _ ax r v (ostep_evO op o t Hr Hs) Hv) as (v2 & Hv2 & A & _).
  assert (v2 = v') as -> by (unfold holds in *; congruence). exact A.
Qed.

Example C87_stays_ex : drops ov_del = true /\ snd (ostep ov_del ov) = Ok tt /\ ~ listed Rows 1 ov_cut /\ listed Rows 0 ov_cut.
Proof. split; [reflexivity|]. split; [vm_compute; reflexivity|]. split; [exact (proj1 ov_cut_unlisted)|exact (proj1 (proj2 ov_cut_unlisted))]. Qed.

(** ** Calls on an object which was dropped *)

(** Setting its attributes does not touch the table. *)
Theorem C87_dropped_attributes : forall ax r v o t, oreachable o -> shows o t -> ~ listed ax r o -> holds ax r o v ->
    (forall na, snd (ostep (OSetNature ax r na) o) = Ok tt /\ shows (fst (ostep (OSetNature ax r na) o)) t) /\
    (forall s, snd (ostep (OSetStyles ax r s) o) = Ok tt /\ shows (fst (ostep (OSetStyles ax r s) o)) t) /\
    (forall s, snd (ostep (OUpdateStyles ax r s) o) = Ok tt /\ shows (fst (ostep (OUpdateStyles ax r s) o)) t).
Proof.
  intros ax r v o t HR HS Hn Hv. destruct (shows_rel o t HR HS) as [HT Hr].
  assert (Hm : forall f, snd (o_modify ax r f o) = Ok tt /\ shows (fst (o_modify ax r f o)) t).
  { intros f. rewrite (modify_eq ax r f o v Hv). split; [reflexivity|]. apply rel_shows, modify_dropped; assumption. }
  split; [intros; apply Hm|split; intros; apply Hm].
Qed.

(** [insert_cell] on any object the program got: the new cell goes to the first place of its position
    which is free of the cells the object lists. *)
Theorem C87_insert_on_object : forall ax r v ct s na w h o t, once_listed ax r o -> holds ax r o v -> shows o t ->
    1 <= w -> 1 <= h ->
    exists i na', first_free ax (v_pos v) i (v_caught v) /\
      (forall n, na = Some n -> na' = na) /\ (na = None -> na' = v_nature v) /\
      same_end (ostep (OInsert ax r ct s na w h) o)
        (tstep (TSet (PCoord (place ax (v_pos v) i))
                  (MkCell ct (match s with Some s => s | None => [] end) na' (seat ax (v_pos v) i w h))) t).
Proof.
  intros ax r v ct s na w h o t Ho Hv HS Hw Hh. pose proof Ho as (o0 & hist & HR0 & _ & Eo).
  assert (HR : oreachable o) by (rewrite <- Eo; apply orun_oreachable, HR0).
  destruct (shows_rel o t HR HS) as [HT Hr].
  destruct (once_sound ax r o Ho) as (v' & Hv' & Hs & Hp). assert (v' = v) as -> by (unfold holds in *; congruence).
  destruct (insert_place ax r v ct s na w h o t Hr Hv Hs Hp Hw Hh) as (i & Hi & A & B).
  exists i, (inherit na (v_nature v)). split; [exact Hi|]. split; [intros n ->; reflexivity|]. split; [intros ->; reflexivity|].
  split; [exact B|apply rel_shows, A].
Qed.

(** Full claim: a row which was kept always inserts at the first free place of its row.  After it was
    dropped it does not: the place (1, 2) is free, and the cell is put at (2, 2) ... *)
Theorem C87_dropped_insert_refuted : exists ax r v o o' c, once_listed ax r o /\ holds ax r o v /\
    first_free ax (v_pos v) 1 (o_grid o) /\
    ostep (OInsert ax r (CText "new") None None 1 1) o = (o', Ok tt) /\
    In c (o_grid o') /\ c_content c = CText "new" /\ c_box c = MkBox (Coord 2 2) (Coord 2 2).
Proof.
  exists Rows, 1%nat. do 4 eexists. split; [exact (proj2 (proj2 ov_cut_unlisted))|]. split; [vm_compute; reflexivity|].
  split; [|split; [vm_compute; reflexivity|split; [cbn; right; left; reflexivity|split; reflexivity]]].
  split; [lia|]. split; [|lia]. intros d Hd Hc.
  replace (o_grid ov_cut) with [unit_cell (CText "a") None None (Coord 1 1)] in Hd by (vm_compute; reflexivity).
  destruct Hd as [<-|[]]. unfold covers in Hc. cbn in Hc. lia.
Qed.

(** ... and with a free place at hand it may fail, or miss the cells added since. *)
Theorem C87_dropped_insert_fails_refuted : exists ax r v o i, once_listed ax r o /\ holds ax r o v /\
    first_free ax (v_pos v) i (o_grid o) /\
    snd (ostep (OInsert ax r (CText "new") None None 1 1) o) = Err EKeyError.
Proof.
  set (o := orun ov_cut [OTable (TSet (at_xy 2 2) (unit_cell (CText "c") None None (Coord 1 1)))]).
  exists Rows, 1%nat. eexists. exists o, 1. split; [|split; [vm_compute; reflexivity|]].
  - exists ov, [ov_del; OTable (TSet (at_xy 2 2) (unit_cell (CText "c") None None (Coord 1 1)))].
    split; [exact ov_reachable'|]. split; [exact (proj1 ov_listed)|unfold o, ov_cut, orun; cbn [fold_left]; reflexivity].
  - split; [|vm_compute; reflexivity]. split; [lia|]. split; [|lia]. intros d Hd Hc.
    replace (o_grid o) with [unit_cell (CText "a") None None (Coord 1 1); unit_cell (CText "c") None None (Coord 2 2)] in Hd by (vm_compute; reflexivity).
    destruct Hd as [<-|[<-|[]]]; unfold covers in Hc; cbn in Hc; lia.
Qed.

Example C87_dropped_ex : exists v, holds Rows 1 ov_cut v /\ map c_content (v_caught v) = [CText "b"] /\
  ~ listed Rows 1 ov_cut /\ map c_content (o_grid ov_cut) = [CText "a"].
Proof. eexists. split; [vm_compute; reflexivity|]. split; [vm_compute; reflexivity|]. split; [exact (proj1 ov_cut_unlisted)|vm_compute; reflexivity]. Qed.

Print Assumptions C87_refines.
Print Assumptions C87_table_calls.
Print Assumptions C87_same_object.
Print Assumptions C87_reading_gives.
Print Assumptions C87_cells.
Print Assumptions C87_calls_on_object.
Print Assumptions C87_stays.
Print Assumptions C87_dropped_for_ever.
Print Assumptions C87_attributes.
Print Assumptions C87_dropped_attributes.
Print Assumptions C87_insert_on_object.
Print Assumptions C87_dropped_insert_refuted.
Print Assumptions C87_dropped_insert_fails_refuted.
