(** * Theorems about the ownership of styles (C13) *)
From Verif Require Import Base M_Geometry M_Xml M_Cell M_Grid M_Heap S_Heap P_Geometry P_Grid P_Heap.

(** In every history nothing is shared... *)
Theorem C13_separate : forall h, hreachable h -> separate h.
Proof. intros h H. apply hinv_separate, hreachable_inv, H. Qed.

(** ... so an operation, successful or not, changes only the object it is directed at... *)
Theorem C13_frame : forall h o h' r, hreachable h -> hstep o h = (h', r) ->
    (forall i, exists_obj h i -> exists_obj h' i /\ (~ targets o h i -> value_of h' i = value_of h i)) /\
    (forall a, In a (h_own h) -> In a (h_own h') /\ (~ updates o a -> dict_at h' a = dict_at h a)) /\
    (forall g, exists_grid h g -> exists_grid h' g /\ (~ targets_grid o g -> grid_at h' g = grid_at h g)).
Proof.
  intros h o h' r HR E. destruct (hstep_spec o h h' r (hreachable_inv h HR) E) as [_ [F1 F2 F3 F4 F5 F6]]. auto 10.
Qed.

(** ... whatever happens to the others, for as long as one likes. *)
Theorem C13_untouched : forall ops h i, hreachable h -> exists_obj h i -> untouched ops h i ->
    value_of (hrun h ops) i = value_of h i.
Proof.
  induction ops as [|o ops IH]; intros h i HR Hi HU; [reflexivity|]. cbn. destruct HU as [HU1 HU2].
  destruct (hstep o h) as [h' r] eqn:E. cbn [fst] in *. destruct (C13_frame h o h' r HR E) as (HF & _).
  destruct (HF i Hi) as [Hi' HV]. rewrite <- (HV HU1). apply IH; auto.
  replace h' with (fst (hstep o h)) by (rewrite E; reflexivity). apply hreach_step, HR.
Qed.

(** Changing a dictionary of the caller changes no cell, row or table, even if it was given to one. *)
Theorem C13_caller_dict : forall h a f i, hreachable h -> In a (h_own h) -> exists_obj h i ->
    value_of (fst (hstep (HUpdate a f) h)) i = value_of h i.
Proof.
  intros h a f i HR Ha Hi. destruct (hstep (HUpdate a f) h) as [h' r] eqn:E.
  destruct (C13_frame h _ h' r HR E) as (HF & _). apply (HF i Hi). cbn. intros <-.
  apply (sep_own h (C13_separate h HR) i Hi), Ha.
Qed.

(** Changing the styles of an object in place is seen on this object, and nowhere else. *)
Theorem C13_one_object : forall h i f, hreachable h -> exists_obj h i ->
    let h' := fst (hstep (HUpdate (o_styles (obj_at h i)) f) h) in
    value_of h' i = MkCell (c_content (value_of h i)) (f (c_styles (value_of h i))) (c_nature (value_of h i)) (c_box (value_of h i)) /\
    (forall j, exists_obj h j -> j <> i -> value_of h' j = value_of h j) /\
    (forall a, In a (h_own h) -> dict_at h' a = dict_at h a).
Proof.
  intros h i f HR Hi h'. subst h'. pose proof (C13_separate h HR) as HS.
  destruct (hstep (HUpdate (o_styles (obj_at h i)) f) h) as [h' r] eqn:E.
  destruct (C13_frame h _ h' r HR E) as (HF & HD & _). cbn [fst]. split; [|split].
  - unfold hstep in E. cbn [refs_ok hexec] in E.
    assert (Hr : (o_styles (obj_at h i) < List.length (h_dicts h))%nat) by (apply styles_range; [apply hi_p, hreachable_inv, HR|exact Hi]).
    unfold ref_ok in E. apply Nat.ltb_lt in Hr as Hr'. rewrite Hr' in E. unfold update_dict, sbind, sget, sput in E.
    injection E as <- <-. unfold value_of, obj_at, dict_at. cbn [with_dicts h_objs h_dicts c_content c_styles c_nature c_box].
    f_equal. unfold obj_at in Hr. rewrite nth_upd_same by exact Hr. reflexivity.
  - intros j Hj Hn. apply (HF j Hj). cbn. apply (sep_styles h HS); auto.
  - intros a Ha. apply (HD a Ha). cbn. intros ->. apply (sep_own h HS i Hi), Ha.
Qed.

(** What is given is copied: the new value is the one the dictionary had. *)
Definition given (h : heap) (s : option nat) : styles := match s with None => [] | Some a => dict_at h a end.

Theorem C13_setter : forall h i s h' r, hreachable h -> refs_ok (HSetStyles i s) h = true ->
    hstep (HSetStyles i s) h = (h', r) -> r = Ok tt /\ shows h' i (given h s).
Proof.
  intros h i s h' r HR ER E. unfold hstep in E. rewrite ER in E. cbn [hexec refs_ok] in *.
  apply andb_true_iff in ER as [ER1 _]. apply ref_ok_lt in ER1.
  destruct (set_styles_spec _ _ _ _ _ (hi_p h (hreachable_inv h HR)) ER1 E) as (-> & _ & HL & _ & _ & _ & _ & _ & HV).
  split; [reflexivity|]. split; [lia|]. apply (f_equal c_styles) in HV. cbn in HV. rewrite HV. destruct s; reflexivity.
Qed.

Theorem C13_new_cell : forall h ct s na x y w hh h', hreachable h -> refs_ok (HCell ct s na x y w hh) h = true ->
    hstep (HCell ct s na x y w hh) h = (h', Ok tt) -> shows h' (List.length (h_objs h)) (given h s).
Proof.
  intros h ct s na x y w hh h' HR ER E. unfold hstep in E. rewrite ER in E. cbn [hexec] in E.
  unfold record_made, sbind, sget, sput in E. destruct (hcell_new ct s na x y w hh h) as [h1 r1] eqn:E1.
  destruct (hcell_new_spec _ _ _ _ _ _ _ _ _ _ (hi_p h (hreachable_inv h HR)) E1) as (_ & _ & HV).
  unfold cell_new in HV. destruct (box_new _); cbn in HV; [|subst r1; discriminate].
  destruct HV as (-> & HL & HV). injection E as <-. split; [cbn; lia|].
  apply (f_equal c_styles) in HV. cbn in HV. unfold dict_at, obj_at in *. cbn. rewrite HV. destruct s; reflexivity.
Qed.

Theorem C13_new_table : forall h s na h' r, hreachable h -> refs_ok (HStyled s na) h = true ->
    hstep (HStyled s na) h = (h', r) -> r = Ok tt /\ shows h' (List.length (h_objs h)) (given h s).
Proof.
  intros h s na h' r HR ER E. unfold hstep in E. rewrite ER in E. cbn [hexec] in E.
  unfold record_made, sbind, sget, sput in E. destruct (styled_new s na h) as [h1 r1] eqn:E1.
  destruct (styled_new_spec _ _ _ _ _ (hi_p h (hreachable_inv h HR)) E1) as (_ & _ & -> & HL & HV).
  injection E as <- <-. split; [reflexivity|]. split; [cbn; lia|].
  apply (f_equal c_styles) in HV. cbn in HV. unfold dict_at, obj_at in *. cbn. rewrite HV. destruct s; reflexivity.
Qed.

Theorem C13_copied_cell : forall h i co sz h', hreachable h -> refs_ok (HTransform i co sz) h = true ->
    hstep (HTransform i co sz) h = (h', Ok tt) ->
    shows h' (List.length (h_objs h)) (c_styles (value_of h i)) /\
    c_content (value_of h' (List.length (h_objs h))) = c_content (value_of h i) /\
    c_nature (value_of h' (List.length (h_objs h))) = c_nature (value_of h i).
Proof.
  intros h i co sz h' HR ER E. unfold hstep in E. rewrite ER in E. cbn [hexec] in E.
  unfold record_made, sbind, sget, sput in E. destruct (hcell_transform i co sz h) as [h1 r1] eqn:E1.
  destruct (hcell_transform_spec _ _ _ _ _ _ (hi_p h (hreachable_inv h HR)) E1) as (_ & _ & HV).
  unfold cell_transform, cell_new in HV. destruct (box_transform _ _ _); cbn [rbind] in HV; [|subst r1; discriminate].
  destruct (box_new _); cbn [rbind] in HV; [|subst r1; discriminate].
  destruct HV as (-> & HL & HV). injection E as <-.
  change (value_of (MkHeap (h_dicts h1) (h_objs h1) (h_grids h1) (h_own h1) (List.length (h_objs h) :: h_made h1)) (List.length (h_objs h)))
    with (value_of h1 (List.length (h_objs h))).
  rewrite HV. cbn. split; [|auto]. split; [cbn; lia|].
  apply (f_equal c_styles) in HV. cbn in HV. unfold dict_at, obj_at in *. cbn. rewrite HV. reflexivity.
Qed.

(** The cells a grid gets by insertion, merging or expansion are the ones of the model with values
    (so their styles are those C09, C10, C11... speak of), as objects no one else has. *)
Theorem C13_grid_refines : forall h o g p h' r g' q, hreachable h -> refs_ok o h = true ->
    targets_grid o g -> on_values o h = Some p ->
    hstep o h = (h', r) -> gstep p (grid_value h g) = (g', q) ->
    r = q /\ grid_value h' g = g'.
Proof.
  intros h o g p h' r g' q HR ER HT HO E EV. pose proof (hreachable_inv h HR) as HI. unfold hstep in E. rewrite ER in E.
  destruct o; cbn [targets_grid on_values] in *; try discriminate; injection HO as <-; subst g0; cbn [hexec refs_ok gstep] in *.
  - apply andb_true_iff in ER as [ER1 ER2]. apply ref_ok_lt in ER1, ER2.
    destruct (hgrid_setitem_spec _ _ _ _ _ _ _ _ HI ER1 ER2 E EV) as [-> HO]. split; [reflexivity|]. apply HO.
  - apply ref_ok_lt in ER. destruct (hgrid_delitem_spec _ _ _ _ _ _ _ HI ER E EV) as [-> HO]. split; [reflexivity|]. apply HO.
  - apply ref_ok_lt in ER. unfold ignore, unit_of, sbind in E, EV.
    destruct (hgrid_merge g start end_ app h) as [h1 r1] eqn:E1. destruct (grid_merge start end_ app (grid_value h g)) as [g1 q1] eqn:E2.
    destruct (hgrid_merge_spec _ _ _ _ _ _ _ _ _ HI ER E1 E2) as [HQ HO]. destruct q1 as [c|x].
    + destruct HQ as (n & -> & _). injection E as <- <-. injection EV as <- <-. split; [reflexivity|]. apply HO.
    + subst r1. injection E as <- <-. injection EV as <- <-. split; [reflexivity|]. apply HO.
  - apply ref_ok_lt in ER. unfold ignore, unit_of, sbind in E, EV.
    destruct (hgrid_expand g v w h0 app h) as [h1 r1] eqn:E1. destruct (grid_expand v w h0 app (grid_value h g)) as [g1 q1] eqn:E2.
    destruct (hgrid_expand_spec _ _ _ _ _ _ _ _ _ _ HI ER E1 E2) as [HQ HO]. destruct q1 as [c|x].
    + destruct HQ as (n & -> & _). injection E as <- <-. injection EV as <- <-. split; [reflexivity|]. apply HO.
    + subst r1. injection E as <- <-. injection EV as <- <-. split; [reflexivity|]. apply HO.
Qed.

Theorem C13_new_grid : forall h cells h' r, hreachable h -> refs_ok (HGrid cells) h = true ->
    hstep (HGrid cells) h = (h', r) ->
    match grid_new (map (value_of h) cells) with
    | Ok g => r = Ok tt /\ exists_grid h' (List.length (h_grids h)) /\ grid_value h' (List.length (h_grids h)) = g
    | Err e => r = Err e
    end.
Proof.
  intros h cells h' r HR ER E. unfold hstep in E. rewrite ER in E. cbn [hexec refs_ok] in *.
  unfold ignore, hgrid_new, sbind in E. destruct (cells_fill [] cells h) as [h1 r1] eqn:E1.
  assert (Hc : forall i, In i cells -> (i < List.length (h_objs h))%nat).
  { intros i Hi. rewrite forallb_forall in ER. apply ref_ok_lt, ER, Hi. }
  destruct (cells_fill_spec cells [] h h1 r1 (hi_p h (hreachable_inv h HR)) Hc) as (HP1 & HE1 & HV); [intros i []|exact E1|].
  assert (EG : h_grids h1 = h_grids h) by apply HE1.
  unfold grid_new. cbn [map] in HV. destruct (siter _ _ _) as [gg [u|e]].
  - destruct HV as (new & -> & -> & _). cbn [sret alloc_grid] in E. injection E as <- <-. rewrite EG.
    split; [reflexivity|]. split; [unfold exists_grid; cbn; rewrite app_length; cbn; lia|].
    unfold grid_value, grid_at. cbn [with_grids h_grids]. rewrite app_nth2, Nat.sub_diag by lia. reflexivity.
  - subst r1. injection E as <- <-. reflexivity.
Qed.

(** A history: one dictionary is given to two cells, both are put in a grid and merged there; then the
    dictionary, and the styles of the first cell, are changed. *)
Definition ex_ops : list hop :=
  [HDict [("k", SStr "v")];
   HCell (CText "a") (Some 0%nat) None 1 1 1 1; HCell (CText "b") (Some 0%nat) None 2 1 1 1;
   HGrid [0%nat; 1%nat];
   HMerge 0 (PCoord (Coord 1 1)) (PCoord (Coord 2 1)) None;
   HUpdate 0 (fun _ => [("k", SStr "caller")]);
   HUpdate 1 (fun d => dupdate d [("k", SStr "first")])]%string.
Definition ex_heap : heap := hrun heap0 ex_ops.
Lemma hrun_reachable ops : forall h, hreachable h -> hreachable (hrun h ops).
Proof. induction ops as [|o ops IH]; intros h H; [exact H|]. cbn. apply IH, hreach_step, H. Qed.

Example C13_ex_reachable : hreachable ex_heap.
Proof. apply hrun_reachable, hreach_0. Qed.
Example C13_ex_values : map (fun i => c_styles (value_of ex_heap i)) [0; 1]%nat
      = [[("k", SStr "first")]; [("k", SStr "v")]]%string /\
    map c_styles (grid_value ex_heap 0) = [[("k", SStr "v")]]%string /\
    map c_content (grid_value ex_heap 0) = [CText "ab"]%string /\ h_own ex_heap = [0%nat] /\
    dict_at ex_heap 0 = [("k", SStr "caller")]%string.
Proof. vm_compute. repeat split. Qed.
Example C13_ex_untouched : untouched [HUpdate 0 (fun _ => []); HSetContent 0 CNone; HDel 0 (PCoord (Coord 1 1))] ex_heap 1.
Proof. vm_compute. intuition discriminate. Qed.

Print Assumptions C13_separate.
Print Assumptions C13_frame.
Print Assumptions C13_untouched.
Print Assumptions C13_caller_dict.
Print Assumptions C13_one_object.
Print Assumptions C13_setter.
Print Assumptions C13_new_cell.
Print Assumptions C13_new_table.
Print Assumptions C13_copied_cell.
Print Assumptions C13_grid_refines.
Print Assumptions C13_new_grid.
