(** * Proofs about the ownership of styles *)
From Verif Require Import Base M_Geometry M_Xml M_Cell M_Grid M_Heap S_Heap P_Geometry P_Grid.

(** ** Lists *)
Lemma upd_nth_length {A} (l : list A) n f : List.length (upd_nth l n f) = List.length l.
Proof. revert n. induction l; intros [|n]; cbn; auto. Qed.
Lemma nth_upd_same {A} (l : list A) n f d : (n < List.length l)%nat -> nth n (upd_nth l n f) d = f (nth n l d).
Proof. revert n. induction l; intros [|n] H; cbn in *; auto; try lia. apply IHl. lia. Qed.
Lemma nth_upd_other {A} (l : list A) n m f d : m <> n -> nth m (upd_nth l n f) d = nth m l d.
Proof. revert n m. induction l; intros [|n] [|m] H; cbn in *; auto; congruence. Qed.
Lemma map_upd_same {A B} (g : A -> B) (l : list A) n f : (forall a, g (f a) = g a) -> map g (upd_nth l n f) = map g l.
Proof. intros H. revert n. induction l; intros [|n]; cbn; auto; congruence. Qed.
Lemma map_insert_at {A B} (f : A -> B) l n a : map f (insert_at l n a) = insert_at (map f l) n (f a).
Proof. unfold insert_at. rewrite map_app. cbn. rewrite firstn_map, skipn_map. reflexivity. Qed.
Lemma insert_at_perm {A} (l : list A) n a : Permutation (insert_at l n a) (a :: l).
Proof. unfold insert_at. rewrite <- Permutation_middle. rewrite firstn_skipn. reflexivity. Qed.

Lemma nodup_app_l {A} (l k : list A) : NoDup (l ++ k) -> NoDup l.
Proof.
  induction l; cbn; intros H; [constructor|]. inversion H; subst. constructor; auto.
  intros Hx. apply H2, in_app_iff. auto.
Qed.
Lemma NoDup_app_inv {A} (l k : list A) : NoDup (l ++ k) -> NoDup l /\ NoDup k /\ (forall x, In x l -> ~ In x k).
Proof.
  induction l; cbn; intros H; [split; [constructor|]; auto|]. inversion H; subst. destruct (IHl H3) as (H4 & H5 & H6).
  rewrite in_app_iff in H2. split; [constructor; tauto|]. split; [exact H5|]. intros x [<-|Hx]; [tauto|auto].
Qed.
Lemma upd_nth_twice {A} (l : list A) n (x y : A) : upd_nth (upd_nth l n (fun _ => x)) n (fun _ => y) = upd_nth l n (fun _ => y).
Proof. revert n. induction l; intros [|n]; cbn; auto. rewrite IHl. reflexivity. Qed.

(** ** Invariant *)

Record pinv (h : heap) : Prop := {
  pi_nodup : NoDup (map o_styles (h_objs h));
  pi_range : forall a, In a (map o_styles (h_objs h)) -> (a < List.length (h_dicts h))%nat;
  pi_own : forall a, In a (map o_styles (h_objs h)) -> ~ In a (h_own h);
  pi_own_range : forall a, In a (h_own h) -> (a < List.length (h_dicts h))%nat;
  pi_made_range : forall i, In i (h_made h) -> (i < List.length (h_objs h))%nat
}.
Record hinv (h : heap) : Prop := {
  hi_p : pinv h;
  hi_cells : NoDup (List.concat (h_grids h));
  hi_range : forall i, In i (List.concat (h_grids h)) -> (i < List.length (h_objs h))%nat;
  hi_made : forall i, In i (List.concat (h_grids h)) -> ~ In i (h_made h)
}.

Lemma obj_styles_in h i : (i < List.length (h_objs h))%nat -> In (o_styles (obj_at h i)) (map o_styles (h_objs h)).
Proof. intros H. apply in_map, nth_In, H. Qed.
Lemma styles_range h i : pinv h -> (i < List.length (h_objs h))%nat -> (o_styles (obj_at h i) < List.length (h_dicts h))%nat.
Proof. intros HP H. apply (pi_range h HP), obj_styles_in, H. Qed.
Lemma styles_inj h i j : pinv h -> (i < List.length (h_objs h))%nat -> (j < List.length (h_objs h))%nat ->
  o_styles (obj_at h i) = o_styles (obj_at h j) -> i = j.
Proof.
  intros HP Hi Hj E. pose proof (pi_nodup h HP) as HN. rewrite (NoDup_nth _ 0%nat) in HN.
  apply HN; rewrite ?map_length; auto.
  change 0%nat with (o_styles obj0). rewrite !map_nth. exact E.
Qed.

(** [h'] has more dictionaries and objects, the rest is the same *)
Definition ext (h h' : heap) : Prop :=
  (exists ds, h_dicts h' = h_dicts h ++ ds) /\ (exists os, h_objs h' = h_objs h ++ os) /\
  h_grids h' = h_grids h /\ h_own h' = h_own h /\ h_made h' = h_made h.

Lemma ext_refl h : ext h h.
Proof. repeat split; try (exists []; rewrite app_nil_r; reflexivity); reflexivity. Qed.
Lemma ext_trans h h' h'' : ext h h' -> ext h' h'' -> ext h h''.
Proof.
  intros ((ds & E1) & (os & E2) & E3 & E4 & E5) ((ds' & F1) & (os' & F2) & F3 & F4 & F5).
  split; [exists (ds ++ ds'); rewrite F1, E1, app_assoc; reflexivity|].
  split; [exists (os ++ os'); rewrite F2, E2, app_assoc; reflexivity|].
  repeat split; congruence.
Qed.
Lemma ext_objs h h' : ext h h' -> (List.length (h_objs h) <= List.length (h_objs h'))%nat.
Proof. intros (_ & (os & E) & _). rewrite E, app_length. lia. Qed.
Lemma ext_dict h h' a : ext h h' -> (a < List.length (h_dicts h))%nat -> dict_at h' a = dict_at h a.
Proof. intros ((ds & E) & _) H. unfold dict_at. rewrite E. apply app_nth1, H. Qed.
Lemma ext_obj h h' i : ext h h' -> (i < List.length (h_objs h))%nat -> obj_at h' i = obj_at h i.
Proof. intros (_ & (os & E) & _) H. unfold obj_at. rewrite E. apply app_nth1, H. Qed.
Lemma ext_value h h' i : pinv h -> ext h h' -> (i < List.length (h_objs h))%nat -> value_of h' i = value_of h i.
Proof.
  intros HP HE H. unfold value_of. rewrite (ext_obj h h' i HE H). rewrite (ext_dict h h' _ HE); [reflexivity|].
  apply styles_range; auto.
Qed.
Lemma ext_values h h' ids : pinv h -> ext h h' -> (forall i, In i ids -> (i < List.length (h_objs h))%nat) ->
  map (value_of h') ids = map (value_of h) ids.
Proof. intros HP HE H. apply map_ext_in. intros i Hi. apply ext_value; auto. Qed.

Lemma alloc_dict_ext d h : pinv h -> ext h (fst (alloc_dict d h)) /\ pinv (fst (alloc_dict d h)).
Proof.
  intros HP. cbn. split.
  - split; [exists [d]; reflexivity|]. split; [exists []; rewrite app_nil_r; reflexivity|]. auto.
  - destruct HP as [P1 P2 P3 P4 P5]. constructor; cbn; auto; intros a Ha; rewrite app_length.
    + specialize (P2 a Ha). lia.
    + specialize (P4 a Ha). lia.
Qed.

Lemma alloc_obj_ext o h : pinv h -> ~ In (o_styles o) (map o_styles (h_objs h)) ->
  (o_styles o < List.length (h_dicts h))%nat -> ~ In (o_styles o) (h_own h) ->
  ext h (fst (alloc_obj o h)) /\ pinv (fst (alloc_obj o h)).
Proof.
  intros HP H1 H2 H3. cbn. split.
  - split; [exists []; rewrite app_nil_r; reflexivity|]. split; [exists [o]; reflexivity|]. auto.
  - destruct HP as [P1 P2 P3 P4 P5]. constructor; cbn.
    + rewrite map_app. cbn. apply (Permutation_NoDup (Permutation_cons_append _ _)). constructor; auto.
    + intros a. rewrite map_app, in_app_iff. intros [Ha|[<-|[]]]; auto.
    + intros a. rewrite map_app, in_app_iff. intros [Ha|[<-|[]]]; auto.
    + exact P4.
    + intros i Hi. rewrite app_length. specialize (P5 i Hi). lia.
Qed.

Definition read_opt (h : heap) (s : option nat) : option styles := option_map (dict_at h) s.

Lemma hcell_new_spec ct s na x y w hh h h' r :
  pinv h -> hcell_new ct s na x y w hh h = (h', r) ->
  pinv h' /\ ext h h' /\
  match cell_new ct (read_opt h s) na x y w hh with
  | Ok c => r = Ok (List.length (h_objs h)) /\ List.length (h_objs h') = S (List.length (h_objs h)) /\
            value_of h' (List.length (h_objs h)) = c
  | Err e => r = Err e
  end.
Proof.
  intros HP. unfold hcell_new, copy_styles, cell_new.
  cbn [sbind sget alloc_dict slift]. destruct (alloc_dict_ext (match s with None => [] | Some a => dict_at h a end) h HP) as [HE1 HP1].
  cbn [fst alloc_dict] in HE1, HP1.
  set (h1 := with_dicts h _) in *.
  destruct (box_new _) as [b|e]; cbn [rbind].
  - set (o := MkObj ct (List.length (h_dicts h)) na b).
    assert (Hfresh : forall a, In a (map o_styles (h_objs h)) -> (a < List.length (h_dicts h))%nat) by apply HP.
    destruct (alloc_obj_ext o h1 HP1) as [HE2 HP2].
    + cbn. intros Hin. apply Hfresh in Hin. lia.
    + cbn. rewrite app_length. cbn. lia.
    + cbn. intros Hin. apply (pi_own_range h HP) in Hin. lia.
    + intros E. unfold alloc_obj in E. injection E as <- <-. cbn [fst alloc_obj] in HE2, HP2.
      split; [exact HP2|]. split; [eapply ext_trans; eassumption|]. split; [reflexivity|].
      split; [cbn; rewrite app_length; cbn; lia|].
      unfold value_of, obj_at, dict_at. cbn [with_objs h_objs h_dicts h1 with_dicts].
      rewrite app_nth2, Nat.sub_diag by lia. cbn [nth o o_content o_styles o_nature o_box].
      rewrite app_nth2, Nat.sub_diag by lia. cbn [nth]. destruct s; reflexivity.
  - intros [= <- <-]. auto.
Qed.

Lemma hcell_transform_spec i co sz h h' r :
  pinv h -> hcell_transform i co sz h = (h', r) ->
  pinv h' /\ ext h h' /\
  match cell_transform (value_of h i) co sz with
  | Ok c => r = Ok (List.length (h_objs h)) /\ List.length (h_objs h') = S (List.length (h_objs h)) /\
            value_of h' (List.length (h_objs h)) = c
  | Err e => r = Err e
  end.
Proof.
  intros HP. unfold hcell_transform, cell_transform. cbn [sbind sget slift value_of c_box c_content c_styles c_nature].
  destruct (box_transform _ _ _) as [b|e]; cbn [rbind].
  - intros E. apply (hcell_new_spec _ _ _ _ _ _ _ _ _ _ HP E).
  - intros [= <- <-]. split; [exact HP|]. split; [apply ext_refl|]. reflexivity.
Qed.

Lemma boxes_value h ids : boxes_at h ids = map c_box (map (value_of h) ids).
Proof. unfold boxes_at. rewrite map_map. reflexivity. Qed.

Lemma insert_sorted_spec h ids n g' r :
  grid_insert_sorted (value_of h n) (map (value_of h) ids) = (g', r) ->
  match r with
  | Ok _ => exists k, insert_sorted h ids n = Ok (insert_at ids k n) /\ g' = map (value_of h) (insert_at ids k n)
  | Err e => insert_sorted h ids n = Err e /\ g' = map (value_of h) ids
  end.
Proof.
  unfold grid_insert_sorted, insert_sorted. cbn [sbind sget slift]. rewrite boxes_value.
  change (o_box (obj_at h n)) with (c_box (value_of h n)).
  destruct (box_new _) as [b|e]; cbn [rbind]; [|intros [= <- <-]; auto].
  destruct (bisect_left _ b) as [k|e]; cbn [rbind]; [|intros [= <- <-]; auto].
  unfold sput. intros [= <- <-]. exists k. split; [reflexivity|]. rewrite map_insert_at. reflexivity.
Qed.

Lemma cells_setitem_spec ids v i h h' r g' q :
  pinv h -> (forall j, In j ids -> (j < List.length (h_objs h))%nat) ->
  cells_setitem ids v i h = (h', r) ->
  grid_setitem v (value_of h i) (map (value_of h) ids) = (g', q) ->
  pinv h' /\ ext h h' /\
  match q with
  | Ok _ => exists k, r = Ok (insert_at ids k (List.length (h_objs h))) /\
               List.length (h_objs h') = S (List.length (h_objs h)) /\
               g' = map (value_of h') (insert_at ids k (List.length (h_objs h)))
  | Err e => r = Err e /\ g' = map (value_of h') ids
  end.
Proof.
  intros HP Hr. unfold cells_setitem, grid_setitem. cbn [sbind slift sget].
  destruct (coord_from_value v) as [c|e]; [|intros [= <- <-] [= <- <-]; auto using ext_refl].
  destruct (hcell_transform i (Some (PCoord c)) None h) as [h1 r1] eqn:E1.
  destruct (hcell_transform_spec _ _ _ _ _ _ HP E1) as (HP1 & HE1 & HV).
  unfold cell_move_to. destruct (cell_transform (value_of h i) (Some (PCoord c)) None) as [n|e].
  - destruct HV as (-> & HL & HV). set (m := List.length (h_objs h)) in *.
    assert (Ex : existsb (fun j => box_intersect (o_box (obj_at h1 j)) (o_box (obj_at h1 m))) ids
               = existsb (fun cell => box_intersect (c_box cell) (c_box n)) (map (value_of h) ids)).
    { rewrite <- HV. rewrite <- (ext_values h h1 ids HP HE1 Hr). clear. induction ids as [|j l IH]; [reflexivity|]. cbn. rewrite IH. reflexivity. }
    unfold sbind, sget, slift. rewrite E1. cbv beta iota. rewrite Ex. destruct (existsb _ (map (value_of h) ids)).
    + intros [= <- <-] [= <- <-]. split; [exact HP1|]. split; [exact HE1|]. split; [reflexivity|].
      symmetry. apply ext_values; auto.
    + intros [= <- <-] EG. split; [exact HP1|]. split; [exact HE1|].
      rewrite <- (ext_values h h1 ids HP HE1 Hr), <- HV in EG. apply insert_sorted_spec in EG.
      destruct q as [u|e].
      * destruct EG as (k & EI & ->). exists k. auto.
      * destruct EG as [EI ->]. auto.
  - subst r1. unfold sbind. rewrite E1. intros [= <- <-] [= <- <-]. split; [exact HP1|]. split; [exact HE1|]. split; [reflexivity|].
    symmetry. apply ext_values; auto.
Qed.

(** ** Changing one object *)

Definition only (n : nat) (h h' : heap) : Prop :=
  List.length (h_dicts h') = List.length (h_dicts h) /\
  map o_styles (h_objs h') = map o_styles (h_objs h) /\
  map o_box (h_objs h') = map o_box (h_objs h) /\
  h_grids h' = h_grids h /\ h_own h' = h_own h /\ h_made h' = h_made h /\
  (forall i, i <> n -> (i < List.length (h_objs h))%nat -> value_of h' i = value_of h i) /\
  (forall a, In a (h_own h) -> dict_at h' a = dict_at h a).

Lemma only_objs n h h' : only n h h' -> List.length (h_objs h') = List.length (h_objs h).
Proof. intros (_ & E & _). apply (f_equal (@List.length nat)) in E. rewrite !map_length in E. exact E. Qed.
Lemma only_pinv n h h' : only n h h' -> pinv h -> pinv h'.
Proof.
  intros HO HP. pose proof (only_objs n h h' HO) as HL. destruct HO as (E1 & E2 & _ & E3 & E4 & E5 & _). destruct HP as [P1 P2 P3 P4 P5].
  constructor; rewrite ?E2, ?E4, ?E5, ?E1, ?HL; auto.
Qed.
Lemma only_refl n h : only n h h.
Proof. repeat split; auto. Qed.
Lemma only_trans n h h' h'' : only n h h' -> only n h' h'' -> only n h h''.
Proof.
  intros H1 H2. pose proof (only_objs _ _ _ H1) as HL.
  destruct H1 as (E1 & E2 & E3 & E4 & E5 & E6 & E7 & E8). destruct H2 as (F1 & F2 & F3 & F4 & F5 & F6 & F7 & F8).
  split; [congruence|]. split; [congruence|]. split; [congruence|]. split; [congruence|]. split; [congruence|]. split; [congruence|].
  split.
  - intros i Hn Hi. rewrite F7 by (auto; lia). apply E7; auto.
  - intros a Ha. rewrite F8 by (rewrite E5; exact Ha). apply E8, Ha.
Qed.

Lemma only_objchange n f h :
  (forall o, o_styles (f o) = o_styles o) -> (forall o, o_box (f o) = o_box o) ->
  only n h (with_objs h (upd_nth (h_objs h) n f)).
Proof.
  intros H1 H2. split; [reflexivity|]. cbn. split; [apply map_upd_same, H1|]. split; [apply map_upd_same, H2|].
  split; [reflexivity|]. split; [reflexivity|]. split; [reflexivity|]. split.
  - intros i Hn Hi. unfold value_of, obj_at, dict_at. cbn [with_objs h_objs h_dicts].
    rewrite !nth_upd_other by exact Hn. reflexivity.
  - reflexivity.
Qed.

Lemma only_dictchange n f h :
  pinv h -> (n < List.length (h_objs h))%nat ->
  only n h (with_dicts h (upd_nth (h_dicts h) (o_styles (obj_at h n)) f)).
Proof.
  intros HP Hn. split; [apply upd_nth_length|]. cbn. split; [reflexivity|]. split; [reflexivity|].
  split; [reflexivity|]. split; [reflexivity|]. split; [reflexivity|]. split.
  - intros i Hi Hl. unfold value_of, dict_at, obj_at. cbn [with_dicts h_objs h_dicts]. f_equal.
    apply nth_upd_other. intros E. apply Hi. apply (styles_inj h); auto.
  - intros a Ha. apply nth_upd_other. intros ->. apply (pi_own h HP (o_styles (obj_at h n))); [apply obj_styles_in, Hn|exact Ha].
Qed.

Lemma absorb_spec app n : forall ids h h' r,
  pinv h -> (n < List.length (h_objs h))%nat -> (forall i, In i ids -> (i < List.length (h_objs h))%nat /\ i <> n) ->
  absorb app n ids h = (h', r) ->
  only n h h' /\
  match merge_cells app (value_of h n) (map (value_of h) ids) with
  | Ok c => r = Ok tt /\ value_of h' n = c
  | Err e => r = Err e
  end.
Proof.
  induction ids as [|i ids IH]; intros h h' r HP Hn Hids; cbn [absorb map merge_cells].
  - intros [= <- <-]. split; [apply only_refl|]. auto.
  - cbn [sbind sget slift value_of c_content].
    destruct (merge_content app _ _) as [ct|e]; cbn [rbind].
    2:{ intros [= <- <-]. split; [apply only_refl|reflexivity]. }
    unfold set_content, update_dict. cbn [sbind sget sput].
    set (f := fun o => MkObj ct (o_styles o) (o_nature o) (o_box o)).
    set (h1 := with_objs h (upd_nth (h_objs h) n f)).
    assert (O1 : only n h h1) by (apply only_objchange; reflexivity).
    assert (HP1 := only_pinv _ _ _ O1 HP). pose proof (only_objs _ _ _ O1) as L1.
    assert (Hs : o_styles (obj_at h1 n) = o_styles (obj_at h n)).
    { unfold obj_at, h1. cbn. rewrite nth_upd_same by exact Hn. reflexivity. }
    set (u := fun d => dupdate d (dict_at h (o_styles (obj_at h i)))).
    set (h2 := with_dicts h1 (upd_nth (h_dicts h1) (o_styles (obj_at h n)) u)).
    assert (O2 : only n h1 h2) by (unfold h2; rewrite <- Hs; apply only_dictchange; [exact HP1|lia]).
    assert (O12 := only_trans _ _ _ _ O1 O2). assert (HP2 := only_pinv _ _ _ O12 HP). pose proof (only_objs _ _ _ O12) as L2.
    intros EA. destruct (IH h2 h' r HP2) as [O3 HV]; [lia|intros j Hj; rewrite L2; apply Hids; right; exact Hj|exact EA|].
    split; [eapply only_trans; eassumption|].
    assert (Ev : value_of h2 n = MkCell ct (dupdate (c_styles (value_of h n)) (c_styles (value_of h i))) (c_nature (value_of h n)) (c_box (value_of h n))).
    { unfold value_of at 1. unfold obj_at, h2, h1, dict_at. cbn [with_dicts with_objs h_objs h_dicts].
      rewrite nth_upd_same by exact Hn. fold (obj_at h n). cbn [f o_content o_styles o_nature o_box].
      rewrite nth_upd_same by (apply styles_range; auto). reflexivity. }
    assert (El : map (value_of h2) ids = map (value_of h) ids).
    { apply map_ext_in. intros j Hj. destruct (Hids j (or_intror Hj)) as [Hj1 Hj2].
      destruct O12 as (_ & _ & _ & _ & _ & _ & HF & _). apply HF; auto. }
    rewrite Ev, El in HV. exact HV.
Qed.

(** ** Grids *)

Lemma split_ids_spec h b ids :
  match split_ids h b ids with
  | Ok (m, u) => merge_split b (map (value_of h) ids) = Ok (map (value_of h) m, map (value_of h) u) /\
                 Permutation ids (m ++ u)
  | Err e => merge_split b (map (value_of h) ids) = Err e
  end.
Proof.
  induction ids as [|i ids IH]; cbn; [auto|].
  destruct (box_has_box b (o_box (obj_at h i))).
  - destruct (split_ids h b ids) as [[m u]|e]; cbn.
    + destruct IH as [-> HPm]. cbn. split; [reflexivity|]. apply perm_skip, HPm.
    + rewrite IH. reflexivity.
  - destruct (box_intersect (o_box (obj_at h i)) b); [reflexivity|].
    destruct (split_ids h b ids) as [[m u]|e]; cbn.
    + destruct IH as [-> HPm]. cbn. split; [reflexivity|]. apply Permutation_cons_app, HPm.
    + rewrite IH. reflexivity.
Qed.

Lemma find_covering_spec h c ids :
  match find_covering h ids c with
  | Ok i => grid_getitem_c (map (value_of h) ids) c = Ok (value_of h i)
  | Err e => grid_getitem_c (map (value_of h) ids) c = Err e
  end.
Proof.
  induction ids as [|i ids IH]; cbn; [reflexivity|].
  destruct (box_has (o_box (obj_at h i)) c); [reflexivity|]. exact IH.
Qed.

Lemma del_covering_spec h c ids :
  match del_covering h ids c with
  | Some l => remove_first_covering (map (value_of h) ids) c = Some (map (value_of h) l) /\
              exists i, Permutation ids (i :: l)
  | None => remove_first_covering (map (value_of h) ids) c = None
  end.
Proof.
  induction ids as [|i ids IH]; cbn; [reflexivity|].
  destruct (box_has (o_box (obj_at h i)) c); [split; [reflexivity|]; exists i; reflexivity|].
  destruct (del_covering h ids c) as [l|].
  - destruct IH as [-> [j Hj]]. split; [reflexivity|]. exists j. rewrite Hj. apply perm_swap.
  - rewrite IH. reflexivity.
Qed.

Lemma grid_sub h g i : In i (grid_at h g) -> In i (List.concat (h_grids h)).
Proof.
  unfold grid_at. intros H. apply in_concat. exists (nth g (h_grids h) []). split; [|exact H].
  destruct (Nat.lt_ge_cases g (List.length (h_grids h))) as [L|L]; [apply nth_In, L|].
  rewrite nth_overflow in H by exact L. destruct H.
Qed.

Lemma concat_upd {A} (l : list (list A)) g x : (g < List.length l)%nat ->
  exists rest, Permutation (List.concat l) (nth g l [] ++ rest) /\ Permutation (List.concat (upd_nth l g (fun _ => x))) (x ++ rest).
Proof.
  revert g. induction l as [|y l IH]; intros [|g] H; cbn in *; try lia.
  - exists (List.concat l). auto.
  - destruct (IH g ltac:(lia)) as (rest & P1 & P2). exists (y ++ rest). split.
    + rewrite P1. rewrite !app_assoc. apply Permutation_app_tail, Permutation_app_comm.
    + rewrite P2. rewrite !app_assoc. apply Permutation_app_tail, Permutation_app_comm.
Qed.

(** replacing the cells of a grid by a part of them and at most one new object *)
Lemma hinv_set_grid h h' g ids extra :
  hinv h -> pinv h' -> (g < List.length (h_grids h))%nat ->
  h_grids h' = h_grids h -> h_made h' = h_made h -> (List.length (h_objs h) <= List.length (h_objs h'))%nat ->
  (forall i, In i extra -> (List.length (h_objs h) <= i < List.length (h_objs h'))%nat) -> NoDup extra ->
  (exists gone, Permutation (extra ++ grid_at h g) (ids ++ gone)) ->
  hinv (with_grids h' (upd_nth (h_grids h') g (fun _ => ids))).
Proof.
  intros HI HP' Hg EG EM HL HX HXN [gone HPm]. destruct HI as [HP HC HR HM].
  rewrite EG. destruct (concat_upd (h_grids h) g ids Hg) as (rest & P1 & P2).
  assert (HN : NoDup (extra ++ List.concat (h_grids h))).
  { apply NoDup_app_intro; auto. intros i Hi Hi'. apply HX in Hi. apply HR in Hi'. lia. }
  assert (HQ : Permutation (extra ++ List.concat (h_grids h)) (ids ++ rest ++ gone)).
  { rewrite P1, app_assoc, HPm, <- app_assoc. apply Permutation_app_head, Permutation_app_comm. }
  assert (HN2 : NoDup (ids ++ rest)).
  { apply (Permutation_NoDup HQ) in HN. rewrite app_assoc in HN. apply nodup_app_l in HN. exact HN. }
  assert (Hin : forall i, In i (List.concat (upd_nth (h_grids h) g (fun _ => ids))) -> In i extra \/ In i (List.concat (h_grids h))).
  { intros i Hi. apply (Permutation_in _ P2) in Hi. apply in_app_iff. apply (Permutation_in _ (Permutation_sym HQ)).
    rewrite app_assoc. apply in_app_iff. left. exact Hi. }
  constructor; cbn [with_grids h_grids h_objs h_made].
  - destruct HP' as [Q1 Q2 Q3 Q4 Q5]. constructor; assumption.
  - apply (Permutation_NoDup (Permutation_sym P2)), HN2.
  - intros i Hi. apply Hin in Hi as [Hi|Hi]; [apply HX, Hi|]. apply HR in Hi. lia.
  - intros i Hi. rewrite EM. apply Hin in Hi as [Hi|Hi]; [|apply HM, Hi].
    intros Hm. apply HX in Hi. apply (pi_made_range h HP) in Hm. lia.
Qed.

(** the new heap differs by fresh objects and dictionaries only *)
Lemma hinv_ext h h' : hinv h -> pinv h' -> ext h h' -> hinv h'.
Proof.
  intros [HP HC HR HM] HP' HE. pose proof (ext_objs h h' HE) as HL. destruct HE as (_ & _ & EG & _ & EM).
  constructor; auto; rewrite EG; auto.
  - intros i Hi. apply HR in Hi. lia.
  - rewrite EM. exact HM.
Qed.
Lemma hinv_only n h h' : hinv h -> only n h h' -> hinv h'.
Proof.
  intros [HP HC HR HM] HO. pose proof (only_objs n h h' HO) as HL. pose proof (only_pinv n h h' HO HP) as HP'.
  destruct HO as (_ & _ & _ & EG & _ & EM & _). constructor; auto; rewrite EG, ?EM, ?HL; auto.
Qed.

Lemma cells_range h g : hinv h -> forall i, In i (grid_at h g) -> (i < List.length (h_objs h))%nat.
Proof. intros HI i Hi. apply (hi_range h HI), (grid_sub h g), Hi. Qed.

(** values of the objects of [h], and the dictionaries of the caller, are unchanged in [h'] *)
Definition keeps (h h' : heap) : Prop :=
  (forall i, (i < List.length (h_objs h))%nat -> value_of h' i = value_of h i) /\
  (forall a, In a (h_own h) -> dict_at h' a = dict_at h a) /\
  (List.length (h_objs h) <= List.length (h_objs h'))%nat /\ h_own h' = h_own h.

Lemma ext_keeps h h' : pinv h -> ext h h' -> keeps h h'.
Proof.
  intros HP HE. split; [|split; [|split]].
  - intros i Hi. apply ext_value; auto.
  - intros a Ha. apply ext_dict; auto. apply (pi_own_range h HP), Ha.
  - apply ext_objs, HE.
  - apply HE.
Qed.
Lemma grids_keeps h h' gs : keeps h h' -> keeps h (with_grids h' gs).
Proof. intros (H1 & H2 & H3). split; [exact H1|]. split; [exact H2|exact H3]. Qed.

(** the outcome of an operation on grid [g] *)
Definition grid_outcome (g : nat) (h h' : heap) (res : grid) : Prop :=
  hinv h' /\ keeps h h' /\ grid_value h' g = res /\
  (forall g', g' <> g -> grid_at h' g' = grid_at h g') /\ List.length (h_grids h') = List.length (h_grids h).

Lemma outcome_same g h : hinv h -> grid_outcome g h h (grid_value h g).
Proof.
  intros HI. split; [exact HI|]. split; [apply ext_keeps; [apply HI|apply ext_refl]|]. auto.
Qed.

Lemma outcome_ext g h h' : hinv h -> pinv h' -> ext h h' -> grid_outcome g h h' (grid_value h g).
Proof.
  intros HI HP' HE. split; [apply (hinv_ext h); auto|]. split; [apply ext_keeps; [apply HI|exact HE]|].
  assert (EG : h_grids h' = h_grids h) by apply HE.
  split; [|split; [|congruence]].
  - unfold grid_value, grid_at. rewrite EG. apply ext_values; [apply HI|exact HE|]. apply (cells_range h g HI).
  - intros g' _. unfold grid_at. rewrite EG. reflexivity.
Qed.

Lemma outcome_set g h h1 ids extra :
  hinv h -> pinv h1 -> keeps h h1 -> (g < List.length (h_grids h))%nat ->
  h_grids h1 = h_grids h -> h_made h1 = h_made h ->
  (forall i, In i extra -> (List.length (h_objs h) <= i < List.length (h_objs h1))%nat) -> NoDup extra ->
  (exists gone, Permutation (extra ++ grid_at h g) (ids ++ gone)) ->
  grid_outcome g h (with_grids h1 (upd_nth (h_grids h1) g (fun _ => ids))) (map (value_of h1) ids).
Proof.
  intros HI HP1 HK Hg EG EM HX HXN HPm. split.
  - eapply hinv_set_grid; eauto. apply HK.
  - split; [apply grids_keeps, HK|]. split; [|split].
    + unfold grid_value, grid_at. cbn [with_grids h_grids]. rewrite nth_upd_same by (rewrite EG; exact Hg). reflexivity.
    + intros g' Hn. unfold grid_at. cbn [with_grids h_grids]. rewrite nth_upd_other by exact Hn. rewrite EG. reflexivity.
    + cbn. rewrite upd_nth_length, EG. reflexivity.
Qed.

Lemma hgrid_setitem_spec g v i h h' r g' q :
  hinv h -> (g < List.length (h_grids h))%nat -> (i < List.length (h_objs h))%nat ->
  hgrid_setitem g v i h = (h', r) -> grid_setitem v (value_of h i) (grid_value h g) = (g', q) ->
  r = q /\ grid_outcome g h h' g'.
Proof.
  intros HI Hg Hi. unfold hgrid_setitem. cbn [sbind sget]. unfold grid_value.
  destruct (cells_setitem (grid_at h g) v i h) as [h1 r1] eqn:E1. intros E2 E3.
  unfold sbind in E2. rewrite E1 in E2.
  destruct (cells_setitem_spec _ _ _ _ _ _ _ _ (hi_p h HI) (cells_range h g HI) E1 E3) as (HP1 & HE1 & HV).
  destruct q as [[]|e].
  - destruct HV as (k & -> & HL & ->). unfold set_grid in E2. cbn [sbind sget sput] in E2. injection E2 as <- <-.
    split; [reflexivity|]. apply (outcome_set g h h1 _ [List.length (h_objs h)]); auto.
    + apply ext_keeps; [apply HI|exact HE1].
    + apply HE1.
    + apply HE1.
    + intros j [<-|[]]. lia.
    + constructor; [intros []|constructor].
    + exists []. rewrite app_nil_r. cbn. symmetry. apply insert_at_perm.
  - destruct HV as [-> ->]. injection E2 as <- <-. split; [reflexivity|].
    rewrite (ext_values h h1 _ (hi_p h HI) HE1 (cells_range h g HI)). apply outcome_ext; auto.
Qed.

Lemma hgrid_delitem_spec g v h h' r g' q :
  hinv h -> (g < List.length (h_grids h))%nat ->
  hgrid_delitem g v h = (h', r) -> grid_delitem v (grid_value h g) = (g', q) ->
  r = q /\ grid_outcome g h h' g'.
Proof.
  intros HI Hg. unfold hgrid_delitem, grid_delitem. cbn [sbind sget slift].
  destruct (coord_from_value v) as [c|e]; [|intros [= <- <-] [= <- <-]; auto using outcome_same].
  pose proof (del_covering_spec h c (grid_at h g)) as HD. unfold grid_value at 1.
  destruct (del_covering h (grid_at h g) c) as [l|].
  - destruct HD as [-> (j & Hj)]. unfold set_grid. cbn [sbind sget sput]. intros [= <- <-] [= <- <-]. split; [reflexivity|].
    apply (outcome_set g h h l []); auto.
    + apply HI.
    + apply ext_keeps; [apply HI|apply ext_refl].
    + intros i [].
    + constructor.
    + exists [j]. cbn. rewrite Hj. apply Permutation_cons_append.
  - rewrite HD. intros [= <- <-] [= <- <-]. split; [reflexivity|]. apply outcome_same, HI.
Qed.

Lemma hgrid_merge_spec g s e app h h' r g' q :
  hinv h -> (g < List.length (h_grids h))%nat ->
  hgrid_merge g s e app h = (h', r) -> grid_merge s e app (grid_value h g) = (g', q) ->
  match q with
  | Ok c => exists n, r = Ok n /\ value_of h' n = c
  | Err x => r = Err x
  end /\ grid_outcome g h h' g'.
Proof.
  intros HI Hg. pose proof (hi_p h HI) as HP. unfold hgrid_merge, grid_merge. cbn [sbind sget slift].
  destruct (coord_from_value s) as [sc|x]; [|intros [= <- <-] [= <- <-]; auto using outcome_same].
  destruct (coord_from_value e) as [ec|x]; [|intros [= <- <-] [= <- <-]; auto using outcome_same].
  set (ap := match app with Some f => f | None => content_add end).
  destruct (box_new _) as [b|x]; [|intros [= <- <-] [= <- <-]; auto using outcome_same].
  pose proof (split_ids_spec h b (grid_at h g)) as HS. unfold grid_value at 1.
  destruct (split_ids h b (grid_at h g)) as [[m u]|x]; [|rewrite HS; intros [= <- <-] [= <- <-]; auto using outcome_same].
  destruct HS as [-> HPm]. cbn [fst snd]. destruct m as [|first m]; cbn [map].
  { intros [= <- <-] [= <- <-]. auto using outcome_same. }
  assert (Hr : forall i, In i (first :: m) -> (i < List.length (h_objs h))%nat).
  { intros i Hi. apply (cells_range h g HI). apply (Permutation_in _ (Permutation_sym HPm)). apply in_app_iff. left. exact Hi. }
  assert (Hu : forall i, In i u -> (i < List.length (h_objs h))%nat).
  { intros i Hi. apply (cells_range h g HI). apply (Permutation_in _ (Permutation_sym HPm)). apply in_app_iff. right. exact Hi. }
  unfold sbind at 1. destruct (hcell_transform first _ _ h) as [h1 r1] eqn:E1.
  destruct (hcell_transform_spec _ _ _ _ _ _ HP E1) as (HP1 & HE1 & HV).
  destruct (cell_transform (value_of h first) _ _) as [n0|x].
  2:{ subst r1. intros [= <- <-] [= <- <-]. split; [reflexivity|]. apply outcome_ext; auto. }
  destruct HV as (-> & HL & HV). set (n := List.length (h_objs h)) in *.
  unfold sbind at 1. destruct (absorb ap n m h1) as [h2 r2] eqn:E2.
  destruct (absorb_spec ap n m h1 h2 r2 HP1) as [HO HA]; [lia| |exact E2|].
  { intros i Hi. specialize (Hr i (or_intror Hi)). split; [lia|]. unfold n. lia. }
  assert (HP2 := only_pinv _ _ _ HO HP1). pose proof (only_objs _ _ _ HO) as L2.
  rewrite HV in HA. rewrite (ext_values h h1 m HP HE1) in HA by (intros i Hi; apply Hr; right; exact Hi).
  assert (HK : keeps h h2).
  { destruct (ext_keeps h h1 HP HE1) as (K1 & K2 & K3 & K4).
    destruct HO as (_ & _ & _ & _ & OE & _ & OF & OD). split; [|split; [|split; [lia|congruence]]].
    - intros i Hi. rewrite OF; [apply K1, Hi|unfold n; lia|lia].
    - intros a Ha. rewrite OD; [apply K2, Ha|]. assert (E5 : h_own h1 = h_own h) by apply HE1. rewrite E5. exact Ha. }
  assert (EG2 : h_grids h2 = h_grids h).
  { destruct HO as (_ & _ & _ & OG & _). rewrite OG. apply HE1. }
  assert (EM2 : h_made h2 = h_made h).
  { destruct HO as (_ & _ & _ & _ & _ & OM & _). rewrite OM. apply HE1. }
  destruct (merge_cells ap n0 (map (value_of h) m)) as [c|x] eqn:EMC.
  - destruct HA as [-> HVc]. unfold set_grid, sbind, sget, slift, sput, sret. cbv beta iota zeta. rewrite EMC.
    set (h3 := with_grids h2 (upd_nth (h_grids h2) g (fun _ => u))).
    rewrite <- (map_ext_in (value_of h3) (value_of h) u) by (intros i Hi; apply HK, Hu, Hi).
    change (value_of h2 n) with (value_of h3 n) in HVc. rewrite <- HVc.
    destruct (grid_insert_sorted (value_of h3 n) (map (value_of h3) u)) as [gi qi] eqn:EI.
    pose proof (insert_sorted_spec h3 u n gi qi EI) as HIS. destruct qi as [[]|x].
    + destruct HIS as (k & -> & ->). cbv beta iota. intros [= <- <-] [= <- <-].
      split; [exists n; auto|]. cbn [h3 with_grids h_grids h_dicts h_objs h_own h_made]. rewrite upd_nth_twice.
      apply (outcome_set g h h2 _ [n]); auto.
      * intros j [<-|[]]. unfold n at 1. lia.
      * constructor; [intros []|constructor].
      * exists (first :: m). rewrite insert_at_perm. cbn [List.app]. apply perm_skip. rewrite HPm. apply Permutation_app_comm.
    + destruct HIS as [-> ->]. cbv beta iota. intros [= <- <-] [= <- <-]. split; [reflexivity|].
      apply (outcome_set g h h2 u []); auto.
      * intros j [].
      * constructor.
      * exists (first :: m). change (Permutation (grid_at h g) (u ++ first :: m)). rewrite HPm. apply Permutation_app_comm.
  - subst r2. unfold sbind, slift. rewrite EMC. intros [= <- <-] [= <- <-]. split; [reflexivity|].
    assert (HI2 : hinv h2) by (apply (hinv_only n h1); [apply (hinv_ext h); auto|exact HO]).
    split; [exact HI2|]. split; [exact HK|]. split; [|split].
    + unfold grid_value, grid_at. rewrite EG2. apply map_ext_in. intros i Hi. apply HK, (cells_range h g HI), Hi.
    + intros g' _. unfold grid_at. rewrite EG2. reflexivity.
    + rewrite EG2. reflexivity.
Qed.

Lemma hgrid_expand_spec g v w hh app h h' r g' q :
  hinv h -> (g < List.length (h_grids h))%nat ->
  hgrid_expand g v w hh app h = (h', r) -> grid_expand v w hh app (grid_value h g) = (g', q) ->
  match q with
  | Ok c => exists n, r = Ok n /\ value_of h' n = c
  | Err x => r = Err x
  end /\ grid_outcome g h h' g'.
Proof.
  intros HI Hg. unfold hgrid_expand, grid_expand, grid_getitem. cbn [sbind sget slift].
  destruct (coord_from_value v) as [c|x]; cbn [rbind]; [|intros [= <- <-] [= <- <-]; auto using outcome_same].
  pose proof (find_covering_spec h c (grid_at h g)) as HF. unfold grid_value at 1.
  destruct (find_covering h (grid_at h g) c) as [i|x]; rewrite HF; [|intros [= <- <-] [= <- <-]; auto using outcome_same].
  change (c_box (value_of h i)) with (o_box (obj_at h i)).
  destruct (coord_add _ _) as [en|x]; [|intros [= <- <-] [= <- <-]; auto using outcome_same].
  apply hgrid_merge_spec; auto.
Qed.

(** ** All operations *)

Lemma cells_fill_spec : forall cells ids h h' r,
  pinv h -> (forall i, In i cells -> (i < List.length (h_objs h))%nat) ->
  (forall i, In i ids -> (i < List.length (h_objs h))%nat) ->
  cells_fill ids cells h = (h', r) ->
  pinv h' /\ ext h h' /\
  match siter (fun c => grid_setitem (PCoord (c_min c)) c) (map (value_of h) cells) (map (value_of h) ids) with
  | (g, Ok _) => exists new, r = Ok new /\ g = map (value_of h') new /\
        (forall i, In i new -> In i ids \/ (List.length (h_objs h) <= i < List.length (h_objs h'))%nat) /\ (NoDup ids -> NoDup new)
  | (_, Err e) => r = Err e
  end.
Proof.
  induction cells as [|i cells IH]; intros ids h h' r HP Hc Hi; cbn [cells_fill map siter].
  - intros [= <- <-]. split; [exact HP|]. split; [apply ext_refl|]. exists ids. auto.
  - unfold sbind, sget. change (bmin (o_box (obj_at h i))) with (c_min (value_of h i)).
    destruct (cells_setitem ids (PCoord (c_min (value_of h i))) i h) as [h1 r1] eqn:E1.
    destruct (grid_setitem (PCoord (c_min (value_of h i))) (value_of h i) (map (value_of h) ids)) as [g1 q1] eqn:E2.
    destruct (cells_setitem_spec _ _ _ _ _ _ _ _ HP Hi E1 E2) as (HP1 & HE1 & HV). pose proof (ext_objs h h1 HE1) as L1.
    destruct q1 as [[]|e].
    + destruct HV as (k & -> & HL & ->). intros E3.
      assert (Hc1 : forall j, In j cells -> (j < List.length (h_objs h1))%nat).
      { intros j Hj. specialize (Hc j (or_intror Hj)). lia. }
      assert (Hin : forall j, In j (insert_at ids k (List.length (h_objs h))) -> In j ids \/ j = List.length (h_objs h)).
      { intros j Hj. apply (Permutation_in _ (insert_at_perm _ _ _)) in Hj. destruct Hj as [<-|Hj]; auto. }
      assert (Hi1 : forall j, In j (insert_at ids k (List.length (h_objs h))) -> (j < List.length (h_objs h1))%nat).
      { intros j Hj. apply Hin in Hj as [Hj| ->]; [|lia]. specialize (Hi j Hj). lia. }
      destruct (IH _ h1 h' r HP1 Hc1 Hi1 E3) as (HP2 & HE2 & HV2). pose proof (ext_objs h1 h' HE2) as L2.
      split; [exact HP2|]. split; [eapply ext_trans; eassumption|].
      rewrite (ext_values h h1 cells HP HE1) in HV2 by (intros j Hj; apply Hc; right; exact Hj).
      unfold sbind. destruct (siter _ _ _) as [g [u|e]]; [|exact HV2].
      destruct HV2 as (new & -> & -> & Hnew & Hnd). exists new. split; [reflexivity|]. split; [reflexivity|]. split.
      * intros j Hj. apply Hnew in Hj as [Hj|Hj]; [|right; lia]. apply Hin in Hj as [Hj| ->]; [auto|]. right. lia.
      * intros HN. apply Hnd. apply (Permutation_NoDup (Permutation_sym (insert_at_perm _ _ _))). constructor; [|exact HN].
        intros Hx. apply Hi in Hx. lia.
    + destruct HV as [-> ->]. intros [= <- <-]. split; [exact HP1|]. split; [exact HE1|]. reflexivity.
Qed.

Lemma set_styles_spec i s h h' r :
  pinv h -> (i < List.length (h_objs h))%nat -> set_styles i s h = (h', r) ->
  r = Ok tt /\ pinv h' /\ List.length (h_objs h') = List.length (h_objs h) /\
  h_grids h' = h_grids h /\ h_own h' = h_own h /\ h_made h' = h_made h /\
  (forall j, j <> i -> (j < List.length (h_objs h))%nat -> value_of h' j = value_of h j) /\
  (forall a, In a (h_own h) -> dict_at h' a = dict_at h a) /\
  value_of h' i = MkCell (o_content (obj_at h i)) (styles_of (read_opt h s)) (o_nature (obj_at h i)) (o_box (obj_at h i)).
Proof.
  intros HP Hi. unfold set_styles, copy_styles, sbind, sget, alloc_dict, sput.
  set (d := match s with None => [] | Some a => dict_at h a end).
  set (n := List.length (h_dicts h)). intros [= <- <-]. split; [reflexivity|].
  cbn [with_dicts with_objs h_objs h_grids h_own h_made h_dicts].
  set (f := fun o => MkObj (o_content o) n (o_nature o) (o_box o)).
  assert (Hin : forall a, In a (map o_styles (upd_nth (h_objs h) i f)) -> a = n \/ In a (map o_styles (h_objs h))).
  { clear. generalize (h_objs h). intros l. revert i. induction l as [|o l IH]; intros [|i] a; cbn; [tauto|tauto| |].
    - intros [<-|H]; auto.
    - intros [<-|H]; auto. apply IH in H. tauto. }
  assert (Hfresh : ~ In n (map o_styles (h_objs h))) by (intros Hx; apply (pi_range h HP) in Hx; unfold n in Hx; lia).
  split; [|split; [apply upd_nth_length|split; [reflexivity|split; [reflexivity|split; [reflexivity|split; [|split]]]]]].
  - destruct HP as [P1 P2 P3 P4 P5]. constructor; cbn [with_dicts with_objs h_objs h_grids h_own h_made h_dicts].
    + revert P1 Hfresh. clear. generalize (h_objs h). intros l. revert i. induction l as [|o l IH]; intros [|i] HN HF; cbn in *; auto.
      * inversion HN; subst. constructor; [|assumption]. intros Hx. apply HF. right. exact Hx.
      * inversion HN as [|? ? Ho Hl]; subst. constructor; [|apply IH; auto].
        intros Hx. assert (G : forall i, In (o_styles o) (map o_styles (upd_nth l i f)) -> o_styles o = n \/ In (o_styles o) (map o_styles l)).
        { clear. induction l as [|p l IH]; intros [|i]; cbn; [tauto|tauto| |].
          - intros [H|H]; auto.
          - intros [H|H]; auto. apply IH in H. tauto. }
        apply G in Hx as [Hx|Hx]; [apply HF; left; congruence|tauto].
    + intros a Ha. rewrite app_length. cbn. apply Hin in Ha as [->|Ha]; [unfold n; lia|]. specialize (P2 a Ha). lia.
    + intros a Ha. apply Hin in Ha as [->|Ha]; [|apply P3, Ha]. intros Hx. apply P4 in Hx. unfold n in Hx. lia.
    + intros a Ha. rewrite app_length. specialize (P4 a Ha). lia.
    + intros j Hj. rewrite upd_nth_length. apply P5, Hj.
  - intros j Hn Hj. unfold value_of, obj_at, dict_at. cbn [with_dicts with_objs h_objs h_dicts].
    rewrite nth_upd_other by exact Hn. rewrite app_nth1; [reflexivity|]. apply (styles_range h j HP Hj).
  - intros a Ha. unfold dict_at. cbn [with_dicts with_objs h_objs h_dicts]. apply app_nth1. apply (pi_own_range h HP), Ha.
  - unfold value_of, obj_at, dict_at. cbn [with_dicts with_objs h_objs h_dicts].
    rewrite nth_upd_same by exact Hi. cbn [f o_content o_styles o_nature o_box]. unfold n. rewrite app_nth2, Nat.sub_diag by lia.
    cbn [nth]. unfold d. destruct s; reflexivity.
Qed.

Record framed (o : hop) (h h' : heap) : Prop := {
  fr_obj : forall i, exists_obj h i -> exists_obj h' i;
  fr_value : forall i, exists_obj h i -> ~ targets o h i -> value_of h' i = value_of h i;
  fr_own : forall a, In a (h_own h) -> In a (h_own h');
  fr_dict : forall a, In a (h_own h) -> ~ updates o a -> dict_at h' a = dict_at h a;
  fr_grid : forall g, exists_grid h g -> exists_grid h' g;
  fr_cells : forall g, exists_grid h g -> ~ targets_grid o g -> grid_at h' g = grid_at h g
}.

Lemma framed_refl o h : framed o h h.
Proof. constructor; auto. Qed.

Lemma framed_ext o h h' : pinv h -> ext h h' -> framed o h h'.
Proof.
  intros HP HE. destruct (ext_keeps h h' HP HE) as (K1 & K2 & K3 & K4). destruct HE as (_ & _ & EG & EO & EM).
  constructor.
  - unfold exists_obj. intros i Hi. lia.
  - intros i Hi _. apply K1, Hi.
  - rewrite EO. auto.
  - auto.
  - unfold exists_grid. rewrite EG. auto.
  - unfold grid_at. rewrite EG. auto.
Qed.

Lemma framed_only o h h' n : only n h h' -> (forall i, i = n -> targets o h i) -> framed o h h'.
Proof.
  intros HO HT. pose proof (only_objs n h h' HO) as HL. destruct HO as (_ & _ & _ & EG & EO & EM & HV & HD).
  constructor.
  - unfold exists_obj. intros i Hi. lia.
  - intros i Hi Hn. apply HV; [|exact Hi]. intros ->. apply Hn, HT. reflexivity.
  - rewrite EO. auto.
  - auto.
  - unfold exists_grid. rewrite EG. auto.
  - unfold grid_at. rewrite EG. auto.
Qed.

Lemma framed_outcome o g h h' res : targets_grid o g -> grid_outcome g h h' res -> framed o h h'.
Proof.
  intros HT (_ & (K1 & K2 & K3 & EO) & _ & HG & HL). constructor.
  - unfold exists_obj. intros i Hi. lia.
  - intros i Hi _. apply K1, Hi.
  - rewrite EO. auto.
  - auto.
  - unfold exists_grid. rewrite HL. auto.
  - intros g' _ Hn. apply HG. intros ->. apply Hn, HT.
Qed.

Lemma hinv_record_own h a : hinv h -> (a < List.length (h_dicts h))%nat -> ~ In a (map o_styles (h_objs h)) ->
  hinv (MkHeap (h_dicts h) (h_objs h) (h_grids h) (a :: h_own h) (h_made h)).
Proof.
  intros [[P1 P2 P3 P4 P5] HC HR HM] Ha Hf. constructor; cbn; auto. constructor; cbn; auto.
  - intros b Hb [<-|Hx]; [tauto|]. apply (P3 b); auto.
  - intros b [<-|Hb]; auto.
Qed.
Lemma hinv_record_made h n : hinv h -> (n < List.length (h_objs h))%nat -> ~ In n (List.concat (h_grids h)) ->
  hinv (MkHeap (h_dicts h) (h_objs h) (h_grids h) (h_own h) (n :: h_made h)).
Proof.
  intros [[P1 P2 P3 P4 P5] HC HR HM] Ha Hf. constructor; cbn; auto.
  - constructor; cbn; auto. intros j [<-|Hj]; auto.
  - intros i Hi [<-|Hx]; [tauto|]. apply (HM i); auto.
Qed.

Lemma styled_new_spec s na h h' r :
  pinv h -> styled_new s na h = (h', r) ->
  pinv h' /\ ext h h' /\ r = Ok (List.length (h_objs h)) /\ List.length (h_objs h') = S (List.length (h_objs h)) /\
  value_of h' (List.length (h_objs h)) = MkCell CNone (styles_of (read_opt h s)) na (o_box obj0).
Proof.
  intros HP. unfold styled_new, copy_styles.
  cbn [sbind sget alloc_dict slift]. destruct (alloc_dict_ext (match s with None => [] | Some a => dict_at h a end) h HP) as [HE1 HP1].
  cbn [fst alloc_dict] in HE1, HP1.
  set (h1 := with_dicts h _) in *.
  set (o := MkObj CNone (List.length (h_dicts h)) na (o_box obj0)).
  assert (Hfresh : forall a, In a (map o_styles (h_objs h)) -> (a < List.length (h_dicts h))%nat) by apply HP.
  destruct (alloc_obj_ext o h1 HP1) as [HE2 HP2].
  + cbn. intros Hin. apply Hfresh in Hin. lia.
  + cbn. rewrite app_length. cbn. lia.
  + cbn. intros Hin. apply (pi_own_range h HP) in Hin. lia.
  + intros E. unfold alloc_obj in E. injection E as <- <-. cbn [fst alloc_obj] in HE2, HP2.
    split; [exact HP2|]. split; [eapply ext_trans; eassumption|]. split; [reflexivity|].
    split; [cbn; rewrite app_length; cbn; lia|].
    unfold value_of, obj_at, dict_at. cbn [with_objs h_objs h_dicts h1 with_dicts].
    rewrite app_nth2, Nat.sub_diag by lia. cbn [nth o o_content o_styles o_nature o_box].
    rewrite app_nth2, Nat.sub_diag by lia. cbn [nth]. destruct s; reflexivity.
Qed.

Lemma record_made_spec (m : SM heap nat) o h h' r :
  hinv h ->
  (let (h1, r1) := m h in pinv h1 /\ ext h h1 /\
     match r1 with Ok n => n = List.length (h_objs h) /\ List.length (h_objs h1) = S n | Err _ => True end) ->
  record_made m h = (h', r) -> hinv h' /\ framed o h h'.
Proof.
  intros HI. unfold record_made, sbind, sget, sput. destruct (m h) as [h1 [n|e]].
  - intros (HP1 & HE1 & -> & HL). assert (HI1 := hinv_ext _ _ HI HP1 HE1). intros [= <- <-]. split.
    + apply hinv_record_made; [exact HI1|lia|]. assert (EG : h_grids h1 = h_grids h) by apply HE1. rewrite EG.
      intros Hx. apply (hi_range h HI) in Hx. lia.
    + destruct (framed_ext o h h1 (hi_p h HI) HE1) as [F1 F2 F3 F4 F5 F6]. constructor; auto.
  - intros (HP1 & HE1 & _) [= <- <-]. split; [apply (hinv_ext h); auto|apply framed_ext; [apply HI|exact HE1]].
Qed.

Lemma ref_ok_lt {A} (l : list A) i : ref_ok l i = true -> (i < List.length l)%nat.
Proof. apply Nat.ltb_lt. Qed.

Lemma not_targeted_upd h i a f : o_styles (obj_at h i) <> a -> value_of (with_dicts h (upd_nth (h_dicts h) a f)) i = value_of h i.
Proof.
  intros Hn. unfold value_of, dict_at, obj_at. cbn [with_dicts h_objs h_dicts]. f_equal. apply nth_upd_other, Hn.
Qed.

Lemma hstep_spec o h h' r : hinv h -> hstep o h = (h', r) -> hinv h' /\ framed o h h'.
Proof.
  intros HI. pose proof (hi_p h HI) as HP. unfold hstep. destruct (refs_ok o h) eqn:ER; [|intros [= <- <-]; auto using framed_refl].
  destruct o; cbn [hexec refs_ok] in *.
  - (* HDict *) unfold record_own, sbind, sget, sput, alloc_dict. intros [= <- <-].
    destruct (alloc_dict_ext d h HP) as [HE HP1]. assert (HI1 := hinv_ext _ _ HI HP1 HE). split.
    + apply (hinv_record_own _ _ HI1).
      * cbn. rewrite app_length. cbn. lia.
      * cbn. intros Hx. apply (pi_range h HP) in Hx. lia.
    + destruct (framed_ext (HDict d) h _ HP HE) as [F1 F2 F3 F4 F5 F6]. constructor; auto. cbn. auto.
  - (* HUpdate *) apply ref_ok_lt in ER. unfold update_dict, sbind, sget, sput. intros [= <- <-]. split.
    + destruct HI as [[P1 P2 P3 P4 P5] HC HR HM]. constructor; auto. constructor; cbn; auto; rewrite upd_nth_length; auto.
    + constructor; auto.
      * intros i Hi Hn. apply not_targeted_upd, Hn.
      * intros a' Ha Hn. unfold dict_at. cbn. apply nth_upd_other, Hn.
  - (* HCell *) apply record_made_spec; auto. destruct (hcell_new _ _ _ _ _ _ _ h) as [h1 r1] eqn:E1.
    destruct (hcell_new_spec _ _ _ _ _ _ _ _ _ _ HP E1) as (HP1 & HE1 & HV). split; [exact HP1|]. split; [exact HE1|].
    destruct (cell_new _ _ _ _ _ _ _).
    + destruct HV as (-> & HL & _). auto.
    + subst r1. exact I.
  - (* HStyled *) apply record_made_spec; auto. destruct (styled_new s na h) as [h1 r1] eqn:E1.
    destruct (styled_new_spec _ _ _ _ _ HP E1) as (HP1 & HE1 & -> & HL & HV). auto.
  - (* HSetStyles *) apply andb_true_iff in ER as [ER1 ER2]. apply ref_ok_lt in ER1. intros E.
    destruct (set_styles_spec _ _ _ _ _ HP ER1 E) as (_ & HP1 & HL & EG & EO & EM & HV & HD & _). split.
    + destruct HI as [_ HC HR HM]. constructor; auto; rewrite EG, ?EM, ?HL; auto.
    + constructor; auto.
      * unfold exists_obj. intros j Hj. lia.
      * rewrite EO. auto.
      * unfold exists_grid. rewrite EG. auto.
      * unfold grid_at. rewrite EG. auto.
  - (* HSetContent *) apply ref_ok_lt in ER. unfold set_content, sbind, sget, sput. intros [= <- <-].
    assert (O : only i h (with_objs h (upd_nth (h_objs h) i (fun o => MkObj ct (o_styles o) (o_nature o) (o_box o))))) by (apply only_objchange; reflexivity).
    split; [apply (hinv_only i h); auto|apply (framed_only _ _ _ i O); auto].
  - (* HSetNature *) apply ref_ok_lt in ER. unfold set_nature, sbind, sget, sput. intros [= <- <-].
    assert (O : only i h (with_objs h (upd_nth (h_objs h) i (fun o => MkObj (o_content o) (o_styles o) na (o_box o))))) by (apply only_objchange; reflexivity).
    split; [apply (hinv_only i h); auto|apply (framed_only _ _ _ i O); auto].
  - (* HTransform *) apply record_made_spec; auto. destruct (hcell_transform i co sz h) as [h1 r1] eqn:E1.
    destruct (hcell_transform_spec _ _ _ _ _ _ HP E1) as (HP1 & HE1 & HV). split; [exact HP1|]. split; [exact HE1|].
    destruct (cell_transform _ _ _).
    + destruct HV as (-> & HL & _). auto.
    + subst r1. exact I.
  - (* HGrid *) unfold ignore, hgrid_new, sbind. destruct (cells_fill [] cells h) as [h1 r1] eqn:E1.
    assert (Hc : forall i, In i cells -> (i < List.length (h_objs h))%nat).
    { intros i Hi. rewrite forallb_forall in ER. apply ref_ok_lt, ER, Hi. }
    destruct (cells_fill_spec cells [] h h1 r1 HP Hc) as (HP1 & HE1 & HV); [intros i []|exact E1|].
    assert (HI1 := hinv_ext _ _ HI HP1 HE1).
    cbn [map] in HV. destruct (siter _ _ _) as [gg [u|e]].
    + destruct HV as (new & -> & -> & Hnew & Hnd). cbn [sret alloc_grid]. intros [= <- <-].
      assert (Hfr : forall i, In i new -> (List.length (h_objs h) <= i < List.length (h_objs h1))%nat).
      { intros i Hi. apply Hnew in Hi as [[]|Hi]; exact Hi. }
      assert (EG : h_grids h1 = h_grids h) by apply HE1. assert (EM : h_made h1 = h_made h) by apply HE1.
      split.
      * destruct HI1 as [_ HC HR HM]. constructor; cbn [with_grids h_grids h_objs h_made].
        -- destruct HP1 as [P1 P2 P3 P4 P5]. constructor; assumption.
        -- rewrite concat_app. cbn. rewrite app_nil_r. apply NoDup_app_intro; [exact HC|apply Hnd; constructor|].
           intros i Hi Hi'. apply Hfr in Hi'. rewrite EG in Hi. apply (hi_range h HI) in Hi. lia.
        -- intros i. rewrite concat_app, in_app_iff. cbn. rewrite app_nil_r. intros [Hi|Hi]; [apply HR, Hi|apply Hfr, Hi].
        -- intros i. rewrite concat_app, in_app_iff. cbn. rewrite app_nil_r. intros [Hi|Hi]; [apply HM, Hi|].
           rewrite EM. intros Hx. apply (pi_made_range h HP) in Hx. apply Hfr in Hi. lia.
      * destruct (framed_ext (HGrid cells) h h1 HP HE1) as [F1 F2 F3 F4 F5 F6]. constructor; auto.
        -- unfold exists_grid. cbn [with_grids h_grids]. rewrite EG, app_length. intros g Hg. lia.
        -- intros g Hg _. unfold grid_at. cbn [with_grids h_grids]. rewrite EG. apply app_nth1, Hg.
    + subst r1. intros [= <- <-]. split; [exact HI1|apply framed_ext; auto].
  - (* HSet *) apply andb_true_iff in ER as [ER1 ER2]. apply ref_ok_lt in ER1, ER2. intros E.
    destruct (grid_setitem v (value_of h i) (grid_value h g)) as [g' q] eqn:EV.
    destruct (hgrid_setitem_spec _ _ _ _ _ _ _ _ HI ER1 ER2 E EV) as [_ HO].
    split; [apply HO|]. apply (framed_outcome _ g h h' g'); [reflexivity|exact HO].
  - (* HDel *) apply ref_ok_lt in ER. intros E.
    destruct (grid_delitem v (grid_value h g)) as [g' q] eqn:EV.
    destruct (hgrid_delitem_spec _ _ _ _ _ _ _ HI ER E EV) as [_ HO].
    split; [apply HO|]. apply (framed_outcome _ g h h' g'); [reflexivity|exact HO].
  - (* HMerge *) apply ref_ok_lt in ER. unfold ignore, sbind. destruct (hgrid_merge g start end_ app h) as [h1 r1] eqn:E.
    intros E2. assert (h1 = h') as <- by (destruct r1; injection E2; auto).
    destruct (grid_merge start end_ app (grid_value h g)) as [g' q] eqn:EV.
    destruct (hgrid_merge_spec _ _ _ _ _ _ _ _ _ HI ER E EV) as [_ HO].
    split; [apply HO|]. apply (framed_outcome _ g h h1 g'); [reflexivity|exact HO].
  - (* HExpand *) apply ref_ok_lt in ER. unfold ignore, sbind. destruct (hgrid_expand g v w h0 app h) as [h1 r1] eqn:E.
    intros E2. assert (h1 = h') as <- by (destruct r1; injection E2; auto).
    destruct (grid_expand v w h0 app (grid_value h g)) as [g' q] eqn:EV.
    destruct (hgrid_expand_spec _ _ _ _ _ _ _ _ _ _ HI ER E EV) as [_ HO].
    split; [apply HO|]. apply (framed_outcome _ g h h1 g'); [reflexivity|exact HO].
Qed.

Lemma hreachable_inv h : hreachable h -> hinv h.
Proof.
  induction 1 as [|h o H IH].
  - constructor; cbn; try (constructor; fail); try tauto. constructor; cbn; try tauto. constructor.
  - destruct (hstep o h) as [h' r] eqn:E. apply (hstep_spec _ _ _ _ IH E).
Qed.

Lemma hinv_separate h : hinv h -> separate h.
Proof.
  intros HI. pose proof (hi_p h HI) as HP. constructor.
  - intros i j Hi Hj Hn E. apply Hn. apply (styles_inj h); auto.
  - intros i Hi. apply (pi_own h HP), obj_styles_in, Hi.
  - intros g g' i Hg Hg' Hi Hi'. unfold grid_at, exists_grid in *. pose proof (hi_cells h HI) as HN. revert HN g g' Hg Hg' Hi Hi'.
    generalize (h_grids h). clear. induction l as [|x l IH]; intros HN g g' Hg Hg' Hi Hi'; [cbn in Hg; lia|].
    assert (Hsub : forall k, (k < List.length l)%nat -> In i (nth k l []) -> In i (List.concat l)).
    { intros k Hk Hin. apply in_concat. exists (nth k l []). split; [apply nth_In, Hk|exact Hin]. }
    cbn in HN. apply NoDup_app_inv in HN as (HN1 & HN2 & HN3).
    destruct g as [|g], g' as [|g']; cbn in *.
    + reflexivity.
    + exfalso. apply (HN3 i Hi). apply (Hsub g'); [lia|exact Hi'].
    + exfalso. apply (HN3 i Hi'). apply (Hsub g); [lia|exact Hi].
    + f_equal. apply IH; auto; lia.
  - intros g. unfold grid_at. pose proof (hi_cells h HI) as HN. revert g HN. generalize (h_grids h). clear.
    induction l as [|x l IH]; intros [|g] HN; cbn in *; try constructor; apply NoDup_app_inv in HN as (HN1 & HN2 & HN3); auto.
  - intros g i Hg Hi. apply (hi_made h HI), (grid_sub h g), Hi.
Qed.
