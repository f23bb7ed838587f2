(** * Word tables: the visible regions, row after row *)
From Verif Require Import Base M_Geometry M_Xml M_Cell M_Grid M_Table M_Ooxml.
From Verif Require Import S_Geometry S_Grid S_Table S_Int S_Ooxml.
From Verif Require Import P_Geometry P_OoxmlPath.
Open Scope string_scope.
Open Scope list_scope.
Open Scope Z_scope.

(** ** Rows *)

Inductive tiled : Z -> list slot -> Prop :=
| tiled_nil k : tiled k []
| tiled_cons k c l : sl_start c = k + 1 -> 1 <= sl_width c -> tiled (k + sl_width c) l -> tiled k (c :: l).
Definition total (l : list slot) : Z := fold_right (fun c n => sl_width c + n) 0 l.

Lemma total_cons c l : total (c :: l) = sl_width c + total l.
Proof. reflexivity. Qed.
Lemma total_nil : total [] = 0.
Proof. reflexivity. Qed.
Lemma seated_tiled k tcs l : seated k tcs l -> tiled k l.
Proof. induction 1; constructor; cbn; auto. Qed.
Lemma total_app l m : total (l ++ m) = total l + total m.
Proof. induction l as [|c l IH]; [reflexivity|]. cbn [app]. rewrite !total_cons, IH. lia. Qed.
Lemma tiled_app k l m : tiled k (l ++ m) <-> tiled k l /\ tiled (k + total l) m.
Proof.
  revert k. induction l as [|c l IH]; intros k; cbn [app].
  - rewrite total_nil, Z.add_0_r. split; [intros H; split; [constructor|exact H]|tauto].
  - rewrite total_cons. split.
    + intros H. inversion H; subst. apply IH in H5 as [H5 H6]. split; [constructor; assumption|]. rewrite Z.add_assoc. exact H6.
    + intros [H H6]. inversion H; subst. constructor; try assumption. apply IH. split; [assumption|]. rewrite <- Z.add_assoc. exact H6.
Qed.
Lemma tiled_total k l : tiled k l -> 0 <= total l.
Proof. induction 1; [rewrite total_nil|rewrite total_cons]; lia. Qed.
Lemma tiled_in k l c : tiled k l -> In c l -> k + 1 <= sl_start c /\ 1 <= sl_width c /\ sl_start c + sl_width c - 1 <= k + total l.
Proof.
  induction 1 as [|k d l Hs Hw H IH]; [intros []|]. pose proof (tiled_total _ _ H). rewrite total_cons.
  intros [<-|Hc]; [lia|]. apply IH in Hc. lia.
Qed.
Lemma tiled_at k l x : tiled k l -> k < x <= k + total l -> exists c, In c l /\ sl_start c <= x <= sl_start c + sl_width c - 1.
Proof.
  induction 1 as [|k d l Hs Hw H IH]; rewrite ?total_nil, ?total_cons; [lia|]; intros Hx.
  destruct (Z_le_gt_dec x (k + sl_width d)).
  - exists d. split; [left; reflexivity|lia].
  - destruct IH as (c & Hc & Hx'); [lia|]. exists c. split; [right; exact Hc|exact Hx'].
Qed.
Lemma tiled_same k l c d x : tiled k l -> In c l -> In d l ->
  sl_start c <= x <= sl_start c + sl_width c - 1 -> sl_start d <= x <= sl_start d + sl_width d - 1 -> c = d.
Proof.
  induction 1 as [|k e l Hs Hw H IH]; [intros []|]. intros [<-|Hc] [<-|Hd] Xc Xd; auto.
  - apply (tiled_in _ _ _ H) in Hd. lia.
  - apply (tiled_in _ _ _ H) in Hc. lia.
Qed.

Definition neat (row : wrow) : Prop := tiled 0 (wr_slots row).
Lemma row_width_total row : row_width row = total (wr_slots row).
Proof. reflexivity. Qed.
Lemma neat_same row c d : neat row -> In c (wr_slots row) -> In d (wr_slots row) -> sl_start c = sl_start d -> c = d.
Proof.
  intros H Hc Hd E. pose proof (tiled_in _ _ _ H Hc). pose proof (tiled_in _ _ _ H Hd).
  apply (tiled_same 0 (wr_slots row) c d (sl_start c)); auto; lia.
Qed.

(** ** Rows of a table *)

Lemma row_at_fun rows r a b : row_at rows r a -> row_at rows r b -> a = b.
Proof. intros [_ Ha] [_ Hb]. congruence. Qed.
Lemma row_at_le rows r row : row_at rows r row -> 1 <= r <= Z.of_nat (List.length rows).
Proof. intros [H1 H]. split; [exact H1|]. assert (nth_error rows (Z.to_nat (r - 1)) <> None) by congruence. apply nth_error_Some in H0. lia. Qed.
Lemma row_at_ex rows r : 1 <= r <= Z.of_nat (List.length rows) -> exists row, row_at rows r row.
Proof.
  intros H. destruct (nth_error rows (Z.to_nat (r - 1))) as [row|] eqn:E; [exists row; split; [lia|exact E]|].
  apply nth_error_None in E. lia.
Qed.
Lemma row_at_in rows r row : row_at rows r row -> In row rows.
Proof. intros [_ H]. apply nth_error_In in H. exact H. Qed.
Lemma row_at_app rows row0 r row : row_at (rows ++ [row0]) r row <->
  row_at rows r row \/ (r = Z.of_nat (List.length rows) + 1 /\ row = row0).
Proof.
  unfold row_at. split.
  - intros [H1 H]. destruct (Nat.lt_ge_cases (Z.to_nat (r - 1)) (List.length rows)) as [L|L].
    + rewrite nth_error_app1 in H by exact L. auto.
    + rewrite nth_error_app2 in H by exact L. destruct (Z.to_nat (r - 1) - List.length rows)%nat as [|m] eqn:E.
      * cbn in H. injection H as <-. right. split; [lia|reflexivity].
      * cbn in H. destruct m; discriminate.
  - intros [[H1 H]|[-> ->]].
    + split; [exact H1|]. rewrite nth_error_app1; [exact H|]. apply nth_error_Some. congruence.
    + split; [lia|]. rewrite nth_error_app2 by lia. replace (Z.to_nat _ - _)%nat with 0%nat by lia. reflexivity.
Qed.

Definition carried (rows : list wrow) (q s w : Z) : Prop := exists row, row_at rows q row /\ carries_on s w row.
Lemma goes_to_eq rows r s w e : goes_to rows r s w e <->
  r <= e /\ (forall q, r < q <= e -> carried rows q s w) /\ ~ carried rows (e + 1) s w.
Proof.
  unfold goes_to, carried. split; intros (H1 & H2 & H3); (split; [exact H1|split; [exact H2|]]).
  - intros (row & Hr & Hc). exact (H3 row Hr Hc).
  - intros row Hr Hc. apply H3. eauto.
Qed.
Lemma goes_to_fun rows r s w e e' : goes_to rows r s w e -> goes_to rows r s w e' -> e = e'.
Proof.
  rewrite !goes_to_eq. intros (H1 & H2 & H3) (H1' & H2' & H3').
  destruct (Z.lt_trichotomy e e') as [L|[E|L]]; [|exact E|]; exfalso.
  - apply H3, H2'. lia.
  - apply H3', H2. lia.
Qed.
Lemma carries_on_dec s w row : {carries_on s w row} + {~ carries_on s w row}.
Proof.
  destruct (existsb (fun c => (sl_start c =? s) && (sl_width c =? w) && sl_continues c) (wr_slots row)) eqn:E.
  - left. apply existsb_exists in E as (c & Hc & E). exists c. unfold same_columns.
    apply andb_true_iff in E as [E E3]. apply andb_true_iff in E as [E1 E2]. split; [exact Hc|]. split; [lia|exact E3].
  - right. intros (c & Hc & [H1 H2] & H3). rewrite <- not_true_iff_false in E. apply E, existsb_exists. exists c.
    split; [exact Hc|]. rewrite H3, H1, H2, !Z.eqb_refl. reflexivity.
Qed.
Lemma goes_to_ex rows r s w : 1 <= r -> exists e, goes_to rows r s w e.
Proof.
  remember (Z.to_nat (Z.of_nat (List.length rows) - r)) as n eqn:En. revert r En.
  induction n as [|n IH]; intros r En Hr.
  - exists r. apply goes_to_eq. split; [lia|]. split; [lia|]. intros (row & Hrow & _). apply row_at_le in Hrow. lia.
  - destruct (row_at_ex rows (r + 1)) as (row & Hrow); [lia|].
    destruct (carries_on_dec s w row) as [Hc|Hc].
    + destruct (IH (r + 1)) as (e & He); [lia|lia|]. exists e. apply goes_to_eq in He as (H1 & H2 & H3). apply goes_to_eq.
      split; [lia|]. split; [|exact H3]. intros q Hq. destruct (Z.eq_dec q (r + 1)) as [->|]; [exists row; auto|apply H2; lia].
    + exists r. apply goes_to_eq. split; [lia|]. split; [lia|]. intros (row' & Hrow' & Hc').
      rewrite (row_at_fun _ _ _ _ Hrow' Hrow) in Hc'. contradiction.
Qed.
Lemma goes_to_le rows r s w e : goes_to rows r s w e -> r <= Z.of_nat (List.length rows) -> e <= Z.of_nat (List.length rows).
Proof.
  intros H Hr. apply goes_to_eq in H as (H1 & H2 & _). destruct (Z.eq_dec r e); [lia|].
  destruct (H2 e) as (row & Hrow & _); [lia|]. apply row_at_le in Hrow. lia.
Qed.

(** The region above a cell which continues it *)
Lemma region_above rows y row c :
  regular rows -> row_at rows y row -> In c (wr_slots row) -> sl_continues c = true ->
  exists r row0 c0, r < y /\ row_at rows r row0 /\ In c0 (wr_slots row0) /\ sl_continues c0 = false /\
    same_columns (sl_start c) (sl_width c) c0 /\ forall q, r < q <= y -> carried rows q (sl_start c) (sl_width c).
Proof.
  intros HR. remember (Z.to_nat y) as n eqn:En. revert y row c En. induction n as [n IH] using lt_wf_ind. intros y row c -> Hrow Hc Hk.
  assert (Hcar : carries_on (sl_start c) (sl_width c) row) by (exists c; split; [exact Hc|split; [split; reflexivity|exact Hk]]).
  destruct (HR y row _ _ Hrow Hcar) as (above & d & Ha & Hd & Hs).
  pose proof (proj1 Ha) as Ha1.
  assert (Hq : forall q, y - 1 < q <= y -> carried rows q (sl_start c) (sl_width c)).
  { intros q Hq. replace q with y by lia. exists row. auto. }
  destruct (sl_continues d) eqn:Ed.
  - destruct (IH (Z.to_nat (y - 1)) ltac:(lia) (y - 1) above d eq_refl Ha Hd Ed) as (r & row0 & c0 & Hr & Hr0 & Hc0 & Hk0 & Hs0 & Hq0).
    destruct Hs as [Hs1 Hs2]. rewrite Hs1, Hs2 in *.
    exists r, row0, c0. split; [lia|]. split; [exact Hr0|]. split; [exact Hc0|]. split; [exact Hk0|]. split; [exact Hs0|].
    intros q Hq'. destruct (Z_le_gt_dec q (y - 1)); [apply Hq0; lia|apply Hq; lia].
  - exists (y - 1), above, d. split; [lia|]. auto 6.
Qed.

(** ** Columns *)

Lemma widest_app cols rows row0 r : r <= Z.of_nat (List.length rows) -> widest cols (rows ++ [row0]) r = widest cols rows r.
Proof.
  intros H. unfold widest. rewrite firstn_app. replace (Z.to_nat r - List.length rows)%nat with 0%nat by lia. cbn [firstn].
  rewrite app_nil_r. reflexivity.
Qed.
Lemma fold_max_app cols l n : fold_right Z.max cols (l ++ [n]) = Z.max (fold_right Z.max cols l) n.
Proof. induction l as [|a l IH]; cbn; [lia|]. rewrite IH. lia. Qed.
Lemma widest_last cols rows row0 :
  widest cols (rows ++ [row0]) (Z.of_nat (List.length rows) + 1) = Z.max (widest cols rows (Z.of_nat (List.length rows))) (row_width row0).
Proof.
  unfold widest. rewrite !firstn_all2 by (rewrite ?app_length; cbn; lia). rewrite map_app. cbn [map]. apply fold_max_app.
Qed.
Lemma widest_row cols rows r row : row_at rows r row -> row_width row <= widest cols rows r.
Proof.
  intros [H1 H]. unfold widest.
  assert (Hin : In (row_width row) (map row_width (firstn (Z.to_nat r) rows))).
  { apply in_map. replace (Z.to_nat r) with (S (Z.to_nat (r - 1))) by lia. clear H1. revert H. generalize (Z.to_nat (r - 1)) as n.
    induction rows as [|a rows IH]; intros [|n] H; cbn in H; try discriminate.
    - injection H as ->. left. reflexivity.
    - cbn. right. apply IH, H. }
  induction (map row_width (firstn (Z.to_nat r) rows)) as [|a l IH]; [destruct Hin|]. cbn. destruct Hin as [->|Hin]; [lia|]. specialize (IH Hin). lia.
Qed.
Lemma widest_ge cols rows r : cols <= widest cols rows r.
Proof. unfold widest. induction (map row_width (firstn (Z.to_nat r) rows)) as [|a l IH]; cbn; lia. Qed.
Lemma widest_mono cols rows r r' : r <= r' -> widest cols rows r <= widest cols rows r'.
Proof.
  intros H. unfold widest. replace (firstn (Z.to_nat r') rows) with (firstn (Z.to_nat r) rows ++ firstn (Z.to_nat r' - Z.to_nat r) (skipn (Z.to_nat r) rows)).
  - rewrite map_app, fold_right_app. generalize (map row_width (firstn (Z.to_nat r) rows)). intros l.
    set (m := fold_right Z.max cols (map row_width (firstn (Z.to_nat r' - Z.to_nat r) (skipn (Z.to_nat r) rows)))).
    assert (Hm : cols <= m) by (unfold m; clear; induction (map row_width _) as [|a l IH]; cbn; lia).
    induction l as [|a l IH]; cbn; lia.
  - rewrite <- (firstn_skipn (Z.to_nat r) (firstn (Z.to_nat r') rows)). rewrite firstn_firstn, skipn_firstn_comm.
    rewrite Nat.min_l by lia. reflexivity.
Qed.

(** ** What is drawn while a row is being read *)

Definition shape (c : slot) : content := CList (map CNode (tc_content (sl_cell c))).
Definition region_box (c : slot) (r e : Z) : box := MkBox (Coord (sl_start c) r) (Coord (sl_start c + sl_width c - 1) e).
Inductive drawn (cols : Z) (done : list wrow) (cur : wrow) : content -> nature -> box -> Prop :=
| dr_shown r row c e :
    row_at (done ++ [cur]) r row -> In c (wr_slots row) -> sl_continues c = false ->
    goes_to (done ++ [cur]) r (sl_start c) (sl_width c) e ->
    drawn cols done cur (shape c) (Some (wr_nature row)) (region_box c r e)
| dr_completed r row x :
    row_at done r row -> row_width row < x <= widest cols done r ->
    drawn cols done cur CNone (Some (wr_nature row)) (MkBox (Coord x r) (Coord x r)).

Definition add_slot (cur : wrow) (c : slot) : wrow := MkWRow (wr_nature cur) (wr_slots cur ++ [c]).
(** [cur] is the beginning of the row [full] *)
Definition prefix_of (cur full : wrow) : Prop :=
  wr_nature cur = wr_nature full /\ exists rest, wr_slots full = wr_slots cur ++ rest.

Section Row.
  Variable cols : Z.
  Variable done : list wrow.
  Notation r := (Z.of_nat (List.length done) + 1).
  Definition sound (cur : wrow) : Prop := Forall neat done /\ neat cur /\ regular (done ++ [cur]).

  Lemma sound_row cur q row : sound cur -> row_at (done ++ [cur]) q row -> neat row.
  Proof.
    intros (H1 & H2 & _) H. apply row_at_app in H as [H|[_ ->]]; [|exact H2].
    rewrite Forall_forall in H1. apply H1. eapply row_at_in, H.
  Qed.
  Lemma sound_prefix cur full : prefix_of cur full -> sound full -> sound cur.
  Proof.
    intros [Hn (rest & E)] (H1 & H2 & H3). split; [exact H1|]. split.
    - unfold neat in *. rewrite E in H2. apply tiled_app in H2. apply H2.
    - intros q row s w Hrow Hc. apply row_at_app in Hrow as [Hrow|[-> ->]].
      + destruct (H3 q row s w) as (above & c & Ha & Hin & Hs); [apply row_at_app; auto|exact Hc|].
        apply row_at_app in Ha as [Ha|[Hq ->]].
        * exists above, c. split; [apply row_at_app; auto|auto].
        * apply row_at_le in Hrow. lia.
      + destruct (H3 r full s w) as (above & c & Ha & Hin & Hs).
        * apply row_at_app. right. auto.
        * destruct Hc as (c & Hin & Hs & Hk). exists c. split; [rewrite E; apply in_app_iff; auto|auto].
        * apply row_at_app in Ha as [Ha|[Hq ->]]; [|lia]. exists above, c. split; [apply row_at_app; auto|auto].
  Qed.

  (** Which coordinates are covered *)
  Lemma drawn_covers cur ct na b x y : sound cur -> drawn cols done cur ct na b -> covers b (Coord x y) ->
    1 <= x /\ ((1 <= y <= Z.of_nat (List.length done) /\ x <= widest cols done y) \/ (y = r /\ x <= row_width cur)).
  Proof.
    intros HS HD HC. destruct HD as [r0 row c e Hrow Hc Hk Hg|r0 row x0 Hrow Hx].
    - unfold covers, region_box in HC. cbn in HC.
      pose proof (tiled_in _ _ _ (sound_row _ _ _ HS Hrow) Hc) as Hin.
      assert (Hy : exists row', row_at (done ++ [cur]) y row' /\ sl_start c + sl_width c - 1 <= row_width row').
      { destruct (Z.eq_dec y r0) as [->|Hne].
        - exists row. split; [exact Hrow|]. rewrite row_width_total. lia.
        - apply goes_to_eq in Hg as (_ & Hg & _). destruct (Hg y) as (row' & Hrow' & d & Hd & [Hd1 Hd2] & _); [lia|].
          exists row'. split; [exact Hrow'|]. pose proof (tiled_in _ _ _ (sound_row _ _ _ HS Hrow') Hd). rewrite row_width_total. lia. }
      destruct Hy as (row' & Hrow' & Hw). split; [lia|]. apply row_at_app in Hrow' as [Hrow'|[-> ->]].
      + left. split; [eapply row_at_le, Hrow'|]. pose proof (widest_row cols done y row' Hrow'). lia.
      + right. split; [reflexivity|lia].
    - unfold covers in HC. cbn in HC. assert (x = x0) by lia. assert (y = r0) by lia. subst.
      assert (Hn : neat row). { destruct HS as (H1 & _). rewrite Forall_forall in H1. apply H1. eapply row_at_in, Hrow. }
      pose proof (tiled_total _ _ Hn). rewrite row_width_total in Hx.
      split; [lia|]. left. split; [eapply row_at_le, Hrow|lia].
  Qed.
  Lemma cur_covered cur y row x : sound cur -> row_at (done ++ [cur]) y row -> 1 <= x <= row_width row ->
    exists r0 row0 c e, row_at (done ++ [cur]) r0 row0 /\ In c (wr_slots row0) /\ sl_continues c = false /\
      goes_to (done ++ [cur]) r0 (sl_start c) (sl_width c) e /\ covers (region_box c r0 e) (Coord x y).
  Proof.
    intros HS Hrow Hx. destruct (tiled_at 0 (wr_slots row) x (sound_row _ _ _ HS Hrow)) as (c & Hc & Hxc); [rewrite row_width_total in Hx; lia|].
    destruct (sl_continues c) eqn:Ek.
    - destruct (region_above _ y row c (proj2 (proj2 HS)) Hrow Hc Ek) as (r0 & row0 & c0 & Hr0 & Hrow0 & Hc0 & Hk0 & [Hs0 Hw0] & Hq).
      destruct (goes_to_ex (done ++ [cur]) r0 (sl_start c0) (sl_width c0)) as (e & He); [apply Hrow0|].
      exists r0, row0, c0, e. split; [exact Hrow0|]. split; [exact Hc0|]. split; [exact Hk0|]. split; [exact He|].
      apply goes_to_eq in He as (He1 & He2 & He3). unfold covers, region_box. cbn.
      assert (y <= e). { destruct (Z_le_gt_dec y e); [assumption|]. exfalso. apply He3. rewrite Hs0, Hw0. apply Hq. lia. }
      lia.
    - destruct (goes_to_ex (done ++ [cur]) y (sl_start c) (sl_width c)) as (e & He); [apply Hrow|].
      exists y, row, c, e. split; [exact Hrow|]. split; [exact Hc|]. split; [exact Ek|]. split; [exact He|].
      apply goes_to_eq in He as (He1 & _). unfold covers, region_box. cbn. lia.
  Qed.
  Lemma covers_drawn cur x y : sound cur -> 1 <= x ->
    ((1 <= y <= Z.of_nat (List.length done) /\ x <= widest cols done y) \/ (y = r /\ x <= row_width cur)) ->
    exists ct na b, drawn cols done cur ct na b /\ covers b (Coord x y).
  Proof.
    intros HS Hx H.
    assert (HY : exists row, row_at (done ++ [cur]) y row /\ (x <= row_width row \/ row_at done y row /\ x <= widest cols done y)).
    { destruct H as [[Hy Hw]|[-> Hw]].
      - destruct (row_at_ex done y Hy) as (row & Hrow). exists row. split; [apply row_at_app; auto|auto].
      - exists cur. split; [apply row_at_app; auto|auto]. }
    destruct HY as (row & Hrow & HW).
    destruct (Z_le_gt_dec x (row_width row)) as [L|G].
    - destruct (cur_covered cur y row x HS Hrow) as (r0 & row0 & c & e & H1 & H2 & H3 & H4 & H5); [lia|].
      do 3 eexists. split; [eapply dr_shown; eauto|exact H5].
    - destruct HW as [HW|[Hd HW]]; [lia|]. do 3 eexists. split; [eapply (dr_completed _ _ _ y row x); eauto; lia|].
      unfold covers. cbn. lia.
  Qed.

  (** Two regions have no common coordinate *)
  Lemma region_row cur r1 row1 d e x y : sound cur -> row_at (done ++ [cur]) r1 row1 -> In d (wr_slots row1) ->
    goes_to (done ++ [cur]) r1 (sl_start d) (sl_width d) e -> covers (region_box d r1 e) (Coord x y) ->
    exists row c, row_at (done ++ [cur]) y row /\ In c (wr_slots row) /\ same_columns (sl_start d) (sl_width d) c /\
      (y = r1 /\ c = d \/ r1 < y /\ sl_continues c = true) /\ sl_start d <= x <= sl_start d + sl_width d - 1.
  Proof.
    intros HS Hr1 Hd Hg HC. unfold covers, region_box in HC. cbn in HC. destruct (Z.eq_dec y r1) as [->|Hne].
    - exists row1, d. split; [exact Hr1|]. split; [exact Hd|]. split; [split; reflexivity|]. split; [left; auto|lia].
    - apply goes_to_eq in Hg as (_ & G & _). destruct (G y) as (row & Hrow & c & Hc & Hs & Hk); [lia|].
      exists row, c. split; [exact Hrow|]. split; [exact Hc|]. split; [exact Hs|]. split; [right; split; [lia|exact Hk]|lia].
  Qed.
  Lemma drawn_disjoint cur ct na b ct' na' b' x y : sound cur ->
    drawn cols done cur ct na b -> drawn cols done cur ct' na' b' -> covers b (Coord x y) -> covers b' (Coord x y) -> b = b'.
  Proof.
    intros HS HD HD' HC HC'.
    assert (Hgen : forall r1 row1 d e row c, row_at (done ++ [cur]) r1 row1 -> In d (wr_slots row1) -> sl_continues d = false ->
      goes_to (done ++ [cur]) r1 (sl_start d) (sl_width d) e -> covers (region_box d r1 e) (Coord x y) ->
      row_at done y row -> c = row_width row -> c < x -> False).
    { intros r1 row1 d e row c Hr1 Hd Hk Hg HCd Hrow -> Hx.
      destruct (region_row cur r1 row1 d e x y HS Hr1 Hd Hg HCd) as (row' & c & Hrow' & Hc & [Hs Hw] & _ & Hxc).
      assert (row' = row) by (eapply row_at_fun; [exact Hrow'|apply row_at_app; auto]). subst row'.
      pose proof (tiled_in _ _ _ (sound_row _ _ _ HS Hrow') Hc). rewrite row_width_total in Hx. lia. }
    destruct HD as [r1 row1 d e Hr1 Hd Hk Hg|r1 row1 x1 Hr1 Hx1]; destruct HD' as [r2 row2 d2 e2 Hr2 Hd2 Hk2 Hg2|r2 row2 x2 Hr2 Hx2].
    - destruct (region_row cur r1 row1 d e x y HS Hr1 Hd Hg HC) as (rowa & ca & Hra & Hca & [Hsa Hwa] & Hora & Hxa).
      destruct (region_row cur r2 row2 d2 e2 x y HS Hr2 Hd2 Hg2 HC') as (rowb & cb & Hrb & Hcb & [Hsb Hwb] & Horb & Hxb).
      assert (rowb = rowa) by (eapply row_at_fun; eauto). subst rowb.
      assert (ca = cb) by (apply (tiled_same 0 (wr_slots rowa) ca cb x); auto; [eapply sound_row; eauto|lia|lia]). subst cb.
      assert (Hsame : sl_start d2 = sl_start d /\ sl_width d2 = sl_width d) by (split; congruence). destruct Hsame as [Es Ew].
      assert (Hstart : forall q row z p row' z' f, row_at (done ++ [cur]) q row -> In z (wr_slots row) -> sl_continues z = false ->
                row_at (done ++ [cur]) p row' -> In z' (wr_slots row') -> goes_to (done ++ [cur]) p (sl_start z') (sl_width z') f ->
                sl_start z = sl_start z' -> p < q <= f -> False).
      { intros q row z p row' z' f Hq Hz Hkz Hp Hz' Hf Ez Hpq. apply goes_to_eq in Hf as (_ & G & _).
        destruct (G q Hpq) as (row3 & Hrow3 & z3 & Hz3 & [Hz31 _] & Hk3). rewrite (row_at_fun _ _ _ _ Hrow3 Hq) in Hz3.
        assert (z = z3) by (apply (neat_same row); auto; [eapply sound_row; eauto|congruence]). congruence. }
      assert (Er : r1 = r2).
      { unfold covers, region_box in HC, HC'. cbn in HC, HC'.
        destruct (Z.lt_trichotomy r1 r2) as [L|[E|L]]; [|exact E|]; exfalso.
        - apply (Hstart r2 row2 d2 r1 row1 d e); auto; lia.
        - apply (Hstart r1 row1 d r2 row2 d2 e2); auto; lia. }
      subst r2. rewrite Es, Ew in Hg2. rewrite (goes_to_fun _ _ _ _ _ _ Hg Hg2). unfold region_box. rewrite Es, Ew. reflexivity.
    - exfalso. unfold covers in HC'. cbn in HC'. assert (x = x2) by lia. assert (y = r2) by lia. subst.
      eapply (Hgen r1 row1 d e row2); eauto; lia.
    - exfalso. unfold covers in HC. cbn in HC. assert (x = x1) by lia. assert (y = r1) by lia. subst.
      eapply (Hgen r2 row2 d2 e2 row1); eauto; lia.
    - unfold covers in HC, HC'. cbn in HC, HC'. assert (x = x1) by lia. assert (y = r1) by lia. assert (x = x2) by lia. assert (y = r2) by lia.
      subst. reflexivity.
  Qed.

  (** ** A new cell *)

  Lemma carried_app cur c q s w : carried (done ++ [add_slot cur c]) q s w <->
    carried (done ++ [cur]) q s w \/ (q = r /\ sl_continues c = true /\ same_columns s w c).
  Proof.
    unfold carried. split.
    - intros (row & Hrow & Hc). apply row_at_app in Hrow as [Hrow|[-> ->]].
      + left. exists row. split; [apply row_at_app; auto|exact Hc].
      + destruct Hc as (d & Hd & Hs & Hk). cbn in Hd. apply in_app_iff in Hd as [Hd|[<-|[]]].
        * left. exists cur. split; [apply row_at_app; auto|]. exists d. auto.
        * right. auto.
    - intros [(row & Hrow & Hc)|(-> & Hk & Hs)].
      + apply row_at_app in Hrow as [Hrow|[-> ->]].
        * exists row. split; [apply row_at_app; auto|exact Hc].
        * exists (add_slot cur c). split; [apply row_at_app; auto|]. destruct Hc as (d & Hd & Hs & Hk). exists d. split; [apply in_app_iff; auto|auto].
      + exists (add_slot cur c). split; [apply row_at_app; auto|]. exists c. split; [apply in_app_iff; right; left; reflexivity|auto].
  Qed.
  Lemma carried_le cur q s w : carried (done ++ [cur]) q s w -> q <= r.
  Proof. intros (row & Hrow & _). apply row_at_le in Hrow. rewrite app_length in Hrow. cbn in Hrow. lia. Qed.

  Lemma goes_same cur c q s w e : (sl_continues c = true -> ~ same_columns s w c) ->
    (goes_to (done ++ [add_slot cur c]) q s w e <-> goes_to (done ++ [cur]) q s w e).
  Proof.
    intros H. assert (E : forall q, carried (done ++ [add_slot cur c]) q s w <-> carried (done ++ [cur]) q s w).
    { intros p. rewrite carried_app. split; [intros [X|(_ & X & Y)]; [exact X|exfalso; exact (H X Y)]|auto]. }
    rewrite !goes_to_eq, E. split; intros (H1 & H2 & H3); (split; [exact H1|split; [|exact H3]]); intros p Hp; apply E, H2, Hp.
  Qed.
  Lemma goes_last cur s w : goes_to (done ++ [cur]) r s w r.
  Proof.
    apply goes_to_eq. split; [lia|]. split; [lia|]. intros (row & Hrow & _). apply row_at_le in Hrow. rewrite app_length in Hrow. cbn in Hrow. lia.
  Qed.

  Lemma drawn_insert cur c ct na b : sl_continues c = false ->
    (drawn cols done (add_slot cur c) ct na b <->
     drawn cols done cur ct na b \/ (ct = shape c /\ na = Some (wr_nature cur) /\ b = region_box c r r)).
  Proof.
    intros Hk. assert (HG : forall q s w e, goes_to (done ++ [add_slot cur c]) q s w e <-> goes_to (done ++ [cur]) q s w e).
    { intros q s w e. apply goes_same. congruence. }
    split.
    - intros HD. destruct HD as [r0 row d e Hrow Hd Hkd Hg|r0 row x Hrow Hx]; [|left; econstructor; eauto].
      apply HG in Hg. apply row_at_app in Hrow as [Hrow|[-> ->]].
      + left. econstructor; eauto. apply row_at_app. auto.
      + cbn in Hd. apply in_app_iff in Hd as [Hd|[<-|[]]].
        * left. change (wr_nature (add_slot cur c)) with (wr_nature cur). apply (dr_shown _ _ _ r cur); auto. apply row_at_app. auto.
        * right. rewrite (goes_to_fun _ _ _ _ _ _ Hg (goes_last cur _ _)). auto.
    - intros [HD|(-> & -> & ->)].
      + destruct HD as [r0 row d e Hrow Hd Hkd Hg|r0 row x Hrow Hx]; [|econstructor; eauto].
        apply HG in Hg. apply row_at_app in Hrow as [Hrow|[-> ->]].
        * econstructor; eauto. apply row_at_app. auto.
        * change (wr_nature cur) with (wr_nature (add_slot cur c)). apply (dr_shown _ _ _ r (add_slot cur c)); auto; [apply row_at_app; auto|apply in_app_iff; auto].
      + change (wr_nature cur) with (wr_nature (add_slot cur c)). apply (dr_shown _ _ _ r (add_slot cur c)); auto.
        * apply row_at_app. auto.
        * apply in_app_iff. right. left. reflexivity.
        * apply goes_last.
  Qed.

  (** ** A cell which continues the one above *)

  Lemma drawn_expand cur c : sound (add_slot cur c) -> sl_continues c = true ->
    exists r0 row0 c0, row_at done r0 row0 /\ In c0 (wr_slots row0) /\ sl_continues c0 = false /\
      same_columns (sl_start c) (sl_width c) c0 /\
      drawn cols done cur (shape c0) (Some (wr_nature row0)) (region_box c0 r0 (r - 1)) /\
      forall ct na b, drawn cols done (add_slot cur c) ct na b <->
        (drawn cols done cur ct na b /\ b <> region_box c0 r0 (r - 1)) \/
        (ct = shape c0 /\ na = Some (wr_nature row0) /\ b = region_box c0 r0 r).
  Proof.
    intros HS Hk. pose proof HS as (Hdone & Hcur & Hreg).
    assert (Hrow : row_at (done ++ [add_slot cur c]) r (add_slot cur c)) by (apply row_at_app; auto).
    assert (Hc : In c (wr_slots (add_slot cur c))) by (apply in_app_iff; right; left; reflexivity).
    destruct (region_above _ r _ c Hreg Hrow Hc Hk) as (r0 & row0 & c0 & Hr0 & Hrow0 & Hc0 & Hk0 & Hs0 & Hq).
    assert (Hrow0' : row_at done r0 row0) by (apply row_at_app in Hrow0 as [X|[X _]]; [exact X|lia]).
    (* the row does not carry on these columns yet *)
    assert (Hnot : ~ carried (done ++ [cur]) r (sl_start c) (sl_width c)).
    { intros (row & Hrow' & d & Hd & [Hs Hw] & _). apply row_at_app in Hrow' as [X|[_ ->]]; [apply row_at_le in X; lia|].
      cbn in Hcur. unfold neat, add_slot in Hcur. cbn in Hcur. apply tiled_app in Hcur as [T1 T2]. inversion T2; subst.
      pose proof (tiled_in _ _ _ T1 Hd). lia. }
    assert (Hqd : forall q, r0 < q <= r - 1 -> carried (done ++ [cur]) q (sl_start c) (sl_width c)).
    { intros q Hq'. destruct (proj1 (carried_app cur c q _ _) (Hq q ltac:(lia))) as [X|[X _]]; [exact X|lia]. }
    destruct Hs0 as [Hs0 Hw0].
    assert (Hg0 : goes_to (done ++ [cur]) r0 (sl_start c0) (sl_width c0) (r - 1)).
    { rewrite Hs0, Hw0. apply goes_to_eq. split; [lia|]. split; [exact Hqd|]. replace (r - 1 + 1) with r by lia. exact Hnot. }
    exists r0, row0, c0. split; [exact Hrow0'|]. split; [exact Hc0|]. split; [exact Hk0|]. split; [split; assumption|].
    split; [apply (dr_shown _ _ _ r0 row0); auto; apply row_at_app; auto|].
    assert (HSc : sound cur). { apply (sound_prefix cur (add_slot cur c)); [|exact HS]. split; [reflexivity|]. exists [c]. reflexivity. }
    (* a region which ends just above and has these columns is this one *)
    assert (Huniq : forall r1 row1 d e, row_at (done ++ [cur]) r1 row1 -> In d (wr_slots row1) -> sl_continues d = false ->
      goes_to (done ++ [cur]) r1 (sl_start d) (sl_width d) e -> same_columns (sl_start c) (sl_width c) d -> r - 1 <= e ->
      r1 = r0 /\ row1 = row0 /\ d = c0 /\ e = r - 1).
    { intros r1 row1 d e Hr1 Hd Hkd Hg [Hds Hdw] Hle.
      assert (Hr1lt : r1 <= r - 1).
      { apply row_at_app in Hr1 as [X|[_ ->]]; [apply row_at_le in X; lia|]. exfalso.
        unfold neat, add_slot in Hcur. cbn in Hcur. apply tiled_app in Hcur as [T1 T2]. inversion T2; subst. pose proof (tiled_in _ _ _ T1 Hd). lia. }
      rewrite Hds, Hdw in Hg. rewrite Hs0, Hw0 in Hg0.
      assert (Hstart : forall q row x, row_at (done ++ [cur]) q row -> In x (wr_slots row) -> sl_continues x = false -> same_columns (sl_start c) (sl_width c) x ->
                ~ carried (done ++ [cur]) q (sl_start c) (sl_width c)).
      { intros q row x Hq1 Hx Hkx [Hx1 _] (row' & Hrow' & y & Hy & [Hy1 _] & Hky). rewrite (row_at_fun _ _ _ _ Hrow' Hq1) in Hy.
        assert (x = y) by (apply (neat_same row); auto; [eapply sound_row; eauto|congruence]). congruence. }
      assert (E1 : r1 = r0).
      { apply goes_to_eq in Hg as (_ & G1 & _). apply goes_to_eq in Hg0 as (_ & G0 & _).
        destruct (Z.lt_trichotomy r1 r0) as [L|[E|L]]; [|exact E|]; exfalso.
        - apply (Hstart r0 row0 c0); [apply row_at_app; auto|exact Hc0|exact Hk0|split; assumption|]. apply G1. lia.
        - apply (Hstart r1 row1 d); [exact Hr1|exact Hd|exact Hkd|split; assumption|]. apply G0. lia. }
      subst r1. assert (E2 : row1 = row0).
      { eapply row_at_fun; [exact Hr1|]. apply row_at_app. auto. }
      subst row1. split; [reflexivity|]. split; [reflexivity|]. split.
      - apply (neat_same row0); auto; [eapply sound_row; eauto|congruence].
      - exact (goes_to_fun _ _ _ _ _ _ Hg Hg0). }
    assert (HG0 : goes_to (done ++ [add_slot cur c]) r0 (sl_start c0) (sl_width c0) r).
    { rewrite Hs0, Hw0. apply goes_to_eq. split; [lia|]. split; [exact Hq|]. intros (row & Hx & _). apply row_at_le in Hx. rewrite app_length in Hx. cbn in Hx. lia. }
    (* regions of other columns, or which end before *)
    assert (HG : forall q s w e, goes_to (done ++ [cur]) q s w e -> (~ same_columns s w c \/ e < r - 1 \/ r <= q) -> q <= r ->
                   goes_to (done ++ [add_slot cur c]) q s w e).
    { intros q s w e Hg Hor Hqr. apply goes_to_eq in Hg as (G1 & G2 & G3). apply goes_to_eq. split; [exact G1|].
      split; [intros p Hp; apply carried_app; left; apply G2, Hp|]. rewrite carried_app. intros [X|(X & _ & Y)]; [exact (G3 X)|].
      destruct Hor as [Z1|[Z1|Z1]]; [exact (Z1 Y)|lia|lia]. }
    intros ct na b. split.
    - intros HD. destruct HD as [r1 row1 d e Hr1 Hd Hkd Hg|r1 row1 x Hr1 Hx].
      + assert (Hr1' : exists row1', row_at (done ++ [cur]) r1 row1' /\ wr_nature row1' = wr_nature row1 /\ In d (wr_slots row1')).
        { apply row_at_app in Hr1 as [X|[-> ->]].
          - exists row1. split; [apply row_at_app; auto|auto].
          - exists cur. split; [apply row_at_app; auto|]. split; [reflexivity|]. cbn in Hd. apply in_app_iff in Hd as [Hd|[<-|[]]]; [exact Hd|congruence]. }
        destruct Hr1' as (row1' & Hr1' & En & Hd'). rewrite <- En.
        destruct (goes_to_ex (done ++ [cur]) r1 (sl_start d) (sl_width d)) as (e' & He'); [apply Hr1|].
        assert (Hr1r : r1 <= r) by (apply row_at_le in Hr1'; rewrite app_length in Hr1'; cbn in Hr1'; lia).
        destruct (Z.eq_dec (sl_start d) (sl_start c)) as [Ed1|Ed1]; [destruct (Z.eq_dec (sl_width d) (sl_width c)) as [Ed2|Ed2]; [destruct (Z_le_gt_dec (r - 1) e') as [Le|Ge]|]|].
        * right. destruct (Huniq r1 row1' d e' Hr1' Hd' Hkd He' (conj Ed1 Ed2) Le) as (-> & -> & -> & ->).
          rewrite (goes_to_fun _ _ _ _ _ _ Hg HG0). auto.
        * left. assert (e = e') by (eapply goes_to_fun; [exact Hg|]; apply HG; auto; right; left; lia). subst e'.
          split; [eapply dr_shown; eauto|]. intros Eb. injection Eb as _ _ _ Ee. lia.
        * left. assert (e = e') by (eapply goes_to_fun; [exact Hg|]; apply HG; auto; left; intros [_ X]; congruence). subst e'.
          split; [eapply dr_shown; eauto|]. intros Eb. injection Eb as E1 _ E2 _. rewrite Hs0 in *. rewrite Hw0 in *. lia.
        * left. assert (e = e') by (eapply goes_to_fun; [exact Hg|]; apply HG; auto; left; intros [X _]; congruence). subst e'.
          split; [eapply dr_shown; eauto|]. intros Eb. injection Eb as E1 _ _ _. congruence.
      + left. split; [econstructor; eauto|]. intros Eb.
        (* a completing cell is on the right of the cells of the row *)
        injection Eb as E1 E2 E3 E4. subst r1. rewrite (row_at_fun _ _ _ _ Hr1 Hrow0') in Hx.
        pose proof (tiled_in _ _ _ (sound_row _ _ _ HSc (proj2 (row_at_app _ _ _ _) (or_introl Hrow0'))) Hc0) as T.
        rewrite row_width_total in Hx. lia.
    - intros [[HD Hb]|(-> & -> & ->)].
      + destruct HD as [r1 row1 d e Hr1 Hd Hkd Hg|r1 row1 x Hr1 Hx]; [|econstructor; eauto].
        assert (Hg' : goes_to (done ++ [add_slot cur c]) r1 (sl_start d) (sl_width d) e).
        { assert (Hr1r : r1 <= r) by (apply row_at_le in Hr1; rewrite app_length in Hr1; cbn in Hr1; lia).
          apply HG; auto.
          destruct (Z.eq_dec (sl_start d) (sl_start c)) as [Ed1|Ed1]; [|left; intros [X _]; congruence].
          destruct (Z.eq_dec (sl_width d) (sl_width c)) as [Ed2|Ed2]; [|left; intros [_ X]; congruence].
          destruct (Z_le_gt_dec (r - 1) e) as [Le|Ge]; [|right; left; lia]. exfalso. apply Hb.
          destruct (Huniq r1 row1 d e Hr1 Hd Hkd Hg (conj Ed1 Ed2) Le) as (-> & -> & -> & ->). reflexivity. }
        apply row_at_app in Hr1 as [X|[-> ->]].
        * eapply dr_shown; eauto. apply row_at_app. auto.
        * change (wr_nature cur) with (wr_nature (add_slot cur c)). apply (dr_shown _ _ _ r (add_slot cur c)); auto; apply in_app_iff; auto.
      + apply (dr_shown _ _ _ r0 row0); auto.
  Qed.

  (** ** The beginning and the end of a row *)

  Lemma drawn_end cur ct na b : displayed cols (done ++ [cur]) ct na b <->
    drawn cols done cur ct na b \/
    exists x, row_width cur < x <= Z.max (widest cols done (Z.of_nat (List.length done))) (row_width cur) /\
      ct = CNone /\ na = Some (wr_nature cur) /\ b = MkBox (Coord x r) (Coord x r).
  Proof.
    split.
    - intros HD. destruct HD as [r0 row c e l Hrow Hc Hk Hg Hl|r0 row x Hrow Hx].
      + left. rewrite (paragraphs_fun _ _ Hl). eapply dr_shown; eauto.
      + apply row_at_app in Hrow as [Hrow|[-> ->]].
        * left. econstructor; eauto. pose proof (row_at_le _ _ _ Hrow). rewrite widest_app in Hx by lia. exact Hx.
        * right. exists x. rewrite widest_last in Hx. auto.
    - intros [HD|(x & Hx & -> & -> & ->)].
      + destruct HD as [r0 row c e Hrow Hc Hk Hg|r0 row x Hrow Hx].
        * eapply shown; eauto. apply tc_content_spec.
        * apply completed; [apply row_at_app; auto|]. pose proof (row_at_le _ _ _ Hrow). rewrite widest_app by lia. exact Hx.
      + apply completed; [apply row_at_app; auto|]. rewrite widest_last. exact Hx.
  Qed.
  Lemma drawn_begin na0 ct na b : drawn cols done (MkWRow na0 []) ct na b <-> displayed cols done ct na b.
  Proof.
    assert (HG : forall q s w e, q <= Z.of_nat (List.length done) ->
              (goes_to (done ++ [MkWRow na0 []]) q s w e <-> goes_to done q s w e)).
    { intros q s w e Hq. assert (E : forall p, carried (done ++ [MkWRow na0 []]) p s w <-> carried done p s w).
      { intros p. split; intros (row & Hrow & Hc).
        - apply row_at_app in Hrow as [X|[_ ->]]; [exists row; auto|]. destruct Hc as (d & [] & _).
        - exists row. split; [apply row_at_app; auto|exact Hc]. }
      rewrite !goes_to_eq, E. split; intros (H1 & H2 & H3); (split; [exact H1|split; [|exact H3]]); intros p Hp; apply E, H2, Hp. }
    split; intros HD.
    - destruct HD as [r0 row c e Hrow Hc Hk Hg|r0 row x Hrow Hx]; [|apply completed; assumption].
      apply row_at_app in Hrow as [Hrow|[_ ->]]; [|destruct Hc]. pose proof (row_at_le _ _ _ Hrow).
      eapply shown; eauto; [apply HG; [lia|exact Hg]|apply tc_content_spec].
    - destruct HD as [r0 row c e l Hrow Hc Hk Hg Hl|r0 row x Hrow Hx]; [|apply dr_completed; assumption].
      rewrite (paragraphs_fun _ _ Hl). pose proof (row_at_le _ _ _ Hrow). eapply dr_shown; eauto; [apply row_at_app; auto|apply HG; [lia|exact Hg]].
  Qed.
End Row.
