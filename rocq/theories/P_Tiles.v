(** * Proofs about drawings with given tiles *)
From Verif Require Import Base M_Geometry M_Xml M_Cell M_Grid M_Drawing M_Tiles.
From Verif Require Import S_Geometry S_Cell S_Grid S_Drawing S_Tiles P_Geometry P_Cell P_Grid P_GridFacts P_Cals P_Drawing.
Open Scope list_scope.
Open Scope Z_scope.

Lemma rmap_first {A B} (f : A -> result B) l x : rmap f l = Err x -> exists l1 a l2, l = l1 ++ a :: l2 /\ f a = Err x /\ forall b, In b l1 -> exists c, f b = Ok c.
Proof.
  induction l as [|a l IH]; cbn [rmap]; [discriminate|]. destruct (f a) as [b|y] eqn:E; cbn [rbind].
  - destruct (rmap f l) as [bs|y]; cbn [rbind]; [discriminate|]. intros H. destruct IH as (l1 & c & l2 & -> & H2 & H3); [injection H as ->; reflexivity|].
    exists (a :: l1), c, l2. split; [reflexivity|]. split; [exact H2|]. intros d [<-|Hd]; [eauto|exact (H3 d Hd)].
  - intros H. injection H as ->. exists [], a, l. split; [reflexivity|]. split; [exact E|intros d []].
Qed.
Lemma rmap_err {A B} (f : A -> result B) l x : rmap f l = Err x -> exists a, In a l /\ f a = Err x.
Proof.
  induction l as [|a l IH]; cbn [rmap]; [discriminate|]. destruct (f a) as [b|y] eqn:E; cbn [rbind].
  - destruct (rmap f l) as [bs|y]; cbn [rbind]; [discriminate|]. intros H. destruct IH as (c & H1 & H2); [injection H as ->; reflexivity|]. exists c. split; [right|]; assumption.
  - intros H. injection H as ->. exists a. split; [left; reflexivity|exact E].
Qed.

(** ** The text of a tile *)

Notation X9 := (text_chars "XXXXXXXXX"%string).
Definition fill (shown l : list ascii) : list ascii := py_replace l X9 shown.

Lemma prefixb_spec p : forall s, prefixb p s = true <-> exists r, s = p ++ r.
Proof.
  induction p as [|a p IH]; intros s; cbn [prefixb app]; [split; [eauto|reflexivity]|]. destruct s as [|b s].
  - split; [discriminate|]. intros (r & Hr). discriminate Hr.
  - rewrite andb_true_iff, Ascii.eqb_eq, IH. split.
    + intros [-> (r & ->)]. exists r. reflexivity.
    + intros (r & H). injection H as -> ->. eauto.
Qed.
Lemma fill_here shown rest : fill shown (placeholder ++ rest) = shown ++ fill shown rest.
Proof. reflexivity. Qed.
Lemma fill_other shown c rest : (forall r, c :: rest <> placeholder ++ r) -> fill shown (c :: rest) = c :: fill shown rest.
Proof.
  intros H. unfold fill, py_replace. cbn [replace_from]. destruct (prefixb X9 (c :: rest)) eqn:E; [|reflexivity].
  apply prefixb_spec in E as (r & E). destruct (H r E).
Qed.
Lemma fill_filled shown : forall n l, (List.length l <= n)%nat -> filled shown l (fill shown l).
Proof.
  induction n as [|n IH]; intros l Hl; (destruct l as [|c l]; [apply filled_end|]); [cbn in Hl; lia|].
  destruct (prefixb X9 (c :: l)) eqn:E.
  - apply prefixb_spec in E as (r & E). change X9 with placeholder in E. rewrite E, fill_here. apply filled_here, IH.
    apply (f_equal (@List.length _)) in E. rewrite app_length in E. unfold placeholder in E. rewrite repeat_length in E. lia.
  - assert (H : forall r, c :: l <> placeholder ++ r).
    { intros r Hr. assert (K : prefixb X9 (c :: l) = true) by (apply prefixb_spec; exists r; exact Hr). congruence. }
    rewrite fill_other by exact H. apply filled_other; [exact H|]. apply IH. cbn in Hl. lia.
Qed.
Lemma filled_fill shown l out : filled shown l out <-> out = fill shown l.
Proof.
  split; [|intros ->; apply (fill_filled shown (List.length l)); lia].
  induction 1 as [|rest out _ IH|c rest out H _ IH]; [reflexivity|rewrite fill_here, IH; reflexivity|rewrite fill_other, IH by exact H; reflexivity].
Qed.
Lemma filled_length shown l out : List.length shown = 9%nat -> filled shown l out -> List.length out = List.length l.
Proof.
  intros H9. induction 1 as [|rest out _ IH|c rest out _ _ IH]; [reflexivity|rewrite !app_length, H9, IH; reflexivity|cbn [List.length]; rewrite IH; reflexivity].
Qed.
Lemma filled_plain shown l out : no_break shown -> no_break l -> filled shown l out -> no_break out.
Proof.
  intros Hs Hl H. induction H as [|rest out _ IH|c rest out _ _ IH]; [constructor| |].
  - apply Forall_app in Hl as [_ Hl]. apply Forall_app. split; [exact Hs|exact (IH Hl)].
  - inversion Hl as [|? ? Hc Hr]; subst. constructor; [exact Hc|exact (IH Hr)].
Qed.
Lemma newline_break : line_break newline.
Proof. left. reflexivity. Qed.
Lemma filled_app shown l out s : no_break l -> filled shown l out -> fill shown (l ++ newline :: s) = out ++ newline :: fill shown s.
Proof.
  intros Hl H. induction H as [|rest out _ IH|c rest out H _ IH].
  - apply fill_other. intros r Hr. discriminate Hr.
  - apply Forall_app in Hl as [_ Hl]. rewrite <- !app_assoc, fill_here, IH by exact Hl. reflexivity.
  - inversion Hl as [|? ? Hc Hr]; subst. cbn [app]. rewrite fill_other, IH; [reflexivity|exact Hr|].
    intros r Hp. change (c :: rest ++ newline :: s) with ((c :: rest) ++ newline :: s) in Hp.
    assert (G : forall (p m : list ascii) r, ~ In newline p -> m ++ newline :: s = p ++ r -> exists r', m = p ++ r').
    { clear. induction p as [|a p IHp]; intros m r Hp E; [exists m; reflexivity|]. destruct m as [|b m]; cbn [app] in E; injection E as E1 E2.
      - destruct Hp. left. symmetry. exact E1.
      - apply IHp in E2 as (r' & ->); [|intros K; apply Hp; right; exact K]. exists r'. rewrite E1. reflexivity. }
    destruct (G placeholder (c :: rest) r) as (r' & Hr'); [|exact Hp|exact (H r' Hr')].
    intros K. apply repeat_spec in K. discriminate K.
Qed.

Lemma no_break_plain l : no_break l <-> Forall (fun c => is_break c = false) l.
Proof.
  unfold no_break. split; apply Forall_impl; intros a Ha.
  - apply not_true_iff_false. rewrite is_break_spec. exact Ha.
  - rewrite <- is_break_spec. congruence.
Qed.
Lemma split_one l s : no_break l -> py_splitlines (l ++ newline :: s) = l :: py_splitlines s.
Proof.
  intros H. unfold py_splitlines. rewrite split_plain by (apply no_break_plain, H). rewrite app_nil_r. cbn [split_from]. change (is_break newline) with true. rewrite rev_involutive.
  destruct s as [|d s]; reflexivity.
Qed.
Lemma split_last l : l <> [] -> no_break l -> py_splitlines l = [l].
Proof.
  intros H0 H. unfold py_splitlines. rewrite <- (app_nil_r l) at 1. rewrite split_plain by (apply no_break_plain, H). rewrite app_nil_r. cbn [split_from].
  destruct (rev l) eqn:E; [apply (f_equal (@rev _)) in E; rewrite rev_involutive in E; cbn in E; congruence|]. rewrite <- E, rev_involutive. reflexivity.
Qed.
Lemma fill_nonempty shown l : List.length shown = 9%nat -> l <> [] -> fill shown l <> [].
Proof.
  intros H9 Hl E. pose proof (filled_length shown l (fill shown l) H9 (proj2 (filled_fill _ _ _) eq_refl)) as H. rewrite E in H. destruct l; [congruence|discriminate H].
Qed.
(** the lines of a tile after the placeholder was replaced *)
Lemma rows_split text rs shown : List.length shown = 9%nat -> no_break shown -> rows_are text rs ->
  filter nonempty (py_splitlines (fill shown text)) = map (fill shown) rs.
Proof.
  intros H9 Hs H. assert (F : forall l, filled shown l (fill shown l)) by (intros l; apply filled_fill; reflexivity).
  induction H as [|l Hl Hb|s rs H IH|l s rs Hl Hb H IH].
  - reflexivity.
  - rewrite split_last; [|apply fill_nonempty; assumption|apply (filled_plain shown l); auto].
    cbn [filter map]. destruct (fill shown l) eqn:E; [destruct (fill_nonempty shown l H9 Hl E)|reflexivity].
  - change (ascii_of_nat 10 :: s) with ([] ++ newline :: s). rewrite (filled_app shown [] [] s) by constructor. rewrite split_one by constructor. exact IH.
  - change (ascii_of_nat 10) with newline. rewrite (filled_app shown l _ s Hb (F l)). rewrite split_one by (apply (filled_plain shown l); auto).
    cbn [filter map]. rewrite IH. destruct (fill shown l) eqn:E; [destruct (fill_nonempty shown l H9 Hl E)|reflexivity].
Qed.
Lemma rows_unique text rs rs' : rows_are text rs -> rows_are text rs' -> rs = rs'.
Proof.
  assert (G : forall text rs, rows_are text rs -> rs = filter nonempty (py_splitlines text)).
  { induction 1 as [|l Hl Hb|s r H IH|l s r Hl Hb H IH].
    - reflexivity.
    - rewrite split_last by assumption. destruct l; [congruence|reflexivity].
    - change (ascii_of_nat 10 :: s) with ([] ++ newline :: s). rewrite split_one by constructor. exact IH.
    - change (ascii_of_nat 10) with newline. rewrite split_one by exact Hb. cbn [filter]. rewrite <- IH. destruct l; [congruence|reflexivity]. }
  intros H1 H2. rewrite (G _ _ H1), (G _ _ H2). reflexivity.
Qed.
Lemma centred_unique text a b : centred text a -> centred text b -> a = b.
Proof.
  intros (A1 & A2 & A3) (B1 & B2 & B3). destruct (Nat.le_gt_cases (List.length text) 9) as [L|L]; [|rewrite (A2 L), (B2 L); reflexivity].
  destruct (A3 L) as (p & q & -> & H). destruct (B3 L) as (p' & q' & -> & H'). rewrite !app_length, !repeat_length in A1, B1.
  replace p' with p by lia. replace q' with q by lia. reflexivity.
Qed.
Lemma shown_no_break g x y : (forall c, In c g -> plain c) -> no_break (shown g x y).
Proof. intros H. apply no_break_plain, shown_plain, H. Qed.

(** ** The tile of a coordinate *)

Lemma key_eqb_eq a b : key_eqb a b = true <-> a = b.
Proof. destruct a as [[[l t] r] b1], b as [[[l' t'] r'] b']. destruct l, t, r, b1, l', t', r', b'; cbn; split; congruence. Qed.
Lemma tile_get_spec tiles key : NoDup (map fst tiles) ->
  match tile_get tiles key with
  | Ok text => exists tile, text = list_ascii_of_string tile /\ forall t, In (key, t) tiles <-> t = tile
  | Err x => x = EKeyError /\ forall t, ~ In (key, t) tiles
  end.
Proof.
  induction tiles as [|[k s] tiles IH]; intros ND; cbn [tile_get]; [split; [reflexivity|intros t []]|]. cbn [map fst] in ND. inversion ND as [|? ? Hk ND']; subst.
  destruct (key_eqb k key) eqn:E.
  - apply key_eqb_eq in E as ->. exists s. split; [reflexivity|]. intros t. split; [|intros ->; left; reflexivity].
    intros [H|H]; [injection H as ->; reflexivity|]. destruct Hk. apply in_map_iff. exists (key, t). auto.
  - assert (Hne : k <> key) by (intros K; apply key_eqb_eq in K; congruence). specialize (IH ND'). destruct (tile_get tiles key) as [text|x].
    + destruct IH as (tile & H1 & H2). exists tile. split; [exact H1|]. intros t. rewrite <- H2. split; [intros [H|H]; [injection H as H _; congruence|exact H]|right; assumption].
    + destruct IH as [H1 H2]. split; [exact H1|]. intros t [H|H]; [injection H as H _; congruence|exact (H2 t H)].
Qed.

Lemma tile_of_usable tiles : tiles <> [] -> forall k, tile_of (Some tiles) k = tile_get tiles k.
Proof. intros H k. destruct tiles; [congruence|reflexivity]. Qed.

Section Tiles.
  Variable tiles : tile_set.
  Hypothesis Hu : usable tiles.
  Variable g : grid.
  Hypothesis Hp : forall c, In c g -> plain c.
  Variable bb : box.
  Hypothesis V : valid bb.

  Definition key_at (x y : Z) : tile_key := (is_left g x y, is_top g x y, cx (bmax bb) =? x, cy (bmax bb) =? y).
  Lemma draw_tile_with_ok x y : 1 <= x -> 1 <= y ->
    draw_tile_with (Some tiles) g bb x y = (tile <-? tile_get tiles (key_at x y) ;; Ok (fill (shown g x y) tile)).
  Proof.
    intros Hx Hy. unfold draw_tile_with, key_at, is_left, is_top, shown, owner.
    pose proof (tile_of_usable tiles (proj1 Hu)) as T.
    destruct (grid_getitem_c g (Coord x y)) as [c|e] eqn:E.
    - apply getitem_c_ok in E as (E1 & _). rewrite E1. cbn [rbind fst snd text_place cx cy bmin bmax]. rewrite T.
      destruct (tile_get _ _); cbn [rbind]; [destruct (_ && _); reflexivity|reflexivity].
    - apply getitem_c_err in E as (_ & E1). rewrite E1. unfold box_new. cbn [fst snd text_place cx cy bmin bmax].
      rewrite box_validate_ok by lia. cbn [rbind fst snd text_place cx cy bmin bmax]. rewrite T.
      destruct (tile_get _ _); cbn [rbind]; [destruct (_ && _); reflexivity|reflexivity].
  Qed.
  Lemma tile_at_iff x y t : tile_at tiles g bb (Coord x y) t <->
    exists tile rs, In (key_at x y, tile) tiles /\ rows_are (list_ascii_of_string tile) rs /\ t = map (fill (shown g x y)) rs.
  Proof.
    unfold tile_at. split.
    - intros (b & text & tile & rs & sh & H1 & H2 & H3 & H4 & H5). exists tile, rs.
      assert (Es : sh = shown g x y).
      { destruct (shown_at g (Coord x y) b text H1) as [[K1 K2]|[K1 K2]]; destruct H4 as [[L1 L2]|[L1 L2]]; try congruence; [exact (centred_unique _ _ _ L2 K2)|]. cbn [cx cy] in K2. congruence. }
      apply seen_owner in H1. unfold key_at, is_left, is_top. rewrite H1. cbn [fst]. split; [exact H2|]. split; [exact H3|]. rewrite <- Es.
      clear -H5. induction H5 as [|a b l m H _ IH]; [reflexivity|]. cbn [map]. rewrite IH. apply filled_fill in H. rewrite H. reflexivity.
    - intros (tile & rs & H1 & H2 & ->). exists (fst (owner g (Coord x y))), (snd (owner g (Coord x y))), tile, rs, (shown g x y).
      split; [apply owner_seen|]. split; [exact H1|]. split; [exact H2|]. split; [apply (shown_at g (Coord x y)), owner_seen|].
      clear. induction rs as [|r rs IH]; cbn [map]; constructor; [apply filled_fill; reflexivity|exact IH].
  Qed.
  Lemma tile_at_unique k t t' : tile_at tiles g bb k t -> tile_at tiles g bb k t' -> t = t'.
  Proof.
    destruct k as [x y]. rewrite !tile_at_iff. intros (tile & rs & H1 & H2 & ->) (tile' & rs' & K1 & K2 & ->). destruct Hu as (_ & ND & _).
    assert (E : tile = tile').
    { pose proof (tile_get_spec tiles (key_at x y) ND) as H. destruct (tile_get _ _) as [text|e]; [|destruct H as [_ H]; destruct (H _ H1)].
      destruct H as (s & _ & H). rewrite (proj1 (H tile) H1), (proj1 (H tile') K1). reflexivity. }
    subst tile'. rewrite (rows_unique _ _ _ H2 K2). reflexivity.
  Qed.
  (** one tile, drawn and cut into lines *)
  Lemma tile_drawn_with x y : 1 <= x -> 1 <= y ->
    match draw_tile_with (Some tiles) g bb x y with
    | Ok text => tile_at tiles g bb (Coord x y) (filter nonempty (py_splitlines text))
    | Err e => e = EKeyError /\ forall t, ~ tile_at tiles g bb (Coord x y) t
    end.
  Proof.
    intros Hx Hy. rewrite draw_tile_with_ok by assumption. destruct Hu as (_ & ND & HR). pose proof (tile_get_spec tiles (key_at x y) ND) as H.
    destruct (tile_get _ _) as [text|e]; cbn [rbind].
    - destruct H as (tile & -> & H). assert (Hi : In (key_at x y, tile) tiles) by (apply H; reflexivity). destruct (HR _ _ Hi) as (rs & Hrs).
      rewrite (rows_split _ rs) by (auto using shown_length, shown_no_break). apply tile_at_iff. eauto.
    - destruct H as [-> H]. split; [reflexivity|]. intros t Ht. apply tile_at_iff in Ht as (tile & rs & Hi & _). exact (H _ Hi).
  Qed.

  (** ** The lines of a row *)

  Lemma nth_Ok {A} (l : list A) i a : 0 <= i -> py_nth l i = Ok a -> nth_error l (Z.to_nat i) = Some a.
  Proof.
    intros Hi. unfold py_nth, py_index. replace (0 <=? i) with true by lia. destruct (i <? Z.of_nat (List.length l)) eqn:E; cbn [andb].
    - destruct (nth_error l (Z.to_nat i)); [congruence|discriminate].
    - replace (i <? 0) with false by lia. discriminate.
  Qed.
  Lemma nth_Err {A} (l : list A) i x : 0 <= i -> py_nth l i = Err x -> x = EIndexError /\ (List.length l <= Z.to_nat i)%nat.
  Proof.
    intros Hi. unfold py_nth, py_index. replace (0 <=? i) with true by lia. destruct (i <? Z.of_nat (List.length l)) eqn:E; cbn [andb].
    - destruct (nth_error l (Z.to_nat i)) eqn:En; [discriminate|]. apply nth_error_None in En. lia.
    - replace (i <? 0) with false by lia. cbn [andb]. intros H. injection H as <-. split; [reflexivity|lia].
  Qed.
  Lemma row_lines_with row first others : map (fun tile => filter nonempty (py_splitlines tile)) row = first :: others ->
    match row_lines row with
    | Ok block => List.length block = List.length first /\ Forall (fun t => (List.length first <= List.length t)%nat) (first :: others) /\
        forall i line, nth_error block i = Some line -> exists parts, Forall2 (fun t p => nth_error t i = Some p) (first :: others) parts /\ line = List.concat parts
    | Err x => x = EIndexError /\ exists t, In t others /\ (List.length t < List.length first)%nat
    end.
  Proof.
    intros E. unfold row_lines. rewrite E. cbv zeta. change (py_nth (first :: others) 0) with (@Ok (list (list ascii)) first). cbn [rbind].
    set (ts := first :: others). destruct (rmap _ _) as [block|x] eqn:H.
    - apply rmap_Forall2 in H. assert (L : List.length block = List.length first).
      { clear -H. assert (K : forall (l : list Z) m, Forall2 (fun index b => (parts <-? rmap (fun tile => py_nth tile index) ts ;; Ok (List.concat parts)) = Ok b) l m -> List.length m = List.length l)
          by (induction 1; cbn [List.length]; congruence). apply K in H. rewrite H. unfold zrange. rewrite map_length, seq_length. lia. }
      assert (N : forall i line, nth_error block i = Some line -> exists parts, Forall2 (fun t p => nth_error t i = Some p) ts parts /\ line = List.concat parts).
      { intros i line Hi. assert (Hlt : (i < List.length first)%nat) by (rewrite <- L; apply nth_error_Some; congruence).
        assert (K : forall (l : list Z) m, Forall2 (fun index b => (parts <-? rmap (fun tile => py_nth tile index) ts ;; Ok (List.concat parts)) = Ok b) l m ->
          forall i z b, nth_error l i = Some z -> nth_error m i = Some b -> (parts <-? rmap (fun tile => py_nth tile z) ts ;; Ok (List.concat parts)) = Ok b).
        { clear. induction 1 as [|a b l m H _ IH]; intros i z b' H1 H2; (destruct i as [|i]; [try discriminate|]); cbn in H1, H2; try discriminate; [injection H1 as <-; injection H2 as <-; exact H|eapply IH; eauto]. }
        assert (Hz : nth_error (zrange 0 (Z.of_nat (List.length first))) i = Some (Z.of_nat i)).
        { replace i with (Z.to_nat (Z.of_nat i - 0)) at 1 by lia. apply nth_error_zrange_at. lia. }
        specialize (K _ _ H i _ _ Hz Hi). bind K as parts Ep. injection K as <-. exists parts. split; [|reflexivity].
        apply rmap_Forall2 in Ep. clear -Ep. induction Ep as [|t p l m H _ IH]; constructor; [|exact IH]. apply nth_Ok in H; [|lia]. rewrite Nat2Z.id in H. exact H. }
      split; [exact L|]. split; [|exact N]. apply Forall_forall. intros t Ht. destruct (Nat.le_gt_cases (List.length first) (List.length t)) as [K|K]; [exact K|exfalso].
      destruct (nth_error block (List.length t)) as [line|] eqn:En; [|apply nth_error_None in En; lia].
      destruct (N _ _ En) as (parts & F & _). clear -F Ht. induction F as [|a p l m H _ IH]; [destruct Ht|]. destruct Ht as [->|Ht]; [|exact (IH Ht)].
      assert (K : (List.length t < List.length t)%nat) by (apply nth_error_Some; congruence). lia.
    - apply rmap_err in H as (i & Hi & H). apply in_zrange in Hi. destruct (rmap _ ts) as [parts|y] eqn:Ey; cbn [rbind] in H; [discriminate|]. injection H as ->.
      apply rmap_err in Ey as (t & Ht & Ey). apply nth_Err in Ey as [-> Hl]; [|lia]. split; [reflexivity|]. destruct Ht as [<-|Ht]; [lia|]. exists t. split; [exact Ht|lia].
  Qed.

  (** a row which can be drawn, and one which cannot *)
  Definition row_short (y : Z) : Prop := exists x t0 t, covers bb (Coord x y) /\ tile_at tiles g bb (Coord (cx (bmin bb)) y) t0 /\ tile_at tiles g bb (Coord x y) t /\ (List.length t < List.length t0)%nat.
  Lemma columns_cons : exists l, columns_of bb = cx (bmin bb) :: l.
  Proof.
    unfold columns_of, zrange. assert (H : exists n, Z.to_nat (cx (bmax bb) + 1 - cx (bmin bb)) = S n) by (exists (Z.to_nat (cx (bmax bb) - cx (bmin bb))); unfold valid in V; lia).
    destruct H as (n & ->). cbn [seq map]. rewrite Z.add_0_r. eauto.
  Qed.
  Lemma row_with_spec y : cy (bmin bb) <= y <= cy (bmax bb) ->
    match row_with (Some tiles) g bb y with
    | Ok block => row_drawn tiles g bb y block /\ ~ row_short y /\ forall x, covers bb (Coord x y) -> exists t, tile_at tiles g bb (Coord x y) t
    | Err e => (e = EKeyError /\ exists x, covers bb (Coord x y) /\ forall t, ~ tile_at tiles g bb (Coord x y) t) \/ (e = EIndexError /\ row_short y /\ forall x, covers bb (Coord x y) -> exists t, tile_at tiles g bb (Coord x y) t)
    end.
  Proof.
    intros Hy. assert (HC : forall x, In x (columns_of bb) <-> covers bb (Coord x y)) by (intros x; unfold columns_of; rewrite in_zrange; unfold covers; cbn [cx cy]; lia).
    assert (H1 : forall x, In x (columns_of bb) -> 1 <= x /\ 1 <= y) by (intros x Hx; apply in_zrange in Hx; unfold valid in V; lia).
    unfold row_with. fold (columns_of bb). destruct (rmap _ (columns_of bb)) as [row|e] eqn:E; cbn [rbind].
    - apply rmap_Forall2 in E. assert (F : Forall2 (fun x t => tile_at tiles g bb (Coord x y) t) (columns_of bb) (map (fun tile => filter nonempty (py_splitlines tile)) row)).
      { assert (K : forall l m, incl l (columns_of bb) -> Forall2 (fun x text => draw_tile_with (Some tiles) g bb x y = Ok text) l m ->
          Forall2 (fun x t => tile_at tiles g bb (Coord x y) t) l (map (fun tile => filter nonempty (py_splitlines tile)) m)).
        { induction l as [|x l IH]; intros m Hl Hm; inversion Hm as [|? text ? m' Ha Hb]; subst; cbn [map]; constructor.
          - destruct (H1 x (Hl x (or_introl eq_refl))) as [Hx1 Hy1]. pose proof (tile_drawn_with x y Hx1 Hy1) as HT. rewrite Ha in HT. exact HT.
          - apply IH; [intros z Hz; apply Hl; right; exact Hz|exact Hb]. }
        apply K; [apply incl_refl|exact E]. }
      destruct columns_cons as (cs & Ec). rewrite Ec in F. inversion F as [|? first ? others Ff Fo Ex Em]; subst. symmetry in Em. rewrite Em in F. pose proof (row_lines_with row first others Em) as HL.
      assert (HF : forall x t, covers bb (Coord x y) -> tile_at tiles g bb (Coord x y) t -> In t (first :: others)).
      { intros x t Hx Ht. apply HC in Hx. rewrite Ec in Hx. clear -F Hx Ht Hu. revert F Hx. generalize (cx (bmin bb) :: cs) (first :: others). intros l m F Hx.
        induction F as [|a b l m H _ IH]; [destruct Hx|]. destruct Hx as [->|Hx]; [left; exact (tile_at_unique _ _ _ H Ht)|right; exact (IH Hx)]. }
      assert (HA : forall x, covers bb (Coord x y) -> exists t, tile_at tiles g bb (Coord x y) t).
      { intros x Hx. apply HC in Hx. rewrite Ec in Hx. clear -F Hx. revert F Hx. generalize (cx (bmin bb) :: cs) (first :: others). intros l m F Hx.
        induction F as [|a b l m H _ IH]; [destruct Hx|]. destruct Hx as [->|Hx]; [eauto|exact (IH Hx)]. }
      destruct (row_lines row) as [block|e].
      + destruct HL as (L1 & L2 & L3). split; [exists (first :: others), first, others; rewrite Ec; auto|]. split.
        * intros (x & t0 & t & Hx & Ht0 & Ht & Hlt). rewrite <- (tile_at_unique _ _ _ Ff Ht0) in Hlt. rewrite Forall_forall in L2. specialize (L2 t (HF x t Hx Ht)). lia.
        * exact HA.
      + right. destruct HL as (-> & t & Ht & Hlt). split; [reflexivity|].
        assert (Hx : exists x, In x cs /\ tile_at tiles g bb (Coord x y) t).
        { clear -Fo Ht. revert Fo Ht. generalize (map (fun tile => filter nonempty (py_splitlines tile))). intros _. intros Fo Ht.
          induction Fo as [|a b l m H _ IH]; [destruct Ht|]. destruct Ht as [->|Ht]; [exists a; split; [left; reflexivity|exact H]|]. destruct (IH Ht) as (x & Hx1 & Hx2). exists x. split; [right; exact Hx1|exact Hx2]. }
        destruct Hx as (x & Hx1 & Hx2). split; [|exact HA]. exists x, first, t. split; [apply HC; rewrite Ec; right; exact Hx1|]. auto.
    - left. apply rmap_err in E as (x & Hx & E). destruct (H1 x Hx) as [Hx1 Hy1]. pose proof (tile_drawn_with x y Hx1 Hy1) as HT. rewrite E in HT. destruct HT as [-> HT].
      split; [reflexivity|]. exists x. split; [apply HC, Hx|exact HT].
  Qed.

  Definition row_fine (y : Z) : Prop := ~ row_short y /\ forall x, covers bb (Coord x y) -> exists t, tile_at tiles g bb (Coord x y) t.
  Lemma lines_with_spec :
    match iter_lines_with (Some tiles) g bb with
    | Ok pic => exists blocks, pic = List.concat blocks /\ Forall2 (row_drawn tiles g bb) (rows_of bb) blocks /\ forall y, In y (rows_of bb) -> row_fine y
    | Err e => exists y, In y (rows_of bb) /\ (forall y', cy (bmin bb) <= y' < y -> row_fine y') /\
        ((e = EKeyError /\ exists x, covers bb (Coord x y) /\ forall t, ~ tile_at tiles g bb (Coord x y) t) \/
         (e = EIndexError /\ row_short y /\ forall x, covers bb (Coord x y) -> exists t, tile_at tiles g bb (Coord x y) t))
    end.
  Proof.
    assert (HC : forall y, In y (rows_of bb) -> cy (bmin bb) <= y <= cy (bmax bb)) by (intros y Hy; apply in_zrange in Hy; lia).
    assert (HO : forall y b, In y (rows_of bb) -> row_with (Some tiles) g bb y = Ok b -> row_drawn tiles g bb y b /\ row_fine y).
    { intros y b Hy E. pose proof (row_with_spec y (HC y Hy)) as H. rewrite E in H. destruct H as (H1 & H2 & H3). split; [exact H1|split; assumption]. }
    unfold iter_lines_with. fold (rows_of bb). destruct (rmap _ _) as [blocks|e] eqn:E; cbn [rbind].
    - apply rmap_Forall2 in E. exists blocks. split; [reflexivity|].
      assert (K : forall l m, incl l (rows_of bb) -> Forall2 (fun y b => row_with (Some tiles) g bb y = Ok b) l m -> Forall2 (row_drawn tiles g bb) l m /\ forall y, In y l -> row_fine y).
      { induction l as [|y l IH]; intros m Hl Hm; inversion Hm as [|? b ? m' Ha Hb]; subst; [split; [constructor|intros y []]|].
        destruct (HO y b (Hl y (or_introl eq_refl)) Ha) as [K1 K2]. destruct (IH m' (fun z Hz => Hl z (or_intror Hz)) Hb) as [K3 K4].
        split; [constructor; assumption|]. intros z [<-|Hz]; [exact K2|exact (K4 z Hz)]. }
      apply K; [apply incl_refl|exact E].
    - apply rmap_first in E as (l1 & y & l2 & El & Ey & Hl). assert (Hy : In y (rows_of bb)) by (rewrite El; apply in_or_app; right; left; reflexivity).
      exists y. split; [exact Hy|]. split.
      + intros y' Hy'. assert (H1 : In y' l1).
        { assert (Hi : In y' (rows_of bb)) by (apply in_zrange; specialize (HC y Hy); lia).
          assert (N : y = cy (bmin bb) + Z.of_nat (List.length l1)).
          { assert (N : nth_error (rows_of bb) (List.length l1) = Some y) by (rewrite El, nth_error_app2 by lia; rewrite Nat.sub_diag; reflexivity).
            assert (Lt : (List.length l1 < List.length (rows_of bb))%nat) by (rewrite El, app_length; cbn [List.length]; lia).
            unfold rows_of, zrange in N, Lt. rewrite map_length, seq_length in Lt. rewrite nth_error_map, (nth_error_nth' _ O) in N by (rewrite seq_length; exact Lt).
            rewrite seq_nth in N by exact Lt. cbn [option_map] in N. injection N as <-. lia. }
          assert (N' : nth_error (rows_of bb) (Z.to_nat (y' - cy (bmin bb))) = Some y') by (apply nth_error_zrange_at; specialize (HC y Hy); lia).
          rewrite El, nth_error_app1 in N' by lia. apply nth_error_In in N'. exact N'. }
        destruct (Hl y' H1) as (b & Eb). apply (HO y' b); [rewrite El; apply in_or_app; left; exact H1|exact Eb].
      + pose proof (row_with_spec y (HC y Hy)) as H. rewrite Ey in H. exact H.
  Qed.
End Tiles.

Lemma draw_with_box g tiles : reachable g -> g <> [] -> exists bb, grid_bounding_box g = Ok (Some bb) /\ valid bb /\
  draw_with g tiles = (lines <-? iter_lines_with tiles g bb ;; Ok (string_of_list_ascii (join_lines lines))).
Proof.
  intros HR Hne. pose proof (reachable_inv g HR) as HI.
  destruct (bounding_box_spec g) as [[Eg _]|(_ & bb & Eb & Vb & _)]; [apply HI|congruence|].
  exists bb. split; [exact Eb|]. split; [exact Vb|]. unfold draw_with. destruct g; [congruence|]. rewrite Eb. reflexivity.
Qed.
Lemma join_drawing pic : drawing_of pic (string_of_list_ascii (join_lines pic)).
Proof. destruct pic as [|l pic]; [left; auto|right; apply join_text; discriminate]. Qed.
