(** * Theorems about drawings with given tiles (C86) *)
From Verif Require Import Base M_Geometry M_Xml M_Cell M_Grid M_Drawing M_Tiles.
From Verif Require Import S_Geometry S_Cell S_Grid S_Drawing S_Tiles P_Geometry P_Cell P_Grid P_GridFacts P_Cals P_Drawing P_Tiles.
From Verif Require Import T_Grid T_Drawing.
Open Scope list_scope.
Open Scope Z_scope.

(** ** C86: the drawing with given tiles *)

(** The lines of the drawing: row after row, the tiles side by side. *)
Theorem C86_lines : forall tiles g s, usable tiles -> reachable g -> g <> [] -> (forall c, In c g -> plain c) -> draw_with g (Some tiles) = Ok s ->
  exists bb blocks, grid_bounding_box g = Ok (Some bb) /\ Forall2 (row_drawn tiles g bb) (rows_of bb) blocks /\ drawing_of (List.concat blocks) s.
Proof.
  intros tiles g s Hu HR Hne Hp H. destruct (draw_with_box g (Some tiles) HR Hne) as (bb & Eb & Vb & E). rewrite E in H.
  pose proof (lines_with_spec tiles Hu g Hp bb Vb) as HL. destruct (iter_lines_with _ _ _) as [pic|x]; cbn [rbind] in H; [|discriminate H].
  injection H as <-. destruct HL as (blocks & -> & H1 & _). exists bb, blocks. split; [exact Eb|]. split; [exact H1|apply join_drawing].
Qed.

(** It succeeds when the tiles which are needed are in the set, and no tile has less rows than the first one of its line. *)
Theorem C86_succeeds : forall tiles g, usable tiles -> reachable g -> g <> [] -> (forall c, In c g -> plain c) ->
  exists bb, grid_bounding_box g = Ok (Some bb) /\
    ((exists s, draw_with g (Some tiles) = Ok s) <->
     (forall k, covers bb k -> exists t, tile_at tiles g bb k t) /\
     (forall x y t0 t, covers bb (Coord x y) -> tile_at tiles g bb (Coord (cx (bmin bb)) y) t0 -> tile_at tiles g bb (Coord x y) t -> (List.length t0 <= List.length t)%nat)).
Proof.
  intros tiles g Hu HR Hne Hp. destruct (draw_with_box g (Some tiles) HR Hne) as (bb & Eb & Vb & E). exists bb. split; [exact Eb|]. rewrite E.
  pose proof (lines_with_spec tiles Hu g Hp bb Vb) as HL. destruct (iter_lines_with _ _ _) as [pic|x]; cbn [rbind].
  - split; [|eauto]. intros _. destruct HL as (_ & _ & _ & HF).
    assert (HY : forall x y, covers bb (Coord x y) -> row_fine tiles g bb y) by (intros x y Hk; apply HF, in_zrange; unfold covers in Hk; cbn [cx cy] in Hk; lia). split.
    + intros [x y] Hk. exact (proj2 (HY x y Hk) x Hk).
    + intros x y t0 t Hk H0 H1. destruct (Nat.le_gt_cases (List.length t0) (List.length t)) as [L|L]; [exact L|]. destruct (proj1 (HY x y Hk)). exists x, t0, t. auto.
  - split; [intros (s & Hs); discriminate Hs|]. intros [H1 H2]. exfalso. destruct HL as (y & _ & _ & [(_ & z & Hz & HN)|(_ & (z & t0 & t & Hz & K1 & K2 & K3) & _)]).
    + destruct (H1 _ Hz) as (t & Ht). exact (HN t Ht).
    + specialize (H2 z y t0 t Hz K1 K2). lia.
Qed.

(** The error is the one of the first row which cannot be drawn; in a row a missing tile comes before a short one. *)
Theorem C86_error : forall tiles g e, usable tiles -> reachable g -> g <> [] -> (forall c, In c g -> plain c) -> draw_with g (Some tiles) = Err e ->
  exists bb y, grid_bounding_box g = Ok (Some bb) /\ cy (bmin bb) <= y <= cy (bmax bb) /\
    (forall x y' t0, cy (bmin bb) <= y' < y -> covers bb (Coord x y') -> tile_at tiles g bb (Coord (cx (bmin bb)) y') t0 ->
       exists t, tile_at tiles g bb (Coord x y') t /\ (List.length t0 <= List.length t)%nat) /\
    ((e = EKeyError /\ exists x, covers bb (Coord x y) /\ forall t, ~ tile_at tiles g bb (Coord x y) t) \/
     (e = EIndexError /\ (forall x, covers bb (Coord x y) -> exists t, tile_at tiles g bb (Coord x y) t) /\
      exists x t0 t, covers bb (Coord x y) /\ tile_at tiles g bb (Coord (cx (bmin bb)) y) t0 /\ tile_at tiles g bb (Coord x y) t /\ (List.length t < List.length t0)%nat)).
Proof.
  intros tiles g e Hu HR Hne Hp H. destruct (draw_with_box g (Some tiles) HR Hne) as (bb & Eb & Vb & E). rewrite E in H.
  pose proof (lines_with_spec tiles Hu g Hp bb Vb) as HL. destruct (iter_lines_with _ _ _) as [pic|x]; cbn [rbind] in H; [discriminate H|].
  injection H as ->. destruct HL as (y & Hy & H1 & H2). exists bb, y. split; [exact Eb|]. split; [apply in_zrange in Hy; lia|]. split.
  - intros x y' t0 Hy' Hk H0. destruct (H1 y' Hy') as [K1 K2]. destruct (K2 x Hk) as (t & Ht). exists t. split; [exact Ht|].
    destruct (Nat.le_gt_cases (List.length t0) (List.length t)) as [L|L]; [exact L|]. destruct K1. exists x, t0, t. auto.
  - destruct H2 as [H2|(-> & H2 & H3)]; [left; exact H2|right; auto].
Qed.

(** Tiles of a regular size make a rectangle, and each tile is at its place. *)
Lemma tile_at_size tiles h w g bb x y t : usable tiles -> regular tiles h w -> tile_at tiles g bb (Coord x y) t ->
  List.length t = h (cy (bmax bb) =? y) /\ Forall (fun r => List.length r = w (cx (bmax bb) =? x)) t.
Proof.
  intros Hu [_ Hr] (b & text & tile & rs & sh & _ & H2 & H3 & H4 & H5). cbn [cx cy] in H2. destruct (Hr _ _ _ _ _ _ H2 H3) as [K1 K2].
  assert (H9 : List.length sh = 9%nat) by (destruct H4 as [[_ (H4 & _)]|[_ ->]]; [exact H4|reflexivity]).
  rewrite <- K1. clear -H5 K2 H9. induction H5 as [|r o rs t H _ IH]; [auto|]. inversion K2 as [|? ? Ka Kb]; subst. destruct (IH Kb) as [I1 I2].
  split; [cbn [List.length]; rewrite I1; reflexivity|]. constructor; [rewrite (filled_length _ _ _ H9 H); exact Ka|exact I2].
Qed.
Lemma tile_everywhere tiles h w g bb k : usable tiles -> regular tiles h w -> exists t, tile_at tiles g bb k t.
Proof.
  intros Hu [Hr _]. destruct k as [x y]. destruct (Hr (key_at g bb x y)) as (tile & Ht). destruct Hu as (H1 & H2 & H3). destruct (H3 _ _ Ht) as (rs & Hrs).
  eexists. apply tile_at_iff. exists tile, rs. eauto.
Qed.
Lemma zrange_last a b : a <= b -> zrange a (b + 1) = zrange a b ++ [b].
Proof.
  intros H. unfold zrange. replace (Z.to_nat (b + 1 - a)) with (Z.to_nat (b - a) + 1)%nat by lia. rewrite seq_app, map_app. cbn. f_equal. f_equal. lia.
Qed.
Lemma concat_sizes {A} (f : bool -> nat) (a b : Z) (parts : list (list A)) : a <= b ->
  Forall2 (fun z p => List.length p = f (b =? z)) (zrange a (b + 1)) parts -> List.length (List.concat parts) = (f false * Z.to_nat (b - a) + f true)%nat.
Proof.
  intros H F. rewrite zrange_last in F by exact H. apply Forall2_app_inv_l in F as (p1 & p2 & F1 & F2 & ->). rewrite concat_app, app_length.
  inversion F2 as [|? p ? q Hp Hq]; subst. inversion Hq; subst. cbn [List.concat]. rewrite app_nil_r, Hp, Z.eqb_refl. f_equal.
  assert (L : List.length p1 = Z.to_nat (b - a)).
  { assert (K : forall (l : list Z) m, Forall2 (fun z (p : list A) => List.length p = f (b =? z)) l m -> List.length m = List.length l) by (induction 1; cbn [List.length]; congruence).
    rewrite (K _ _ F1). unfold zrange. rewrite map_length, seq_length. reflexivity. }
  rewrite <- L. apply concat_length_const. intros l Hl.
  assert (K : forall (zs : list Z) m, (forall z, In z zs -> z < b) -> Forall2 (fun z (p : list A) => List.length p = f (b =? z)) zs m -> In l m -> List.length l = f false).
  { intros zs m Hz F Hi. induction F as [|z q zs m Hq' _ IH]; [destruct Hi|]. destruct Hi as [->|Hi]; [|apply IH; [intros z' Hz'; apply Hz; right; exact Hz'|exact Hi]].
    rewrite Hq'. specialize (Hz z (or_introl eq_refl)). replace (b =? z) with false by lia. reflexivity. }
  apply (K _ _ (fun z Hz => proj2 (proj1 (in_zrange a b z) Hz)) F1 Hl).
Qed.
Lemma F2_nth {A B} (R : A -> B -> Prop) l m : Forall2 R l m -> forall i a, nth_error l i = Some a -> exists b, nth_error m i = Some b /\ R a b.
Proof. induction 1 as [|a b l m H _ IH]; intros i x Hi; (destruct i as [|i]; [try discriminate|]); cbn in Hi; try discriminate; [injection Hi as <-; exists b; auto|exact (IH i x Hi)]. Qed.
Lemma F2_nth_r {A B} (R : A -> B -> Prop) l m : Forall2 R l m -> forall i b, nth_error m i = Some b -> exists a, nth_error l i = Some a /\ R a b.
Proof. induction 1 as [|a b l m H _ IH]; intros i x Hi; (destruct i as [|i]; [try discriminate|]); cbn in Hi; try discriminate; [injection Hi as <-; exists a; auto|exact (IH i x Hi)]. Qed.
Lemma zrange_nth_inv a b i z : nth_error (zrange a b) i = Some z -> z = a + Z.of_nat i /\ z < b.
Proof.
  intros H. pose proof (nth_error_In _ _ H) as Hi. apply in_zrange in Hi. split; [|lia]. unfold zrange in H. rewrite nth_error_map in H.
  destruct (nth_error (seq 0 _) i) as [n|] eqn:E; [|discriminate H]. injection H as <-.
  assert (L : (i < Z.to_nat (b - a))%nat) by (rewrite <- (seq_length (Z.to_nat (b - a)) 0); apply nth_error_Some; congruence).
  rewrite (nth_error_nth' _ O) in E by (rewrite seq_length; exact L). rewrite seq_nth in E by exact L. injection E as <-. lia.
Qed.

Theorem C86_rectangle : forall tiles h w g, usable tiles -> regular tiles h w -> (0 < h true)%nat -> reachable g -> g <> [] -> (forall c, In c g -> plain c) ->
  exists bb pic s, grid_bounding_box g = Ok (Some bb) /\ draw_with g (Some tiles) = Ok s /\ text_of_lines pic s /\
    List.length pic = (h false * Z.to_nat (box_height bb - 1) + h true)%nat /\
    Forall (fun l => List.length l = (w false * Z.to_nat (box_width bb - 1) + w true)%nat) pic /\
    forall x y t i row j c, covers bb (Coord x y) -> tile_at tiles g bb (Coord x y) t -> nth_error t i = Some row -> nth_error row j = Some c ->
      char_at pic (Z.of_nat (h false) * (y - cy (bmin bb)) + Z.of_nat i) (Z.of_nat (w false) * (x - cx (bmin bb)) + Z.of_nat j) = Some c.
Proof.
  intros tiles h w g Hu Hr H0 HR Hne Hp. destruct (C86_succeeds tiles g Hu HR Hne Hp) as (bb & Eb & HS). destruct HS as [_ HS]. destruct HS as (s & Es).
  { split; [intros k _; apply (tile_everywhere tiles h w); assumption|]. intros x y t0 t _ A B.
    rewrite (proj1 (tile_at_size _ _ _ _ _ _ _ _ Hu Hr A)), (proj1 (tile_at_size _ _ _ _ _ _ _ _ Hu Hr B)). lia. }
  destruct (C86_lines tiles g s Hu HR Hne Hp Es) as (bb' & blocks & Eb' & F & D). rewrite Eb in Eb'. injection Eb' as <-.
  destruct (draw_with_box g (Some tiles) HR Hne) as (bb' & Eb' & V & _). rewrite Eb in Eb'. injection Eb' as <-. unfold valid in V.
  exists bb, (List.concat blocks), s. split; [exact Eb|]. split; [exact Es|].
  assert (FB : Forall2 (fun z (p : list (list ascii)) => List.length p = h (cy (bmax bb) =? z)) (zrange (cy (bmin bb)) (cy (bmax bb) + 1)) blocks).
  { clear -F Hu Hr. unfold rows_of in F. induction F as [|y b l m H _ IH]; constructor; [|exact IH].
    destruct H as (drawn & first & others & F & -> & L & _). rewrite L. inversion F as [|x ? ? ? Ha _]; subst. exact (proj1 (tile_at_size _ _ _ _ _ _ _ _ Hu Hr Ha)). }
  assert (LP := concat_sizes h (cy (bmin bb)) (cy (bmax bb)) blocks ltac:(lia) FB).
  assert (FR : forall y block i line, row_drawn tiles g bb y block -> nth_error block i = Some line -> exists drawn parts,
    Forall2 (fun x t => tile_at tiles g bb (Coord x y) t) (columns_of bb) drawn /\ Forall2 (fun t p => nth_error t i = Some p) drawn parts /\ line = List.concat parts /\
    Forall2 (fun z (p : list ascii) => List.length p = w (cx (bmax bb) =? z)) (columns_of bb) parts).
  { intros y block i line (drawn & first & others & F1 & _ & _ & FN) Hl. destruct (FN i line Hl) as (parts & F2 & ->). exists drawn, parts. split; [exact F1|]. split; [exact F2|]. split; [reflexivity|].
    clear -F1 F2 Hu Hr. revert parts F2. induction F1 as [|x t l m H _ IH]; intros parts F2; inversion F2 as [|? p ? q Ha Hb]; subst; constructor; [|exact (IH q Hb)].
    pose proof (proj2 (tile_at_size _ _ _ _ _ _ _ _ Hu Hr H)) as K. rewrite Forall_forall in K. apply K, (nth_error_In _ _ Ha). }
  split; [destruct D as [[D _]|D]; [rewrite D in LP; cbn in LP; lia|exact D]|]. split; [rewrite LP; unfold box_height; f_equal; f_equal; lia|]. split.
  - apply Forall_forall. intros line Hl. apply in_concat in Hl as (block & Hb & Hl). apply In_nth_error in Hb as (n & Hb). apply In_nth_error in Hl as (i & Hl).
    destruct (F2_nth_r _ _ _ F n block Hb) as (y & _ & Hy). destruct (FR y block i line Hy Hl) as (drawn & parts & _ & _ & -> & FL).
    rewrite (concat_sizes w (cx (bmin bb)) (cx (bmax bb)) parts ltac:(lia) FL). unfold box_width. f_equal. f_equal. lia.
  - intros x y t i row j c Hk Ht Hi Hj. unfold covers in Hk. cbn [cx cy] in Hk.
    assert (Ny : nth_error (rows_of bb) (Z.to_nat (y - cy (bmin bb))) = Some y) by (apply nth_error_zrange_at; lia).
    assert (Nx : nth_error (columns_of bb) (Z.to_nat (x - cx (bmin bb))) = Some x) by (apply nth_error_zrange_at; lia).
    destruct (F2_nth _ _ _ F _ _ Ny) as (block & Hb & Hd). destruct (F2_nth _ _ _ FB _ _ Ny) as (block' & Hb' & Lb). rewrite Hb in Hb'. injection Hb' as <-.
    assert (Li : (i < List.length block)%nat) by (rewrite Lb, <- (proj1 (tile_at_size _ _ _ _ _ _ _ _ Hu Hr Ht)); apply nth_error_Some; congruence).
    unfold char_at. replace (Z.to_nat (Z.of_nat (h false) * (y - cy (bmin bb)) + Z.of_nat i)) with (h false * Z.to_nat (y - cy (bmin bb)) + i)%nat by nia.
    rewrite (concat_nth _ _ _ block _ Hb); [|intros n m Hn Hm; destruct (F2_nth_r _ _ _ FB n m Hm) as (z & Hz & ->); apply zrange_nth_inv in Hz; replace (cy (bmax bb) =? z) with false by lia; reflexivity|exact Li].
    destruct (nth_error block i) as [line|] eqn:El; [|apply nth_error_None in El; lia].
    destruct (FR y block i line Hd El) as (drawn & parts & F1 & F2 & -> & FL). destruct (F2_nth _ _ _ F1 _ _ Nx) as (t' & Hn & Ht'). rewrite (tile_at_unique _ Hu _ _ _ _ _ Ht' Ht) in Hn.
    destruct (F2_nth _ _ _ F2 _ _ Hn) as (p & Hnp & Hip). rewrite Hi in Hip. injection Hip as <-.
    replace (Z.to_nat (Z.of_nat (w false) * (x - cx (bmin bb)) + Z.of_nat j)) with (w false * Z.to_nat (x - cx (bmin bb)) + j)%nat by nia.
    rewrite (concat_nth _ _ _ row _ Hnp); [exact Hj| |apply nth_error_Some; congruence].
    intros n m Hn' Hm. destruct (F2_nth_r _ _ _ FL n m Hm) as (z & Hz & ->). apply zrange_nth_inv in Hz. replace (cx (bmax bb) =? z) with false by lia. reflexivity.
Qed.

(** No tiles, or an empty set of tiles: the drawing of C33 and C34. *)
Lemma rmap_split {A B C} (f : A -> result B) (k : B -> result C) l : (forall a, In a l -> exists b, f a = Ok b) ->
  rmap (fun a => b <-? f a ;; k b) l = (bs <-? rmap f l ;; rmap k bs).
Proof.
  induction l as [|a l IH]; intros H; [reflexivity|]. cbn [rmap]. destruct (H a (or_introl eq_refl)) as (b & ->). cbn [rbind].
  rewrite IH by (intros c Hc; apply H; right; exact Hc). destruct (rmap_total f l) as (bs & ->); [intros c Hc; apply H; right; exact Hc|]. cbn [rbind rmap]. reflexivity.
Qed.
Lemma rmap_ext {A B} (f k : A -> result B) l : (forall a, f a = k a) -> rmap f l = rmap k l.
Proof. intros H. induction l as [|a l IH]; [reflexivity|]. cbn [rmap]. rewrite H, IH. reflexivity. Qed.
Theorem C86_default : forall g, reachable g -> draw_with g None = grid_str g /\ draw_with g (Some []) = grid_str g.
Proof.
  intros g HR. destruct g as [|c0 g0] eqn:Eg; [split; reflexivity|]. rewrite <- Eg in *. assert (Hne : g <> []) by (rewrite Eg; discriminate). clear Eg c0 g0.
  assert (G : forall o, o = None \/ o = Some [] -> draw_with g o = grid_str g); [|split; apply G; auto].
  intros o Ho. destruct (draw_with_box g o HR Hne) as (bb & Eb & V & ->). unfold grid_str, draw. destruct g as [|c g]; [congruence|]. set (G := c :: g) in *. rewrite Eb. cbn [rbind].
  assert (T : forall x y, draw_tile_with o G bb x y = draw_tile G bb x y).
  { intros x y. unfold draw_tile_with, draw_tile. destruct (if grid_contains_c G _ then _ else _) as [bt|e]; [|reflexivity]. cbn [rbind]. destruct Ho as [->| ->]; reflexivity. }
  assert (I : iter_lines_with o G bb = iter_lines G bb).
  { unfold iter_lines_with, iter_lines, iter_tiles, row_with. rewrite (rmap_ext _ (fun y => row <-? rmap (fun x => draw_tile G bb x y) (zrange (cx (bmin bb)) (cx (bmax bb) + 1)) ;; row_lines row)).
    - rewrite rmap_split; [destruct (rmap _ _); reflexivity|]. intros y Hy. apply in_zrange in Hy. apply rmap_total. intros x Hx. apply in_zrange in Hx. unfold valid in V.
      eexists. apply draw_tile_ok; lia.
    - intros y. rewrite (rmap_ext _ (fun x => draw_tile G bb x y)); [reflexivity|]. intros x. apply T. }
  rewrite I. destruct (iter_lines G bb); reflexivity.
Qed.
Theorem C86_empty : forall tiles, draw_with [] tiles = Ok EmptyString.
Proof. reflexivity. Qed.

(** ** Examples *)

Definition bools : list bool := [true; false].
Definition all_keys : list tile_key :=
  flat_map (fun l => flat_map (fun t => flat_map (fun r => map (fun b => (l, t, r, b)) bools) bools) bools) bools.
Definition nl : string := String (ascii_of_nat 10) EmptyString.
Definition make_tiles (f : bool -> bool -> bool -> bool -> string) : tile_set :=
  map (fun key => let '(l, t, r, b) := key in (key, f l t r b)) all_keys.
Lemma in_make f key tile : In (key, tile) (make_tiles f) <-> (let '(l, t, r, b) := key in tile = f l t r b).
Proof.
  unfold make_tiles. rewrite in_map_iff. destruct key as [[[l t] r] b]. split.
  - intros ([[[l' t'] r'] b'] & E & _). injection E as -> -> -> -> <-. reflexivity.
  - intros ->. exists (l, t, r, b). split; [reflexivity|]. destruct l, t, r, b; vm_compute; auto 20.
Qed.
Lemma make_usable f : (forall l t r b, exists rs, rows_are (list_ascii_of_string (f l t r b)) rs) -> usable (make_tiles f).
Proof.
  intros H. split; [discriminate|]. split.
  - replace (map fst (make_tiles f)) with all_keys by reflexivity. unfold all_keys. cbn.
    repeat (constructor; [cbn; intros K; repeat (destruct K as [K|K]; [discriminate K|]); exact K|]). constructor.
  - intros [[[l t] r] b] tile Hi. apply in_make in Hi as ->. apply H.
Qed.
(** tiles with one row, which end with an empty line *)
Definition flat_tile (l t r b : bool) : string :=
  ((if l then "|" else " ") ++ (if t then "XXXXXXXXX" else ".........") ++ (if r then "|" else "") ++ nl ++ nl)%string.
Definition flat_row (l t r b : bool) : list ascii :=
  list_ascii_of_string ((if l then "|" else " ") ++ (if t then "XXXXXXXXX" else ".........") ++ (if r then "|" else ""))%string.
Ltac no_break_tac := unfold no_break; cbn;
  repeat (constructor; [intros HB; cbv in HB; repeat (destruct HB as [HB|HB]; [discriminate|]); exact HB|]); constructor.
Lemma flat_rows l t r b : rows_are (list_ascii_of_string (flat_tile l t r b)) [flat_row l t r b].
Proof.
  replace (list_ascii_of_string (flat_tile l t r b)) with (flat_row l t r b ++ ascii_of_nat 10 :: [ascii_of_nat 10]) by (destruct l, t, r, b; reflexivity).
  apply rows_more; [destruct l, t, r; discriminate|destruct l, t, r; no_break_tac|apply rows_blank, rows_none].
Qed.
Definition flat_tiles : tile_set := make_tiles flat_tile.
Lemma flat_usable : usable flat_tiles.
Proof. apply make_usable. intros l t r b. eexists. apply flat_rows. Qed.
Lemma flat_regular : regular flat_tiles (fun _ => 1%nat) (fun r => if r then 11%nat else 10%nat).
Proof.
  split; [intros [[[l t] r] b]; exists (flat_tile l t r b); apply in_make; reflexivity|].
  intros l t r b tile rs Hi Hrs. apply in_make in Hi as ->. rewrite (rows_unique _ _ _ Hrs (flat_rows l t r b)). split; [reflexivity|]. constructor; [|constructor]. destruct l, t, r; reflexivity.
Qed.
Example C86_ex : usable flat_tiles /\ regular flat_tiles (fun _ => 1%nat) (fun r => if r then 11%nat else 10%nat) /\ reachable ex_grid /\ ex_grid <> [] /\ (forall c, In c ex_grid -> plain c) /\
  exists s, draw_with ex_grid (Some flat_tiles) = Ok s /\ String.length s <> O.
Proof.
  split; [exact flat_usable|]. split; [exact flat_regular|]. split; [apply C33_ex|]. split; [apply C33_ex|]. split; [apply C33_ex|].
  eexists. split; [vm_compute; reflexivity|]. vm_compute. discriminate.
Qed.

(** Two cells side by side *)
Definition pair_grid : grid := grun [] [GSet (PTuple [PInt 1; PInt 1]) (hid_cell "a" 1 1 1 1); GSet (PTuple [PInt 2; PInt 1]) (hid_cell "b" 2 1 2 1)].
Lemma pair_grid_ok : reachable pair_grid /\ pair_grid <> [] /\ (forall c, In c pair_grid -> plain c).
Proof.
  split; [apply grun_reachable, (reach_new []); reflexivity|]. split; [vm_compute; discriminate|]. intros c Hc. vm_compute in Hc.
  repeat (destruct Hc as [<-|Hc]; [prove_plain|]). destruct Hc.
Qed.
(** a tile with a row more on the side [side] *)
Definition tall_tile (side l t r b : bool) : string := (if Bool.eqb r side then "XXXXXXXXX" ++ nl ++ "#" else "XXXXXXXXX")%string.
Lemma tall_rows side l t r b : rows_are (list_ascii_of_string (tall_tile side l t r b)) (if Bool.eqb r side then [placeholder; ["#"%char]] else [placeholder]).
Proof.
  unfold tall_tile. destruct (Bool.eqb r side); [|apply rows_last; [discriminate|no_break_tac]].
  apply (rows_more placeholder ["#"%char] [["#"%char]]); [discriminate|no_break_tac|]. apply rows_last; [discriminate|no_break_tac].
Qed.
Lemma tall_usable side : usable (make_tiles (tall_tile side)).
Proof. apply make_usable. intros l t r b. eexists. apply tall_rows. Qed.
Example C86_error_ex : usable (make_tiles (tall_tile false)) /\ draw_with pair_grid (Some (make_tiles (tall_tile false))) = Err EIndexError /\
  usable [((true, true, false, true), "XXXXXXXXX"%string)] /\ draw_with pair_grid (Some [((true, true, false, true), "XXXXXXXXX"%string)]) = Err EKeyError.
Proof.
  split; [apply tall_usable|]. split; [vm_compute; reflexivity|]. split; [|vm_compute; reflexivity]. split; [discriminate|]. split; [constructor; [intros []|constructor]|].
  intros key tile [H|[]]. injection H as <- <-. exists [placeholder]. apply rows_last; [discriminate|no_break_tac].
Qed.
(** A tile which has more rows than the first one of its line is cut: what it shows there is not in the drawing. *)
Theorem C86_cut_refuted : exists tiles g bb k t row s, usable tiles /\ reachable g /\ grid_bounding_box g = Ok (Some bb) /\ covers bb k /\ tile_at tiles g bb k t /\ In row t /\ In "#"%char row /\
  draw_with g (Some tiles) = Ok s /\ ~ In "#"%char (list_ascii_of_string s).
Proof.
  exists (make_tiles (tall_tile true)), pair_grid, (MkBox (Coord 1 1) (Coord 2 1)), (Coord 2 1). do 3 eexists. split; [apply tall_usable|]. split; [apply pair_grid_ok|]. split; [vm_compute; reflexivity|].
  split; [unfold covers; cbn; lia|]. split.
  { apply tile_at_iff. exists (tall_tile true true true true true), [placeholder; ["#"%char]]. split; [apply in_make; vm_compute; reflexivity|]. split; [apply (tall_rows true true true true true)|reflexivity]. }
  split; [right; left; reflexivity|]. split; [vm_compute; left; reflexivity|]. split; [vm_compute; reflexivity|]. vm_compute. intros H. repeat (destruct H as [H|H]; [discriminate H|]). exact H.
Qed.

Print Assumptions C86_lines.
Print Assumptions C86_succeeds.
Print Assumptions C86_error.
Print Assumptions C86_rectangle.
Print Assumptions C86_default.
Print Assumptions C86_empty.
Print Assumptions C86_cut_refuted.
