(** * Proofs about drawings *)
From Verif Require Import Base M_Geometry M_Xml M_Cell M_Grid M_Drawing.
From Verif Require Import S_Geometry S_Cell S_Grid S_Drawing P_Geometry P_Cell P_Grid P_GridFacts.

(** ** Generic *)

Lemma rmap_ok {A B} (f : A -> result B) (h : A -> B) l :
  (forall a, In a l -> f a = Ok (h a)) -> rmap f l = Ok (map h l).
Proof.
  induction l as [|a l IH]; intros H; cbn; [reflexivity|].
  rewrite (H a (or_introl eq_refl)). cbn. rewrite IH by (intros; apply H; right; assumption). reflexivity.
Qed.

Lemma concat_nth {A} (ls : list (list A)) n i l k :
  nth_error ls i = Some l ->
  (forall j m, (j < i)%nat -> nth_error ls j = Some m -> List.length m = n) -> (k < List.length l)%nat ->
  nth_error (List.concat ls) (n * i + k) = nth_error l k.
Proof.
  revert i. induction ls as [|m ls IH]; intros i Hi Hn Hk; [destruct i; discriminate|].
  destruct i as [|i]; cbn in *.
  - injection Hi as ->. rewrite Nat.mul_0_r. cbn. rewrite nth_error_app1 by exact Hk. reflexivity.
  - assert (Hm : List.length m = n) by (apply (Hn O); [lia|reflexivity]).
    rewrite nth_error_app2 by nia. replace (n * S i + k - List.length m)%nat with (n * i + k)%nat by nia.
    apply IH; auto. intros j m' Hj. apply (Hn (S j)). lia.
Qed.

Lemma concat_length_const {A} (ls : list (list A)) n :
  (forall l, In l ls -> List.length l = n) -> List.length (List.concat ls) = (n * List.length ls)%nat.
Proof.
  induction ls as [|l ls IH]; intros H; cbn; [lia|].
  rewrite app_length, IH by (intros; apply H; right; assumption).
  rewrite (H l (or_introl eq_refl)). lia.
Qed.

Lemma nth2 {A} (a b : A) l n : (2 <= n)%nat -> nth_error (a :: b :: l) n = nth_error l (n - 2).
Proof. intros H. destruct n as [|[|n]]; [lia|lia|]. cbn. rewrite Nat.sub_0_r. reflexivity. Qed.

(** ** splitlines *)

Lemma is_break_spec c : is_break c = true <-> line_break c.
Proof.
  unfold is_break, line_break. cbv zeta. cbn [In].
  rewrite !orb_true_iff, !andb_true_iff, !Nat.leb_le, Nat.eqb_eq. lia.
Qed.

Lemma split_plain l : forall cur rest,
  Forall (fun c => is_break c = false) l -> split_from cur (l ++ rest) = split_from (rev l ++ cur) rest.
Proof.
  induction l as [|c l IH]; intros cur rest H; cbn [app split_from rev]; [reflexivity|].
  inversion H as [|? ? Hc Hl]; subst. rewrite Hc, IH by exact Hl. rewrite <- app_assoc. reflexivity.
Qed.

Lemma split_lines ls :
  Forall (Forall (fun c => is_break c = false)) ls ->
  split_from [] (List.concat (map (fun l => l ++ [newline]) ls)) = ls.
Proof.
  induction ls as [|l ls IH]; intros H; [reflexivity|]. inversion H as [|? ? Hl Hls]; subst.
  cbn [map List.concat]. rewrite <- app_assoc, split_plain by exact Hl. rewrite app_nil_r.
  change (split_from (rev l) (newline :: List.concat (map (fun l => l ++ [newline]) ls)) = l :: ls).
  assert (Hr : forall s, split_from (rev l) (newline :: s) = l :: split_from [] s).
  { intros s. cbn [split_from]. change (is_break newline) with true. rewrite rev_involutive.
    destruct s as [|d s]; reflexivity. }
  rewrite Hr, IH by exact Hls. reflexivity.
Qed.

(** ** One tile *)

Definition corner_char (l t : bool) : ascii :=
  (if l then (if t then "+" else "|") else (if t then "-" else " "))%char.
Definition tile_lines (l t r b : bool) (title : list ascii) : list (list ascii) :=
  ((corner_char l t :: repeat (if t then "-" else " ")%char 11) ++ (if r then [if t then "+" else "|"] else [])%char) ::
  (((if l then "|" else " ") :: " " :: title ++ " " :: (if r then ["|"] else []))%char) ::
  (if b then [((if l then "+" else "-")%char :: repeat "-"%char 11) ++ (if r then ["+"%char] else [])] else []).

Lemma replace_tile l t r b title :
  List.length title = 9%nat ->
  py_replace (tile_text l t r b) (text_chars "XXXXXXXXX"%string) title =
  List.concat (map (fun x => x ++ [newline]) (tile_lines l t r b title)).
Proof.
  intros H. do 9 (destruct title as [|? title]; [discriminate|]). destruct title; [|discriminate].
  destruct l, t, r, b; reflexivity.
Qed.

Lemma tile_lines_plain l t r b title :
  Forall (fun c => is_break c = false) title ->
  Forall (Forall (fun c => is_break c = false)) (tile_lines l t r b title).
Proof.
  intros H. unfold tile_lines. constructor; [|constructor].
  - destruct l, t, r; repeat constructor.
  - destruct l, r; (constructor; [reflexivity|]); (constructor; [reflexivity|]); apply Forall_app; split; auto; repeat constructor.
  - destruct b; [|constructor]. constructor; [|constructor]. destruct l, r; repeat constructor.
Qed.

Lemma tile_lines_nonempty l t r b title : filter nonempty (tile_lines l t r b title) = tile_lines l t r b title.
Proof. unfold tile_lines. destruct b; cbn; reflexivity. Qed.

Lemma tile_split l t r b title :
  List.length title = 9%nat -> Forall (fun c => is_break c = false) title ->
  filter nonempty (py_splitlines (py_replace (tile_text l t r b) (text_chars "XXXXXXXXX"%string) title)) =
  tile_lines l t r b title.
Proof.
  intros HL HF. rewrite replace_tile by exact HL. unfold py_splitlines.
  rewrite split_lines by (apply tile_lines_plain, HF). apply tile_lines_nonempty.
Qed.

(** ** Titles *)

Lemma spaces_plain n : Forall (fun c => is_break c = false) (spaces n).
Proof. induction n; constructor; auto. Qed.
Lemma spaces_length n : List.length (spaces n) = n.
Proof. apply repeat_length. Qed.

Lemma title_centred text : centred text (title_of text).
Proof.
  unfold centred, title_of. cbv zeta. set (pad := (9 - List.length text)%nat).
  assert (Hd : (Nat.div pad 2 <= pad)%nat) by (apply Nat.div_le_upper_bound; lia).
  split; [|split].
  - rewrite firstn_length, !app_length, !spaces_length. lia.
  - intros H. assert (pad = O) by (unfold pad; lia). rewrite H0. cbn [Nat.div spaces repeat].
    rewrite app_nil_r. reflexivity.
  - intros H. exists (Nat.div pad 2), (pad - Nat.div pad 2)%nat. split.
    + rewrite firstn_all2; [reflexivity|]. rewrite !app_length, !spaces_length. lia.
    + pose proof (Nat.div_mod pad 2 ltac:(lia)). pose proof (Nat.mod_upper_bound pad 2 ltac:(lia)). lia.
Qed.

Lemma title_length text : List.length (title_of text) = 9%nat.
Proof. apply title_centred. Qed.

Lemma title_plain text :
  Forall (fun a => ~ line_break a) (firstn 9 text) -> Forall (fun c => is_break c = false) (title_of text).
Proof.
  intros H.
  assert (Hb : Forall (fun c => is_break c = false) (firstn 9 text)).
  { eapply Forall_impl; [|exact H]. intros a Ha. apply not_true_iff_false. rewrite is_break_spec. exact Ha. }
  destruct (title_centred text) as (_ & Hgt & Hle). destruct (Nat.le_gt_cases (List.length text) 9) as [L|L].
  - destruct (Hle L) as (a & b & -> & _). rewrite firstn_all2 in Hb by exact L.
    apply Forall_app. split; [apply spaces_plain|]. apply Forall_app. split; [exact Hb|apply spaces_plain].
  - rewrite (Hgt L). exact Hb.
Qed.

(** ** The content of a tile *)

Definition owner (g : grid) (k : coord) : box * list ascii :=
  match grid_getitem_c g k with
  | Ok c => (c_box c, text_chars (cell_str c))
  | Err _ => (MkBox k k, [])
  end.

Lemma getitem_c_err g k e : grid_getitem_c g k = Err e -> e = EKeyError /\ grid_contains_c g k = false.
Proof.
  induction g as [|c g IH]; cbn; [intros [= <-]; auto|].
  destruct (box_has (c_box c) k); [discriminate|]. exact IH.
Qed.
Lemma getitem_c_ok g k c : grid_getitem_c g k = Ok c -> grid_contains_c g k = true /\ In c g /\ covers (c_box c) k.
Proof.
  induction g as [|d g IH]; cbn; [discriminate|].
  destruct (box_has (c_box d) k) eqn:E; cbn.
  - intros [= ->]. split; [reflexivity|]. split; [left; reflexivity|]. apply box_has_covers, E.
  - intros H. destruct (IH H) as (H1 & H2 & H3). auto.
Qed.

Lemma owner_seen g k : seen_at g k (fst (owner g k)) (snd (owner g k)).
Proof.
  unfold seen_at, owner, grid_getitem. cbn [coord_from_value rbind].
  destruct (grid_getitem_c g k) as [c|e] eqn:E; cbn.
  - left. eauto.
  - right. apply getitem_c_err in E as [-> _]. auto.
Qed.
Lemma seen_owner g k b text : seen_at g k b text -> owner g k = (b, text).
Proof.
  unfold seen_at, owner, grid_getitem. cbn [coord_from_value rbind].
  intros [(c & E & -> & ->)|(E & -> & ->)]; rewrite E; reflexivity.
Qed.

Definition is_left (g : grid) (x y : Z) : bool := cx (bmin (fst (owner g (Coord x y)))) =? x.
Definition is_top (g : grid) (x y : Z) : bool := cy (bmin (fst (owner g (Coord x y)))) =? y.
Definition shown (g : grid) (x y : Z) : list ascii :=
  let b := fst (owner g (Coord x y)) in
  if (cx (text_place b) =? x) && (cy (text_place b) =? y)
  then title_of (snd (owner g (Coord x y))) else spaces 9.

Lemma shown_length g x y : List.length (shown g x y) = 9%nat.
Proof. unfold shown. destruct (_ && _); [apply title_length|apply spaces_length]. Qed.

Lemma shown_plain g x y : (forall c, In c g -> plain c) -> Forall (fun c => is_break c = false) (shown g x y).
Proof.
  intros H. unfold shown. destruct (_ && _); [|apply spaces_plain]. apply title_plain.
  unfold owner. destruct (grid_getitem_c g _) as [c|e] eqn:E; cbn; [|constructor].
  apply H. apply getitem_c_ok in E as (_ & H1 & _). exact H1.
Qed.

Definition tl (g : grid) (bb : box) (x y : Z) : list (list ascii) :=
  tile_lines (is_left g x y) (is_top g x y) (cx (bmax bb) =? x) (cy (bmax bb) =? y) (shown g x y).
Definition tile_str (g : grid) (bb : box) (x y : Z) : list ascii :=
  py_replace (tile_text (is_left g x y) (is_top g x y) (cx (bmax bb) =? x) (cy (bmax bb) =? y))
    (text_chars "XXXXXXXXX"%string) (shown g x y).

Lemma draw_tile_ok g bb x y :
  1 <= x -> 1 <= y -> draw_tile g bb x y = Ok (tile_str g bb x y).
Proof.
  intros Hx Hy. unfold draw_tile, tile_str, is_left, is_top, shown, owner.
  destruct (grid_getitem_c g (Coord x y)) as [c|e] eqn:E.
  - apply getitem_c_ok in E as (E1 & _). rewrite E1. cbn [rbind fst snd text_place cx cy bmin bmax].
    destruct (_ && _); reflexivity.
  - apply getitem_c_err in E as (_ & E1). rewrite E1. unfold box_new. cbn [fst snd text_place cx cy bmin bmax].
    rewrite box_validate_ok by lia. cbn [rbind fst snd text_place cx cy bmin bmax].
    destruct (_ && _); reflexivity.
Qed.

(** ** Rows *)

Definition xs_of (bb : box) : list Z := zrange (cx (bmin bb)) (cx (bmax bb) + 1).
Definition ys_of (bb : box) : list Z := zrange (cy (bmin bb)) (cy (bmax bb) + 1).

Definition tl_n (bb : box) (y : Z) : nat := if cy (bmax bb) =? y then 3%nat else 2%nat.
Lemma tl_length g bb x y : List.length (tl g bb x y) = tl_n bb y.
Proof. unfold tl, tl_n, tile_lines. destruct (cy (bmax bb) =? y); reflexivity. Qed.

Definition row_pic (g : grid) (bb : box) (y : Z) : list (list ascii) :=
  map (fun i => List.concat (map (fun x => nth i (tl g bb x y) []) (xs_of bb))) (seq 0 (tl_n bb y)).

Lemma py_nth_nat {A} (l : list A) i d :
  (i < List.length l)%nat -> py_nth l (Z.of_nat i) = Ok (nth i l d).
Proof.
  intros H. unfold py_nth, py_index.
  replace (0 <=? Z.of_nat i) with true by lia. replace (Z.of_nat i <? Z.of_nat (List.length l)) with true by lia.
  cbn [andb]. rewrite Nat2Z.id. rewrite (nth_error_nth' l d) by exact H. reflexivity.
Qed.

Lemma row_lines_ok g bb y :
  (forall c, In c g -> plain c) -> xs_of bb <> [] ->
  row_lines (map (fun x => tile_str g bb x y) (xs_of bb)) = Ok (row_pic g bb y).
Proof.
  intros HP Hx. unfold row_lines. rewrite map_map.
  assert (Em : map (fun x => filter nonempty (py_splitlines (tile_str g bb x y))) (xs_of bb) = map (fun x => tl g bb x y) (xs_of bb)).
  { apply map_ext. intros x. unfold tile_str. rewrite tile_split; [reflexivity|apply shown_length|apply shown_plain, HP]. }
  rewrite Em. cbv zeta. unfold row_pic.
  destruct (xs_of bb) as [|x0 xs]; [congruence|].
  set (l := x0 :: xs). assert (E0 : py_nth (map (fun x => tl g bb x y) l) 0 = Ok (tl g bb x0 y)) by reflexivity.
  rewrite E0. cbn [rbind]. rewrite tl_length.
  unfold zrange. rewrite Z.sub_0_r, Nat2Z.id.
  rewrite (rmap_ok _ (fun index => List.concat (map (fun x => nth (Z.to_nat index) (tl g bb x y) []) l))).
  - rewrite map_map. f_equal. apply map_ext. intros i. replace (Z.to_nat (0 + Z.of_nat i)) with i by lia. reflexivity.
  - intros index Hi. apply in_map_iff in Hi as (i & <- & Hi). apply in_seq in Hi.
    rewrite (rmap_ok _ (fun tile => nth i tile [])).
    + cbn [rbind]. rewrite map_map. replace (Z.to_nat (0 + Z.of_nat i)) with i by lia. reflexivity.
    + intros tile Ht. apply in_map_iff in Ht as (x & <- & _). replace (0 + Z.of_nat i) with (Z.of_nat i) by lia.
      apply py_nth_nat. rewrite tl_length. lia.
Qed.

Definition picture (g : grid) (bb : box) : list (list ascii) :=
  List.concat (map (row_pic g bb) (ys_of bb)).

Lemma xs_nonempty bb : valid bb -> xs_of bb <> [].
Proof.
  intros [Vx _] E. assert (H : In (cx (bmin bb)) (xs_of bb)) by (apply in_zrange; lia). rewrite E in H. destruct H.
Qed.

Lemma iter_lines_ok g bb :
  (forall c, In c g -> plain c) -> valid bb -> iter_lines g bb = Ok (picture g bb).
Proof.
  intros HP V. unfold iter_lines, iter_tiles.
  rewrite (rmap_ok _ (fun y => map (fun x => tile_str g bb x y) (xs_of bb))).
  - cbn [rbind].
    rewrite (rmap_ok _ (fun row => match row_lines row with Ok l => l | Err _ => [] end)).
    + cbn [rbind]. unfold picture. f_equal. f_equal. rewrite map_map. apply map_ext. intros y.
      rewrite row_lines_ok; auto using xs_nonempty.
    + intros row Hr. apply in_map_iff in Hr as (y & <- & _). rewrite row_lines_ok; auto using xs_nonempty.
  - intros y Hy. apply in_zrange in Hy. apply rmap_ok. intros x Hx. apply in_zrange in Hx.
    unfold valid in V. apply draw_tile_ok; lia.
Qed.

Lemma join_text ls : ls <> [] -> text_of_lines ls (string_of_list_ascii (join_lines ls)).
Proof.
  induction ls as [|l ls IH]; intros H; [congruence|]. destruct ls as [|l' ls]; [constructor|].
  assert (Ha : forall a b, string_of_list_ascii (a ++ b) = String.append (string_of_list_ascii a) (string_of_list_ascii b)).
  { induction a; intros b; cbn; [reflexivity|]. rewrite IHa. reflexivity. }
  cbn [join_lines]. rewrite Ha. cbn [string_of_list_ascii]. constructor; [apply IH; discriminate|discriminate].
Qed.

Lemma picture_count g bb : valid bb -> List.length (picture g bb) = (2 * Z.to_nat (box_height bb) + 1)%nat.
Proof.
  intros [_ V]. unfold picture, ys_of, box_height.
  assert (Ez : zrange (cy (bmin bb)) (cy (bmax bb) + 1) = zrange (cy (bmin bb)) (cy (bmax bb)) ++ [cy (bmax bb)]).
  { unfold zrange. replace (Z.to_nat (cy (bmax bb) + 1 - cy (bmin bb))) with (Z.to_nat (cy (bmax bb) - cy (bmin bb)) + 1)%nat by lia.
    rewrite seq_app, map_app. cbn. f_equal. f_equal. lia. }
  rewrite Ez, map_app, concat_app, app_length. cbn [map List.concat]. rewrite app_nil_r.
  rewrite (concat_length_const _ 2).
  - unfold row_pic, tl_n. rewrite Z.eqb_refl, !map_length, seq_length. unfold zrange. rewrite map_length, seq_length. lia.
  - intros l Hl. apply in_map_iff in Hl as (y & <- & Hy). apply in_zrange in Hy.
    unfold row_pic, tl_n. rewrite map_length, seq_length. replace (cy (bmax bb) =? y) with false by lia. reflexivity.
Qed.

Lemma tile_line_length l t r b title m :
  List.length title = 9%nat -> In m (tile_lines l t r b title) -> List.length m = if r then 13%nat else 12%nat.
Proof.
  intros H Hm. unfold tile_lines in Hm. cbn [In] in Hm. destruct Hm as [<-|[<-|Hm]].
  - destruct r; reflexivity.
  - cbn [List.length]. rewrite app_length, H. destruct r; reflexivity.
  - destruct b; [|destruct Hm]. destruct Hm as [<-|[]]. destruct r; reflexivity.
Qed.

Lemma tl_line_length g bb x y i :
  (i < tl_n bb y)%nat -> List.length (nth i (tl g bb x y) []) = if cx (bmax bb) =? x then 13%nat else 12%nat.
Proof.
  intros H. apply (tile_line_length (is_left g x y) (is_top g x y) (cx (bmax bb) =? x) (cy (bmax bb) =? y) (shown g x y)).
  - apply shown_length.
  - apply (nth_In (tl g bb x y)). rewrite tl_length. exact H.
Qed.

Lemma row_line_length g bb y i :
  valid bb -> (i < tl_n bb y)%nat ->
  List.length (List.concat (map (fun x => nth i (tl g bb x y) []) (xs_of bb))) = (12 * Z.to_nat (box_width bb) + 1)%nat.
Proof.
  intros [V _] Hi. unfold xs_of, box_width.
  assert (Ez : zrange (cx (bmin bb)) (cx (bmax bb) + 1) = zrange (cx (bmin bb)) (cx (bmax bb)) ++ [cx (bmax bb)]).
  { unfold zrange. replace (Z.to_nat (cx (bmax bb) + 1 - cx (bmin bb))) with (Z.to_nat (cx (bmax bb) - cx (bmin bb)) + 1)%nat by lia.
    rewrite seq_app, map_app. cbn. f_equal. f_equal. lia. }
  rewrite Ez, map_app, concat_app, app_length. cbn [map List.concat]. rewrite app_nil_r.
  rewrite tl_line_length, Z.eqb_refl by exact Hi.
  rewrite (concat_length_const _ 12).
  - unfold zrange. rewrite !map_length, seq_length. lia.
  - intros l Hl. apply in_map_iff in Hl as (x & <- & Hx). apply in_zrange in Hx.
    rewrite tl_line_length by exact Hi. replace (cx (bmax bb) =? x) with false by lia. reflexivity.
Qed.

Lemma picture_width g bb l : valid bb -> In l (picture g bb) -> List.length l = (12 * Z.to_nat (box_width bb) + 1)%nat.
Proof.
  intros V Hl. unfold picture in Hl. apply in_concat in Hl as (rows & Hr & Hl). apply in_map_iff in Hr as (y & <- & _).
  apply in_map_iff in Hl as (i & <- & Hi). apply in_seq in Hi. apply row_line_length; [exact V|lia].
Qed.

(** ** A character of the picture *)

Lemma nth_error_zrange_at a b x : a <= x < b -> nth_error (zrange a b) (Z.to_nat (x - a)) = Some x.
Proof.
  intros H. unfold zrange. rewrite nth_error_map.
  rewrite (nth_error_nth' _ O) by (rewrite seq_length; lia). cbn.
  rewrite seq_nth by lia. f_equal. lia.
Qed.

Lemma picture_char g bb x y i j :
  valid bb -> covers bb (Coord x y) -> (i < tl_n bb y)%nat -> (j < List.length (nth i (tl g bb x y) []))%nat ->
  char_at (picture g bb) (2 * (y - cy (bmin bb)) + Z.of_nat i) (12 * (x - cx (bmin bb)) + Z.of_nat j) =
  nth_error (nth i (tl g bb x y) []) j.
Proof.
  intros V Hc Hi Hj. unfold covers in Hc. cbn in Hc. unfold char_at, picture.
  replace (Z.to_nat (2 * (y - cy (bmin bb)) + Z.of_nat i)) with (2 * Z.to_nat (y - cy (bmin bb)) + i)%nat by lia.
  rewrite (concat_nth _ 2 _ (row_pic g bb y)).
  - unfold row_pic. rewrite nth_error_map. rewrite (nth_error_nth' _ O) by (rewrite seq_length; exact Hi).
    rewrite seq_nth by exact Hi. cbn [option_map Nat.add].
    replace (Z.to_nat (12 * (x - cx (bmin bb)) + Z.of_nat j)) with (12 * Z.to_nat (x - cx (bmin bb)) + j)%nat by lia.
    apply concat_nth; [|intros k m Hk|exact Hj].
    + rewrite nth_error_map. unfold xs_of. rewrite nth_error_zrange_at by lia. reflexivity.
    + rewrite nth_error_map. unfold xs_of.
      replace k with (Z.to_nat ((cx (bmin bb) + Z.of_nat k) - cx (bmin bb))) by lia.
      rewrite nth_error_zrange_at by lia. cbn [option_map]. intros E. apply (f_equal (fun o => match o with Some m0 => m0 | None => [] end)) in E. cbv beta iota in E. rewrite <- E. rewrite tl_line_length by exact Hi.
      replace (cx (bmax bb) =? cx (bmin bb) + Z.of_nat k) with false by lia. reflexivity.
  - rewrite nth_error_map. unfold ys_of. rewrite nth_error_zrange_at by lia. reflexivity.
  - intros k m Hk. rewrite nth_error_map. unfold ys_of.
    replace k with (Z.to_nat ((cy (bmin bb) + Z.of_nat k) - cy (bmin bb))) by lia.
    rewrite nth_error_zrange_at by lia. cbn [option_map]. intros [= <-]. unfold row_pic. rewrite map_length, seq_length.
    unfold tl_n. replace (cy (bmax bb) =? cy (bmin bb) + Z.of_nat k) with false by lia. reflexivity.
  - unfold row_pic. rewrite map_length, seq_length. exact Hi.
Qed.

Lemma tile_drawn_ok g bb x y :
  valid bb -> covers bb (Coord x y) ->
  tile_drawn (picture g bb) (2 * (y - cy (bmin bb))) (12 * (x - cx (bmin bb)))
    (is_left g x y) (is_top g x y) (x =? cx (bmax bb)) (y =? cy (bmax bb)) (shown g x y).
Proof.
  intros V Hc.
  assert (H2 : (2 <= tl_n bb y)%nat) by (unfold tl_n; destruct (_ =? _); lia).
  assert (HL : forall i, (i < tl_n bb y)%nat -> (12 <= List.length (nth i (tl g bb x y) []))%nat).
  { intros i Hi. rewrite tl_line_length by exact Hi. destruct (_ =? _); lia. }
  assert (HR : forall i, (i < tl_n bb y)%nat -> (x =? cx (bmax bb)) = true -> (13 <= List.length (nth i (tl g bb x y) []))%nat).
  { intros i Hi Hr. rewrite tl_line_length by exact Hi. rewrite Z.eqb_sym, Hr. lia. }
  assert (HC : forall i j, (i < tl_n bb y)%nat -> 0 <= j -> (Z.to_nat j < List.length (nth i (tl g bb x y) []))%nat ->
     char_at (picture g bb) (2 * (y - cy (bmin bb)) + Z.of_nat i) (12 * (x - cx (bmin bb)) + j) = nth_error (nth i (tl g bb x y) []) (Z.to_nat j)).
  { intros i j Hi Hj Hl. rewrite <- (Z2Nat.id j) at 1 by exact Hj. apply picture_char; auto. }
  pose proof (fun j => HC 0%nat j ltac:(lia)) as C0. pose proof (fun j => HC 1%nat j ltac:(lia)) as C1.
  cbn [Z.of_nat Pos.of_succ_nat] in C0, C1. 
  pose proof (HL 0%nat ltac:(lia)) as L0. pose proof (HL 1%nat ltac:(lia)) as L1.
  pose proof (HR 0%nat ltac:(lia)) as R0. pose proof (HR 1%nat ltac:(lia)) as R1.
  assert (Hrep : forall a n k, (k < n)%nat -> nth_error (repeat a n) k = Some (a : ascii)).
  { intros a n. induction n; intros k Hk; [lia|]. destruct k; cbn; [reflexivity|apply IHn; lia]. }
  constructor.
  - replace (2 * (y - cy (bmin bb))) with (2 * (y - cy (bmin bb)) + 0) by lia.
    replace (12 * (x - cx (bmin bb))) with (12 * (x - cx (bmin bb)) + 0) by lia. rewrite C0 by lia. reflexivity.
  - intros k Hk. replace (2 * (y - cy (bmin bb))) with (2 * (y - cy (bmin bb)) + 0) by lia. rewrite C0 by lia.
    unfold tl, tile_lines. cbn [nth]. replace (Z.to_nat k) with (S (Z.to_nat (k - 1))) by lia. 
    rewrite nth_error_app1 by (change (S (Z.to_nat (k - 1)) < 12)%nat; lia). cbn [nth_error]. apply Hrep. lia.
  - replace (12 * (x - cx (bmin bb))) with (12 * (x - cx (bmin bb)) + 0) by lia. rewrite C1 by lia. reflexivity.
  - split; rewrite C1 by lia; [reflexivity|]. unfold tl, tile_lines. cbn [nth].
    rewrite nth2 by lia. change (Z.to_nat 11 - 2)%nat with 9%nat.
    rewrite nth_error_app2 by (rewrite shown_length; lia). rewrite shown_length. reflexivity.
  - intros k Hk. replace (12 * (x - cx (bmin bb)) + 2 + k) with (12 * (x - cx (bmin bb)) + (2 + k)) by lia.
    rewrite C1 by lia. unfold tl, tile_lines. cbn [nth].
    rewrite nth2 by lia. replace (Z.to_nat (2 + k) - 2)%nat with (Z.to_nat k) by lia.
    rewrite nth_error_app1 by (rewrite shown_length; lia). reflexivity.
  - intros Hr. specialize (R0 Hr). specialize (R1 Hr). split.
    + replace (2 * (y - cy (bmin bb))) with (2 * (y - cy (bmin bb)) + 0) by lia. rewrite C0 by lia.
      unfold tl, tile_lines. rewrite Z.eqb_sym, Hr. reflexivity.
    + rewrite C1 by lia. unfold tl, tile_lines. rewrite (Z.eqb_sym _ x), Hr. cbn [nth].
      rewrite nth2 by lia. change (Z.to_nat 12 - 2)%nat with 10%nat.
      rewrite nth_error_app2 by (rewrite shown_length; lia). rewrite shown_length. reflexivity.
  - intros Hb. assert (H3 : tl_n bb y = 3%nat) by (unfold tl_n; rewrite Z.eqb_sym, Hb; reflexivity).
    pose proof (fun j => HC 2%nat j ltac:(lia)) as C2. cbn [Z.of_nat Pos.of_succ_nat Pos.succ] in C2.
    pose proof (HL 2%nat ltac:(lia)) as L2. pose proof (HR 2%nat ltac:(lia)) as R2.
    assert (En : nth 2 (tl g bb x y) [] = ((if is_left g x y then "+" else "-")%char :: repeat "-"%char 11) ++ (if cx (bmax bb) =? x then ["+"%char] else [])).
    { unfold tl, tile_lines. rewrite (Z.eqb_sym _ y), Hb. reflexivity. }
    split; [|split].
    + replace (12 * (x - cx (bmin bb))) with (12 * (x - cx (bmin bb)) + 0) by lia. rewrite C2 by lia. rewrite En. reflexivity.
    + intros k Hk. rewrite C2 by lia. rewrite En. replace (Z.to_nat k) with (S (Z.to_nat (k - 1))) by lia. 
      rewrite nth_error_app1 by (change (S (Z.to_nat (k - 1)) < 12)%nat; lia). cbn [nth_error]. apply Hrep. lia.
    + intros Hr. specialize (R2 Hr). rewrite C2 by lia. rewrite En. rewrite Z.eqb_sym, Hr. reflexivity.
Qed.

(** ** The drawing of a reachable grid *)

Lemma draw_ok g :
  reachable g -> g <> [] -> (forall c, In c g -> plain c) ->
  exists bb, grid_bounding_box g = Ok (Some bb) /\ valid bb /\
    (forall c, In c g -> subarea (c_box c) bb) /\
    grid_str g = Ok (string_of_list_ascii (join_lines (picture g bb))).
Proof.
  intros HR Hne HP. pose proof (reachable_inv g HR) as HI.
  destruct (bounding_box_spec g) as [[Eg _]|(_ & bb & Eb & Vb & Hb0)]; [apply HI|congruence|].
  pose proof (proj1 (Hb0 bb Vb) (fun _ H => H)) as Hb.
  exists bb. split; [exact Eb|]. split; [exact Vb|]. split; [exact Hb|].
  unfold grid_str, draw. destruct g as [|c g]; [congruence|]. rewrite Eb. cbn [rbind].
  rewrite iter_lines_ok by assumption. reflexivity.
Qed.

Lemma picture_plain g bb l :
  (forall c, In c g -> plain c) -> In l (picture g bb) -> Forall (fun a => ~ line_break a) l.
Proof.
  intros HP Hl. unfold picture in Hl. apply in_concat in Hl as (rows & Hr & Hl). apply in_map_iff in Hr as (y & <- & _).
  apply in_map_iff in Hl as (i & <- & Hi). apply in_seq in Hi.
  assert (H : forall xs, Forall (fun c => is_break c = false) (List.concat (map (fun x => nth i (tl g bb x y) []) xs))).
  { induction xs as [|x xs IH]; [constructor|]. cbn [map List.concat]. apply Forall_app. split; [|exact IH].
    assert (Ht : Forall (Forall (fun c => is_break c = false)) (tl g bb x y)) by (apply tile_lines_plain, shown_plain, HP).
    rewrite Forall_forall in Ht. apply Ht. apply nth_In. rewrite tl_length. lia. }
  eapply Forall_impl; [|apply H]. cbn. intros a Ha Hb. apply is_break_spec in Hb. congruence.
Qed.

Lemma text_place_covered b : valid b -> covers b (text_place b).
Proof.
  unfold valid, covers, text_place. cbn. intros V.
  assert (H : forall a b, a <= b -> a <= (a + b) / 2 <= b).
  { intros p q Hpq. split; [apply Z.div_le_lower_bound; lia | apply Z.div_le_upper_bound; lia]. }
  destruct (H (cx (bmin b)) (cx (bmax b)) ltac:(lia)). destruct (H (cy (bmin b)) (cy (bmax b)) ltac:(lia)). lia.
Qed.

Lemma shown_at g k b text :
  seen_at g k b text ->
  (k = text_place b /\ centred text (shown g (cx k) (cy k))) \/
  (k <> text_place b /\ shown g (cx k) (cy k) = repeat " "%char 9).
Proof.
  intros H. apply seen_owner in H. unfold shown. replace (Coord (cx k) (cy k)) with k by (destruct k; reflexivity).
  rewrite H. cbn [fst snd]. destruct ((cx (text_place b) =? cx k) && (cy (text_place b) =? cy k)) eqn:E.
  - left. split; [|apply title_centred]. destruct k as [x y]. unfold text_place in *. cbn in E |- *. f_equal; lia.
  - right. split; [|reflexivity]. intros ->. rewrite !Z.eqb_refl in E. discriminate.
Qed.

Theorem drawing_spec g :
  reachable g -> g <> [] -> (forall c, In c g -> plain c) ->
  exists bb pic s,
    grid_bounding_box g = Ok (Some bb) /\ grid_str g = Ok s /\ text_of_lines pic s /\
    List.length pic = (2 * Z.to_nat (box_height bb) + 1)%nat /\
    Forall (fun l => List.length l = (12 * Z.to_nat (box_width bb) + 1)%nat /\ Forall (fun a => ~ line_break a) l) pic /\
    forall k b text, covers bb k -> seen_at g k b text ->
      exists shown,
        tile_drawn pic (2 * (cy k - cy (bmin bb))) (12 * (cx k - cx (bmin bb)))
          (cx (bmin b) =? cx k) (cy (bmin b) =? cy k) (cx k =? cx (bmax bb)) (cy k =? cy (bmax bb)) shown /\
        ((k = text_place b /\ centred text shown) \/ (k <> text_place b /\ shown = repeat " "%char 9)).
Proof.
  intros HR Hne HP. destruct (draw_ok g HR Hne HP) as (bb & Eb & Vb & _ & Es).
  exists bb, (picture g bb), (string_of_list_ascii (join_lines (picture g bb))).
  assert (Hc := picture_count g bb Vb).
  split; [exact Eb|]. split; [exact Es|]. split; [|split; [exact Hc|split]].
  - apply join_text. intros E. rewrite E in Hc. cbn in Hc. lia.
  - apply Forall_forall. intros l Hl. split; [apply (picture_width g bb); auto|apply (picture_plain g bb); auto].
  - intros k b text Hk Hs. exists (shown g (cx k) (cy k)). split; [|apply shown_at, Hs].
    pose proof (tile_drawn_ok g bb (cx k) (cy k) Vb) as HT. unfold is_left, is_top in HT.
    replace (Coord (cx k) (cy k)) with k in HT by (destruct k; reflexivity).
    apply seen_owner in Hs. rewrite Hs in HT. cbn [fst snd] in HT. exact (HT Hk).
Qed.

Lemma seen_own g c k :
  no_overlap g -> In c g -> covers (c_box c) k ->
  grid_getitem g (PCoord k) = Ok c /\ seen_at g k (c_box c) (list_ascii_of_string (cell_str c)).
Proof.
  intros HN Hc Hk.
  assert (E : grid_getitem_c g k = Ok c).
  { clear -HN Hc Hk. induction g as [|d g IH]; [destruct Hc|]. inversion HN as [|? ? Hd Hg]; subst.
    unfold grid_getitem_c. fold grid_getitem_c. destruct (box_has (c_box d) k) eqn:Ed.
    - destruct Hc as [->|Hc]; [reflexivity|]. exfalso. rewrite Forall_forall in Hd. apply (Hd c Hc).
      apply box_has_covers in Ed. exists k. auto.
    - destruct Hc as [->|Hc].
      + apply (box_has_covers (c_box c)) in Hk. congruence.
      + apply IH; auto. }
  assert (E' : grid_getitem g (PCoord k) = Ok c) by exact E.
  split; [exact E'|]. left. exists c. auto.
Qed.
