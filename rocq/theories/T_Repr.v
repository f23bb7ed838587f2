(** * C91: the printed forms of coordinates, sizes, boxes and rows *)
From Verif Require Import Base M_Geometry M_Xml M_Cell M_Grid M_Table M_Drawing M_Repr.
From Verif Require Import S_Geometry S_Cell S_Grid S_Table S_RoundTrip S_Repr.
From Verif Require Import P_Alphabet P_Grid P_Table P_TableMore P_Builder.
From Verif Require Import M_CalsParser T_Geometry T_Grid T_Table T_CalsParser T_Convert.
From Coq Require Import Sorting.Sorted.
Open Scope string_scope.
Open Scope list_scope.
Open Scope Z_scope.

(** ** The replacement of the name of the tuple *)
Lemma prefix_in p : forall s c, prefixb p s = true -> In c p -> In c s.
Proof.
  induction p as [|a p IH]; intros s c H Hc; [destruct Hc|]. destruct s as [|b s]; [discriminate|]. cbn [prefixb] in H. apply andb_true_iff in H as [H1 H2].
  apply Ascii.eqb_eq in H1 as ->. destruct Hc as [<-|Hc]; [left; reflexivity|right; exact (IH s c H2 Hc)].
Qed.
Lemma replace_none old new c : In c old -> forall s, ~ In c s -> replace_from old new 0 s = s.
Proof.
  intros Hc s. induction s as [|a s IH]; intros H; [reflexivity|]. cbn [replace_from]. destruct (prefixb old (a :: s)) eqn:E; [exfalso; exact (H (prefix_in _ _ c E Hc))|].
  rewrite IH; [reflexivity|]. intros F. apply H. right. exact F.
Qed.
Definition noT (s : string) : Prop := ~ In "T"%char (list_ascii_of_string s).
Lemma noT_app a b : noT a -> noT b -> noT (a ++ b)%string.
Proof. unfold noT. rewrite list_ascii_append, in_app_iff. tauto. Qed.
Lemma noT_num z : noT (py_str_int z).
Proof. intros H. pose proof (py_str_int_chars z) as F. rewrite Forall_forall in F. specialize (F _ H). unfold num_char in F. cbn in F. repeat destruct F as [F|F]; discriminate || exact F. Qed.
Lemma noT_const s : forallb (fun c => negb (Ascii.eqb c "T")) (list_ascii_of_string s) = true -> noT s.
Proof. intros H Hc. rewrite forallb_forall in H. specialize (H _ Hc). rewrite Ascii.eqb_refl in H. discriminate. Qed.
Lemma replace_kept s old new : In "T"%char (list_ascii_of_string old) -> noT s -> str_replace s old new = s.
Proof. intros Hc H. unfold str_replace, py_replace. rewrite (replace_none _ _ "T"%char Hc _ H). apply string_of_list_ascii_of_string. Qed.
Ltac noTs := repeat (apply noT_app); try apply noT_num; try (apply noT_const; reflexivity); try assumption.
Lemma replace_skip old new : forall k s, (k <= List.length s)%nat -> replace_from old new k s = replace_from old new 0 (skipn k s).
Proof.
  induction k as [|k IH]; intros s H; [reflexivity|]. destruct s as [|c s]; [cbn in H; lia|]. cbn [replace_from skipn]. apply IH. cbn in H. lia.
Qed.
Lemma prefix_self p s : prefixb p (p ++ s) = true.
Proof. induction p as [|a p IH]; [destruct s; reflexivity|]. cbn. rewrite Ascii.eqb_refl. exact IH. Qed.
Lemma replace_first s old new : In "T"%char (list_ascii_of_string old) -> noT s -> str_replace (old ++ s)%string old new = (new ++ s)%string.
Proof.
  intros Hc H. unfold str_replace, py_replace. rewrite list_ascii_append. apply list_ascii_inj. rewrite list_ascii_of_string_of_list_ascii, list_ascii_append.
  set (o := list_ascii_of_string old) in *. set (n := list_ascii_of_string new). set (r := list_ascii_of_string s).
  pose proof (prefix_self o r) as Hp. destruct o as [|a o]; [destruct Hc|]. cbn [app] in Hp |- *. cbn [replace_from]. rewrite Hp. f_equal.
  rewrite replace_skip; [|cbn [List.length]; rewrite app_length; lia]. cbn [List.length]. replace (S (List.length o) - 1)%nat with (List.length o) by lia.
  replace (skipn (List.length o) (o ++ r)) with r by (rewrite skipn_app, skipn_all, Nat.sub_diag; reflexivity).
  apply (replace_none _ _ "T"%char Hc). exact H.
Qed.

(** Both versions of Python print the same text. *)
Definition plain_repr (cls f1 a f2 b : string) : string := (cls ++ "(" ++ f1 ++ "=" ++ a ++ ", " ++ f2 ++ "=" ++ b ++ ")")%string.
Lemma coord_plain py2 c : coord_repr py2 c = plain_repr "Coord" "x" (py_str_int (cx c)) "y" (py_str_int (cy c)).
Proof. unfold coord_repr, namedtuple_repr, plain_repr. destruct py2; [apply replace_first|apply replace_kept]; try (cbn; tauto); noTs. Qed.
Lemma size_plain py2 s : size_repr py2 s = plain_repr "Size" "width" (py_str_int (sw s)) "height" (py_str_int (sh s)).
Proof. unfold size_repr, namedtuple_repr, plain_repr. destruct py2; [apply replace_first|apply replace_kept]; try (cbn; tauto); noTs. Qed.
Lemma noT_coord py2 c : noT (coord_repr py2 c).
Proof. rewrite coord_plain. unfold plain_repr. noTs. Qed.
Lemma box_plain py2 b : box_repr py2 b = plain_repr "Box" "min" (coord_repr py2 (bmin b)) "max" (coord_repr py2 (bmax b)).
Proof.
  unfold box_repr, namedtuple_repr, plain_repr. pose proof (noT_coord py2 (bmin b)). pose proof (noT_coord py2 (bmax b)).
  destruct py2; [apply replace_first|apply replace_kept]; try (cbn; tauto); noTs.
Qed.

(** ** Reading the numbers of a printed form *)
Lemma num_sep a b c c' s s' : ~ num_char c -> ~ num_char c' -> (py_str_int a ++ String c s = py_str_int b ++ String c' s')%string -> a = b /\ s = s'.
Proof.
  intros Hc Hc' H. apply (f_equal list_ascii_of_string) in H. rewrite !list_ascii_append in H. cbn [list_ascii_of_string] in H.
  assert (G : forall u v r r', Forall num_char u -> Forall num_char v -> u ++ c :: r = v ++ c' :: r' -> u = v /\ r = r').
  { clear - Hc Hc'. induction u as [|x u IH]; intros [|y v] r r' Hu Hv H; cbn in H; injection H as E H.
    - split; [reflexivity|exact H].
    - subst. inversion Hv; contradiction.
    - subst. inversion Hu; contradiction.
    - subst. inversion Hu; subst. inversion Hv; subst. destruct (IH v r r') as [-> ->]; auto. }
  apply G in H as [H1 H2]; [|apply py_str_int_chars..]. apply list_ascii_inj in H1, H2. apply py_str_int_inj in H1. auto.
Qed.
Lemma not_num c : existsb (Ascii.eqb c) (list_ascii_of_string "-0123456789") = false -> ~ num_char c.
Proof. intros H Hc. assert (E : existsb (Ascii.eqb c) (list_ascii_of_string "-0123456789") = true) by (apply existsb_exists; exists c; split; [exact Hc|apply Ascii.eqb_refl]). congruence. Qed.
Lemma coord_rest c d s s' : (plain_repr "Coord" "x" (py_str_int (cx c)) "y" (py_str_int (cy c)) ++ s = plain_repr "Coord" "x" (py_str_int (cx d)) "y" (py_str_int (cy d)) ++ s')%string -> c = d /\ s = s'.
Proof.
  unfold plain_repr. intros H. repeat (rewrite append_assoc in H). cbn [String.append] in H. repeat (rewrite append_assoc in H). cbn [String.append] in H. injection H as H.
  apply num_sep in H as [E1 H]; [|apply not_num; reflexivity..]. cbn [String.append] in H. injection H as H. repeat (rewrite append_assoc in H). cbn [String.append] in H.
  apply num_sep in H as [E2 H]; [|apply not_num; reflexivity..]. split; [destruct c, d; cbn in *; congruence|exact H].
Qed.
Lemma box_rest a b a' b' : plain_repr "Box" "min" a "max" b = plain_repr "Box" "min" a' "max" b' -> (a ++ ", max=" ++ b ++ ")" = a' ++ ", max=" ++ b' ++ ")")%string.
Proof. unfold plain_repr. cbn [String.append]. intros H. injection H as H. exact H. Qed.
Lemma box_rest' b b' : (", max=" ++ b ++ ")" = ", max=" ++ b' ++ ")")%string -> (b ++ ")" = b' ++ ")")%string.
Proof. cbn [String.append]. intros H. injection H as H. exact H. Qed.

Definition print (python2 : bool) (v : printable) : string :=
  match v with ACoord c => coord_repr python2 c | ASize s => size_repr python2 s | ABox b => box_repr python2 b end.

(** ** C91 *)

(** Full statement: two values which are printed alike are the same value, whichever the versions of Python. *)
Theorem C91_repr : forall p2 q2 v w, print p2 v = print q2 w <-> v = w.
Proof.
  intros p2 q2 v w. split.
  - destruct v as [c|s|b], w as [d|t|b']; cbn [print]; rewrite ?coord_plain, ?size_plain, ?box_plain; try discriminate; intros H.
    + f_equal. apply (f_equal (fun x => x ++ "")%string) in H. apply coord_rest in H as [-> _]. reflexivity.
    + f_equal. unfold plain_repr in H. cbn [String.append] in H. injection H as H.
      apply num_sep in H as [E1 H]; [|apply not_num; reflexivity..]. cbn [String.append] in H. injection H as H.
      apply num_sep in H as [E2 _]; [|apply not_num; reflexivity..]. destruct s, t; cbn in *; congruence.
    + f_equal. rewrite !coord_plain in H. apply box_rest in H.
      apply coord_rest in H as [E1 H]. apply box_rest' in H. apply coord_rest in H as [E2 _]. destruct b, b'; cbn in *; congruence.
  - intros <-. destruct v; cbn [print]; rewrite ?coord_plain, ?size_plain, ?box_plain, ?coord_plain; reflexivity.
Qed.
(** The text is the call which makes the value. *)
Theorem C91_text : forall p2 x y z t,
  print p2 (ACoord (Coord x y)) = ("Coord(x=" ++ py_str_int x ++ ", y=" ++ py_str_int y ++ ")")%string /\
  print p2 (ASize (Size x y)) = ("Size(width=" ++ py_str_int x ++ ", height=" ++ py_str_int y ++ ")")%string /\
  print p2 (ABox (MkBox (Coord x y) (Coord z t))) =
    ("Box(min=Coord(x=" ++ py_str_int x ++ ", y=" ++ py_str_int y ++ "), max=Coord(x=" ++ py_str_int z ++ ", y=" ++ py_str_int t ++ "))")%string.
Proof.
  intros p2 x y z t. cbn [print]. split; [rewrite coord_plain; reflexivity|]. split; [rewrite size_plain; reflexivity|].
  rewrite box_plain, !coord_plain. cbn [bmin bmax cx cy]. unfold plain_repr. cbn [String.append]. repeat (rewrite append_assoc; cbn [String.append]). reflexivity.
Qed.
Theorem C91_size_str : forall s t, size_str s = size_str t -> s = t.
Proof.
  intros s t H. unfold size_str in H. cbn [String.append] in H. injection H as H. apply num_sep in H as [E1 H]; [|apply not_num; reflexivity..].
  cbn [String.append] in H. injection H as H. apply num_sep in H as [E2 _]; [|apply not_num; reflexivity..]. destruct s, t; cbn in *; congruence.
Qed.

(** ** Rows *)
Lemma concat_listing l : listing l (String.concat ", " l).
Proof. induction l as [|a [|b l] IH]; [constructor..|]. cbn [String.concat]. apply listing_more, IH. Qed.
Lemma selects_filter p g : selects (starts_at Rows p) g (filter (fun c => Z.eqb (cy (bmin (c_box c))) p) g).
Proof.
  induction g as [|c g IH]; cbn [filter]; [constructor|]. destruct (Z.eqb_spec (cy (bmin (c_box c))) p); [apply sel_in|apply sel_out]; assumption.
Qed.
(** The text of a row is the texts of the cells which start in it, from left to right, when the row lists its cells in this
    order (C27, C70). *)
Theorem C91_row : forall t p v, treachable t -> rows_ordered t -> 1 <= p -> reads Rows p t v ->
  exists l s, selects (starts_at Rows p) (table_iter t) l /\
    listing (map (fun c => str_concat (map leaf_text (leaves (c_content c)))) l) s /\ view_str v = ("[" ++ s ++ "]")%string.
Proof.
  intros t p v HT HO Hp Hv. pose proof (selects_filter p (table_iter t)) as HS. set (l := filter _ _) in HS. exists l, (String.concat ", " (map cell_str l)).
  split; [exact HS|]. split.
  - rewrite (map_ext _ cell_str) by (intros c; symmetry; apply C12_cell_text). apply concat_listing.
  - unfold view_str. do 3 f_equal. apply f_equal.
    destruct (C26_membership_partial Rows p t v HT Hp Hv) as (_ & HM & _).
    apply (SSorted_unique before).
    + intros a [H|[_ H]]; lia.
    + unfold before. intros a b c. lia.
    + pose proof (HO p v Hp Hv) as H. unfold left_to_right in H.
      assert (G : forall m, (forall c, In c m -> starts_at Rows p c) -> StronglySorted (fun a b => across Rows a < across Rows b) m -> StronglySorted before m).
      { clear. intros m Hm H. induction H as [|a m H IH F]; constructor; [apply IH; intros c Hc; apply Hm; right; exact Hc|].
        rewrite Forall_forall in *. intros b Hb. right. split; [rewrite (Hm a), (Hm b); [reflexivity|right; exact Hb|left; reflexivity]|exact (F b Hb)]. }
      apply G; [|exact H]. intros c Hc. apply HM, Hc.
    + assert (HI : in_order (table_iter t)) by (apply C14_iteration_in_order; apply treachable_grid; exact HT).
      clear - HI. unfold l. induction HI as [|a m H IH F]; cbn [filter]; [constructor|]. destruct (Z.eqb _ _); [|exact IH]. constructor; [exact IH|].
      rewrite Forall_forall in *. intros b Hb. apply filter_In in Hb as [Hb _]. exact (F b Hb).
    + intros c. rewrite HM. unfold l. rewrite filter_In, Z.eqb_eq. reflexivity.
Qed.

(** The text of a row does not tell its cells: a text may contain a comma. *)
Theorem C91_row_refuted : exists t1 t2 v1 v2, treachable t1 /\ treachable t2 /\ reads Rows 1 t1 v1 /\ reads Rows 1 t2 v2 /\
  view_str v1 = view_str v2 /\ List.length (v_owned v1) <> List.length (v_owned v2).
Proof.
  exists (trun et_start [TReadViews Rows; TInsert Rows 1 (CText "a, b") None None 1 1]), (trun et_start [TReadViews Rows; TInsert Rows 1 (CText "a") None None 1 1; TInsert Rows 1 (CText "b") None None 1 1]).
  do 2 eexists. split; [apply et_reachable|]. split; [apply et_reachable|]. split; [vm_compute; reflexivity|]. split; [vm_compute; reflexivity|].
  split; [vm_compute; reflexivity|vm_compute; discriminate].
Qed.

Example C91_ex : print false (ABox (MkBox (Coord 1 2) (Coord 12 3))) = "Box(min=Coord(x=1, y=2), max=Coord(x=12, y=3))" /\
  print true (ABox (MkBox (Coord 1 2) (Coord 12 3))) = "Box(min=Coord(x=1, y=2), max=Coord(x=12, y=3))" /\
  print true (ASize (Size (-1) 2)) = "Size(width=-1, height=2)" /\ size_str (Size 3 4) = "(3 x 4)".
Proof. vm_compute. auto. Qed.
Definition row_doc : xnode :=
  let entry (s : string) := XElem "entry" [] (Some s) [] None in
  let row (l : list xnode) := XElem "row" [] None l None in
  XElem "table" [] None [XElem "tgroup" [] None [XElem "tbody" [] None [row [entry "a"; entry "b"]; row [entry "c"; entry "d"]] None] None] None.
Example C91_row_ex : exists t v, treachable t /\ rows_ordered t /\ reads Rows 2 t v /\ view_str v = "[c, d]".
Proof.
  destruct (parse_table o0 row_doc) as [t|] eqn:E; [|vm_compute in E; discriminate]. exists t. destruct (C70_cals _ _ _ E) as (H1 & _ & H2).
  vm_compute in E. injection E as <-. eexists. split; [exact H1|]. split; [exact H2|]. split; vm_compute; reflexivity.
Qed.

Print Assumptions C91_repr.
Print Assumptions C91_text.
Print Assumptions C91_size_str.
Print Assumptions C91_row.
Print Assumptions C91_row_refuted.
