(** * Proofs about cells *)
From Verif Require Import Base M_Geometry M_Xml M_Cell S_Geometry S_Cell P_Geometry.

Lemma append_assoc a b c :
  String.append (String.append a b) c = String.append a (String.append b c).
Proof. induction a as [|x a IH]; cbn; [reflexivity|]. rewrite IH; reflexivity. Qed.

Lemma append_nil_r a : String.append a EmptyString = a.
Proof. induction a as [|x a IH]; cbn; [reflexivity|]. rewrite IH; reflexivity. Qed.

Lemma str_concat_nil : str_concat [] = EmptyString.
Proof. reflexivity. Qed.

Lemma str_concat_cons a l : str_concat (a :: l) = String.append a (str_concat l).
Proof.
  unfold str_concat. destruct l as [|b l]; cbn; [symmetry; apply append_nil_r | reflexivity].
Qed.

Lemma str_concat_app l m : str_concat (l ++ m) = String.append (str_concat l) (str_concat m).
Proof.
  induction l as [|a l IH]; cbn [app]; [reflexivity|].
  rewrite !str_concat_cons, IH, append_assoc. reflexivity.
Qed.

Lemma char_data_app l m : char_data (l ++ m) = String.append (char_data l) (char_data m).
Proof.
  induction l as [|t l IH]; cbn; [reflexivity|]. destruct t; rewrite ?IH, ?append_assoc; reflexivity.
Qed.

Lemma char_data_chars o : char_data (chars o) = safe_text o.
Proof. destruct o; cbn; [apply append_nil_r | reflexivity]. Qed.

Lemma node_text_tokens n : get_node_text n = char_data (tokens n).
Proof.
  induction n as [tag attrs text children tail IH | target data tail | data tail] using xnode_ind';
    cbn [get_node_text tokens char_data]; [|symmetry; apply char_data_chars..].
  rewrite !char_data_app, !char_data_chars. cbn [char_data String.append]. rewrite append_assoc.
  do 2 f_equal.
  induction IH as [|c l Hc Hl IH']; cbn [map flat_map].
  - reflexivity.
  - rewrite str_concat_cons, char_data_app, Hc, IH'. reflexivity.
Qed.

Lemma content_text_leaves c : get_content_text c = str_concat (map leaf_text (leaves c)).
Proof.
  induction c as [|s|z|l IH|n|s] using content_ind';
    cbn [get_content_text leaves map leaf_text]; try reflexivity.
  - induction IH as [|c l Hc Hl IH']; cbn [map flat_map]; [reflexivity|].
    rewrite str_concat_cons, map_app, str_concat_app, Hc, IH'. reflexivity.
  - apply node_text_tokens.
Qed.

Lemma content_text_list_app l m :
  get_content_text (CList (l ++ m)) =
  String.append (get_content_text (CList l)) (get_content_text (CList m)).
Proof. cbn [get_content_text]. rewrite map_app, str_concat_app. reflexivity. Qed.

Lemma content_add_text a b c :
  content_add a b = Ok c -> (forall z, a <> CNum z) ->
  get_content_text c = String.append (get_content_text a) (get_content_text b).
Proof.
  destruct a, b; cbn [content_add]; intros H Hn; inversion H; subst; cbn [get_content_text].
  - reflexivity.
  - exfalso; eapply Hn; reflexivity.
  - rewrite map_app, str_concat_app; reflexivity.
Qed.

(** ** Moving and resizing *)

Lemma cell_new_box ct st na b :
  valid b ->
  cell_new ct (Some st) na (cx (bmin b)) (cy (bmin b)) (box_width b) (box_height b)
  = Ok (MkCell ct st na b).
Proof.
  intros V. unfold cell_new, box_new, box_width, box_height.
  rewrite box_validate_ok by (unfold valid in V; lia). cbn [rbind styles_of].
  do 2 f_equal. apply box_ext; cbn; lia.
Qed.

Lemma box_transform_valid b c s b' : box_transform b c s = Ok b' -> valid b'.
Proof.
  unfold box_transform. intros H.
  destruct (match c with None => Ok (bmin b) | Some v => coord_from_value v end) as [mc|];
    cbn [rbind] in H; [|discriminate].
  destruct (match s with None => Ok (box_size b) | Some v => size_from_value v end) as [sz|];
    cbn [rbind] in H; [|discriminate].
  cbn [coord_add coord_sub rbind] in H.
  eapply box_new_valid; [exact H|]. intros b2 E; discriminate E.
Qed.

Lemma cell_transform_eq c co sz :
  cell_transform c co sz =
  (b <-? box_transform (c_box c) co sz ;;
   Ok (MkCell (c_content c) (c_styles c) (c_nature c) b)).
Proof.
  unfold cell_transform. destruct (box_transform (c_box c) co sz) as [b|e] eqn:E; cbn [rbind]; [|reflexivity].
  apply cell_new_box. eapply box_transform_valid; exact E.
Qed.

Lemma cell_move_to_eq c v :
  cell_move_to c v =
  (b <-? box_move_to (c_box c) v ;; Ok (MkCell (c_content c) (c_styles c) (c_nature c) b)).
Proof. unfold cell_move_to, box_move_to. apply cell_transform_eq. Qed.

Lemma cell_resize_eq c v :
  cell_resize c v =
  (b <-? box_resize (c_box c) v ;; Ok (MkCell (c_content c) (c_styles c) (c_nature c) b)).
Proof. unfold cell_resize, box_resize. apply cell_transform_eq. Qed.
