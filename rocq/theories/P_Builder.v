(** * Proofs about the builders: contents *)
From Verif Require Import Base M_Geometry M_Xml M_Cell M_Builder S_Cell S_Builder P_Cell.

Lemma text_pieces_app s t : text_pieces (String.append s t) = text_pieces s ++ text_pieces t.
Proof. unfold text_pieces. induction s as [|a s IH]; cbn; [reflexivity|]. rewrite IH. reflexivity. Qed.

Lemma node_pieces_add n s : node_pieces (x_set_tail n (add_text (x_tail n) s)) = node_pieces n ++ text_pieces s.
Proof.
  unfold node_pieces, add_text. destruct n as [a b c d t|a b t|a t]; cbn [x_tail x_set_tail otext_pieces]; (destruct t as [u|]; cbn [ostr otext_pieces]; [rewrite text_pieces_app|]; reflexivity).
Qed.

Lemma upd_last_pieces s l : l <> [] ->
  flat_map node_pieces (upd_last (fun n => x_set_tail n (add_text (x_tail n) s)) l) = flat_map node_pieces l ++ text_pieces s.
Proof.
  induction l as [|n l IH]; [congruence|]. intros _. destruct l as [|m l].
  - cbn [upd_last flat_map]. rewrite !app_nil_r. apply node_pieces_add.
  - change (upd_last ?f (n :: m :: l)) with (n :: upd_last f (m :: l)). cbn [flat_map]. rewrite IH by congruence.
    cbn [flat_map]. rewrite app_assoc. reflexivity.
Qed.

Definition pair_pieces (e : option string * list xnode) : list piece := otext_pieces (fst e) ++ flat_map node_pieces (snd e).

Lemma append_one_spec c e :
  match append_one c e with
  | Ok e' => (match c with CText _ | CNode _ => True | _ => False end) /\ pair_pieces e' = pair_pieces e ++ content_pieces c
  | Err x => x = ETypeError /\ match c with CText _ | CNode _ => False | _ => True end
  end.
Proof.
  destruct e as [text ch]. destruct c; cbn; try (split; [reflexivity|exact I]).
  - destruct ch as [|n ch].
    + split; [exact I|]. unfold pair_pieces, add_text. cbn [fst snd flat_map otext_pieces]. rewrite !app_nil_r, text_pieces_app.
      destruct text; reflexivity.
    + split; [exact I|]. unfold pair_pieces. cbn [fst snd].
      change (match ch with [] => _ | _ :: _ => _ end) with (upd_last (fun n0 => x_set_tail n0 (add_text (x_tail n0) s)) (n :: ch)).
      rewrite upd_last_pieces by congruence. rewrite app_assoc. reflexivity.
  - split; [exact I|]. unfold pair_pieces. cbn [fst snd]. rewrite flat_map_app. cbn. rewrite app_nil_r, app_assoc. reflexivity.
Qed.

Lemma append_all_spec l : forall e,
  match append_all l e with
  | Ok e' => writable (CList l) /\ pair_pieces e' = pair_pieces e ++ content_pieces (CList l)
  | Err x => x = ETypeError /\ ~ writable (CList l)
  end.
Proof.
  induction l as [|c l IH]; intros e; cbn [append_all].
  - split; [intros d []|]. cbn. rewrite app_nil_r. reflexivity.
  - pose proof (append_one_spec c e) as H1. destruct (append_one c e) as [e1|x]; cbn [rbind].
    + specialize (IH e1). destruct H1 as [H1 H2]. destruct (append_all l e1) as [e2|x].
      * destruct IH as [IH1 IH2]. split.
        -- intros d [<-|Hd]; [destruct c; auto|apply (IH1 d Hd)].
        -- rewrite IH2, H2. cbn. rewrite app_assoc. reflexivity.
      * destruct IH as [-> IH]. split; [reflexivity|]. intros HW. apply IH. intros d Hd. apply (HW d). right. exact Hd.
    + destruct H1 as [-> H1]. split; [reflexivity|]. intros HW. specialize (HW c (or_introl eq_refl)). destruct c; auto.
Qed.

Lemma append_elements_spec c :
  match append_elements c (None, []) with
  | Ok e' => writable c /\ pair_pieces e' = content_pieces c
  | Err x => x = ETypeError /\ ~ writable c
  end.
Proof.
  destruct c; cbn [append_elements fst snd].
  - split; [exact I|reflexivity].
  - split; [exact I|]. unfold pair_pieces. cbn. rewrite app_nil_r. reflexivity.
  - split; [exact I|]. unfold pair_pieces. cbn. rewrite app_nil_r. reflexivity.
  - pose proof (append_all_spec l (None, [])) as H. destruct (append_all l (None, [])); exact H.
  - split; [exact I|]. unfold pair_pieces. cbn. rewrite app_nil_r. reflexivity.
  - split; [reflexivity|]. intros [].
Qed.

(** the text of the pieces *)
Fixpoint piece_text (l : list piece) : string :=
  match l with
  | [] => EmptyString
  | Char a :: l' => String a (piece_text l')
  | Node n :: l' => String.append (get_node_text n) (piece_text l')
  end.

Lemma append_empty s : String.append s EmptyString = s.
Proof. induction s; cbn; congruence. Qed.
Lemma append_assoc a b c : String.append (String.append a b) c = String.append a (String.append b c).
Proof. induction a; cbn; congruence. Qed.
Lemma piece_text_app l m : piece_text (l ++ m) = String.append (piece_text l) (piece_text m).
Proof. induction l as [|[a|n] l IH]; cbn; [reflexivity|rewrite IH; reflexivity|rewrite IH, append_assoc; reflexivity]. Qed.
Lemma piece_text_text s : piece_text (text_pieces s) = s.
Proof. unfold text_pieces. induction s; cbn; congruence. Qed.
Lemma piece_text_otext o : piece_text (otext_pieces o) = safe_text o.
Proof. destruct o; cbn; [apply piece_text_text|reflexivity]. Qed.
Lemma piece_text_node n : piece_text (node_pieces n) = get_node_text n.
Proof.
  unfold node_pieces. cbn [piece_text]. rewrite piece_text_otext.
  destruct n as [a b c d t|a b t|a t]; cbn; rewrite ?append_empty; reflexivity.
Qed.
Lemma str_concat_cons s l : str_concat (s :: l) = String.append s (str_concat l).
Proof. unfold str_concat. destruct l; cbn; [rewrite append_empty; reflexivity|reflexivity]. Qed.
Lemma piece_text_nodes l : piece_text (flat_map node_pieces l) = str_concat (map get_node_text l).
Proof.
  induction l as [|n l IH]; [reflexivity|]. cbn [flat_map map]. rewrite piece_text_app, piece_text_node, IH, str_concat_cons. reflexivity.
Qed.
Lemma piece_text_content c : piece_text (content_pieces c) = get_content_text c.
Proof.
  induction c as [| | |l IH| |] using content_ind'; cbn [content_pieces get_content_text]; auto using piece_text_text, piece_text_node.
  induction IH as [|c l H _ IH]; [reflexivity|]. cbn [flat_map map]. rewrite piece_text_app, H, IH, str_concat_cons. reflexivity.
Qed.
Lemma elem_text tag attrs text ch tail :
  get_node_text (XElem tag attrs text ch tail) = String.append (piece_text (elem_pieces (XElem tag attrs text ch tail))) (safe_text tail).
Proof.
  unfold elem_pieces. cbn [x_text x_children get_node_text]. rewrite piece_text_app, piece_text_otext, piece_text_nodes. reflexivity.
Qed.
