(** * The passes which finish a document, on the table of the builder *)
From Verif Require Import Base M_Geometry M_Xml M_Cell M_Grid M_Table M_Str M_Units M_Builder M_Cals M_CalsParser M_Formex M_FormexFinal M_FormexFinish M_FormexParser M_FormexRead.
From Verif Require Import S_Geometry S_Grid S_Table S_Units S_Builder S_Cals S_Int S_CalsParser S_RoundTrip S_Formex S_FormexFinal S_FormexFinish S_Attrs S_FormexRead S_FormexTrip S_FormexFinished.
From Verif Require Import P_Geometry P_Grid P_GridFacts P_Table P_Cals P_CalsParser P_Formex P_FormexBlk P_FormexNumber P_FormexFinish P_FormexEvents P_FormexTrip P_FormexTripRead P_FormexTripMain P_RoundTrip.
Open Scope string_scope.
Open Scope list_scope.
Open Scope Z_scope.

(** ** Nodes which have nothing to finish *)

Lemma lacks_weaken names names' n : lacks names n -> incl names' names -> lacks names' n.
Proof. intros H Hi. induction H as [n H1 H2 IH]. constructor; [intros s Hs Hx; exact (H1 s Hs (Hi s Hx))|exact IH]. Qed.
Lemma lacks_inv names tag attrs text children tail : lacks names (XElem tag attrs text children tail) -> ~ In tag names /\ Forall (lacks names) children.
Proof. intros H. inversion H as [? H1 H2]; subst. split; [apply H1; reflexivity|]. apply Forall_forall. exact H2. Qed.
Lemma lacks_elem names tag attrs text children tail : ~ In tag names -> Forall (lacks names) children -> lacks names (XElem tag attrs text children tail).
Proof. intros H1 H2. constructor; [intros s [= <-]; exact H1|]. rewrite Forall_forall in H2. exact H2. Qed.
Lemma lacks_pi names a b c : lacks names (XPI a b c).
Proof. constructor; [discriminate|intros x []]. Qed.

Ltac not_name H := match goal with |- context [String.eqb ?a ?b] => destruct (String.eqb_spec a b) as [->|_]; [exfalso; apply H; cbn; tauto|] end.

Lemma numbers_same : forall l, Forall (fun n => forall lv s, M_FormexFinal.number lv n s = (n, s)) l -> forall lv s, numbers lv l s = (l, s).
Proof. induction 1 as [|c l Hc _ IH]; intros lv s; [reflexivity|]. cbn [numbers]. rewrite Hc, IH. reflexivity. Qed.
Lemma number_lacks n : lacks ["TBL"] n -> forall lv s, M_FormexFinal.number lv n s = (n, s).
Proof.
  induction n as [tag attrs text children tail IH| |] using xnode_ind'; intros H lv s; [|reflexivity..].
  apply lacks_inv in H as [Ht Hc]. rewrite number_elem. not_name Ht. rewrite numbers_same; [reflexivity|].
  rewrite Forall_forall in *. intros x Hx. apply IH; auto.
Qed.
Lemma flat_map_same {A} (f : A -> list A) l : Forall (fun n => f n = [n]) l -> flat_map f l = l.
Proof. induction 1 as [|c l Hc _ IH]; [reflexivity|]. cbn [flat_map]. rewrite Hc, IH. reflexivity. Qed.
Lemma cleanup_lacks n : lacks ["TBL"] n -> forall u, cleanup_in u n = [n].
Proof.
  induction n as [tag attrs text children tail IH| |] using xnode_ind'; intros H u; [|reflexivity..].
  apply lacks_inv in H as [Ht Hc]. cbn [cleanup_in]. not_name Ht. rewrite andb_false_r, flat_map_same; [reflexivity|].
  rewrite Forall_forall in *. intros x Hx. apply IH; auto.
Qed.
Lemma extract_list_app a b : extract_list (a ++ b) = (x <-? extract_list a ;; y <-? extract_list b ;; Ok (fst x ++ fst y, snd x ++ snd y)).
Proof.
  induction a as [|c a IH]; cbn [app extract_list rbind].
  - destruct (extract_list b) as [[u w]|]; reflexivity.
  - destruct (extract_in c) as [x|]; cbn [rbind]; [|reflexivity]. rewrite IH. destruct (extract_list a) as [y|]; cbn [rbind]; [|reflexivity].
    destruct (extract_list b) as [z|]; cbn [rbind fst snd]; [|reflexivity]. rewrite !app_assoc. reflexivity.
Qed.
Lemma extract_list_same l : Forall (fun n => extract_in n = Ok ([n], [])) l -> extract_list l = Ok (l, []).
Proof. induction 1 as [|c l Hc _ IH]; [reflexivity|]. cbn [extract_list]. rewrite Hc, IH. reflexivity. Qed.
Lemma extract_lacks n : lacks ["TBL"; "ROW"] n -> extract_in n = Ok ([n], []).
Proof.
  induction n as [tag attrs text children tail IH| |] using xnode_ind'; intros H; [|reflexivity..].
  apply lacks_inv in H as [Ht Hc]. rewrite extract_elem, extract_list_same; [|rewrite Forall_forall in *; intros x Hx; apply IH; auto].
  cbn [rbind]. not_name Ht. not_name Ht. reflexivity.
Qed.
Section InsertList.
  Variable ns : option string.
  Fixpoint insert_list (l : list xnode) : result (list xnode) :=
    match l with
    | [] => Ok []
    | c :: l' => c' <-? insert_blk ns c ;; r <-? insert_list l' ;; Ok (c' :: r)
    end.
End InsertList.
Lemma insert_elem ns tag attrs text children tail : insert_blk ns (XElem tag attrs text children tail) =
  (children' <-? insert_list ns children ;;
   if String.eqb tag "CORPUS" then
     children'' <-? blk_children ns (combine children children') ;;
     Ok (XElem tag attrs text children'' tail)
   else Ok (XElem tag attrs text children' tail)).
Proof. reflexivity. Qed.
Lemma insert_list_same ns l : Forall (fun n => insert_blk ns n = Ok n) l -> insert_list ns l = Ok l.
Proof. induction 1 as [|c l Hc _ IH]; [reflexivity|]. cbn [insert_list]. rewrite Hc. cbn [rbind]. rewrite IH. reflexivity. Qed.
Lemma insert_lacks ns n : lacks ["CORPUS"] n -> insert_blk ns n = Ok n.
Proof.
  induction n as [tag attrs text children tail IH| |] using xnode_ind'; intros H; [|reflexivity..].
  apply lacks_inv in H as [Ht Hc]. rewrite insert_elem, insert_list_same; [|rewrite Forall_forall in *; intros x Hx; apply IH; auto].
  cbn [rbind]. not_name Ht. reflexivity.
Qed.
Lemma map_same {A} (f : A -> A) l : Forall (fun n => f n = n) l -> map f l = l.
Proof. induction 1 as [|c l Hc _ IH]; [reflexivity|]. cbn [map]. rewrite Hc, IH. reflexivity. Qed.
Lemma drop_lacks ns n : lacks DROP_IN n -> forall u, drop_in ns u n = n.
Proof.
  induction n as [tag attrs text children tail IH| |] using xnode_ind'; intros H u; [|reflexivity..].
  apply lacks_inv in H as [Ht Hc]. cbn [drop_in].
  assert (E : existsb (String.eqb tag) DROP_IN = false).
  { destruct (existsb (String.eqb tag) DROP_IN) eqn:E; [|reflexivity]. apply existsb_exists in E as (x & Hx & Ex). apply String.eqb_eq in Ex. subst. contradiction. }
  rewrite E, andb_false_r, map_same; [reflexivity|]. rewrite Forall_forall in *. intros x Hx. apply IH; auto.
Qed.

(** ** The rows of the builder *)

Definition all_names : list string := ["TBL"; "CORPUS"; "ROW"; "CELL"; "TI.BLK"; "STI.BLK"; "GR.NOTES"].
Definition cell_shape (e : xnode) : Prop := x_tag e = Some "CELL" /\ dict_ok (x_attrs e) /\ Forall (lacks all_names) (x_children e).
Definition row_shape (row : xnode) : Prop := x_tag row = Some "ROW" /\ dict_ok (x_attrs row) /\ Forall cell_shape (x_children row).
Definition marks_or (row : xnode) (its : list xnode) : Prop :=
  its = [row] \/ exists a b, its = [XPI "change-start" a None; row; XPI "change-end" b None].

Lemma cell_lacks names e : cell_shape e -> incl names all_names -> ~ In "CELL" names -> lacks names e.
Proof.
  intros (H1 & _ & H2) Hi Hn. destruct e as [tag attrs text children tail| |]; try discriminate H1. injection H1 as ->. apply lacks_elem; [exact Hn|].
  cbn [x_children] in H2. rewrite Forall_forall in *. intros x Hx. exact (lacks_weaken _ _ _ (H2 x Hx) Hi).
Qed.
Lemma row_lacks names row : row_shape row -> incl names all_names -> ~ In "ROW" names -> ~ In "CELL" names -> lacks names row.
Proof.
  intros (H1 & _ & H2) Hi Hn Hc. destruct row as [tag attrs text children tail| |]; try discriminate H1. injection H1 as ->. apply lacks_elem; [exact Hn|].
  cbn [x_children] in H2. rewrite Forall_forall in *. intros x Hx. apply cell_lacks; auto.
Qed.

Definition untype (row : xnode) : xnode :=
  match row with XElem tag attrs text children tail => XElem tag (ddel attrs "TYPE") text children tail | n => n end.
Definition note_elem (row : xnode) : xnode :=
  match x_children row with
  | cell :: _ => x_add_attrs (ddel (x_attrs row) "TYPE") (XElem "GR.NOTES" [] (Some (ostr (x_text cell))) (x_children cell) None)
  | [] => row
  end.
Lemma untype_shape row : row_shape row -> row_shape (untype row).
Proof.
  intros (H1 & H2 & H3). destruct row as [tag attrs text children tail| |]; try discriminate H1. split; [exact H1|]. split; [apply ddel_ok, H2|exact H3].
Qed.
Lemma row_cells_extract row : row_shape row -> extract_list (x_children row) = Ok (x_children row, []).
Proof.
  intros (_ & _ & H). apply extract_list_same. rewrite Forall_forall in *. intros x Hx. apply extract_lacks. apply cell_lacks; [auto| |cbn; intuition discriminate].
  intros y Hy. cbn in *. tauto.
Qed.
Lemma extract_plain row : row_shape row -> x_get row "TYPE" <> Some "__GR.NOTES__" -> extract_in row = Ok ([untype row], []).
Proof.
  intros HS HT. pose proof (row_cells_extract row HS) as HE. destruct HS as (H1 & _). destruct row as [tag attrs text children tail| |]; try discriminate H1. injection H1 as ->.
  rewrite extract_elem. cbn [x_children] in HE. rewrite HE. cbn [rbind String.eqb Ascii.eqb Bool.eqb untype]. unfold x_get in HT. cbn [x_attrs] in HT.
  destruct (dget attrs "TYPE") as [s|]; [|reflexivity]. destruct (String.eqb_spec s "__GR.NOTES__") as [->|_]; [congruence|reflexivity].
Qed.
Lemma extract_note row cell : row_shape row -> x_get row "TYPE" = Some "__GR.NOTES__" -> x_children row = [cell] ->
  extract_in row = Ok ([], [(None, [note_elem row])]).
Proof.
  intros HS HT Hc. pose proof (row_cells_extract row HS) as HE. destruct HS as (H1 & _ & H3). destruct row as [tag attrs text children tail| |]; try discriminate H1. injection H1 as ->.
  rewrite extract_elem. cbn [x_children] in *. rewrite HE. cbn [rbind String.eqb Ascii.eqb Bool.eqb]. unfold x_get in HT. cbn [x_attrs] in HT. rewrite HT. subst children.
  cbn [String.eqb Ascii.eqb Bool.eqb]. inversion H3 as [|? ? (C1 & _ & C3) _]; subst. unfold note_of. cbn [find]. rewrite (proj2 (has_tag cell "CELL") C1).
  assert (E : update_first (fun c => x_has_tag c "GR.NOTES") (x_add_attrs (ddel attrs "TYPE")) (x_children cell) = None).
  { clear - C3. induction C3 as [|c l Hc _ IH]; [reflexivity|]. cbn [update_first]. destruct (x_has_tag c "GR.NOTES") eqn:E; [|rewrite IH; reflexivity].
    exfalso. apply has_tag in E. inversion Hc as [? Hx _]; subst. apply (Hx _ E). cbn; tauto. }
  rewrite E. reflexivity.
Qed.

Lemma extract_lines lines items : Forall2 marks_or lines items -> Forall row_shape lines -> Forall (fun row => x_get row "TYPE" <> Some "__GR.NOTES__") lines ->
  exists items', extract_list (List.concat items) = Ok (List.concat items', []) /\ Forall2 marks_or (map untype lines) items'.
Proof.
  induction 1 as [|row its lines items HM HF IH]; intros HS HT; [exists []; split; [reflexivity|constructor]|].
  inversion HS as [|? ? S1 S2]; subst. inversion HT as [|? ? T1 T2]; subst. destruct (IH S2 T2) as (items' & E & HF').
  pose proof (extract_plain row S1 T1) as Er. destruct HM as [->|(a & b & ->)].
  - exists ([untype row] :: items'). split; [|constructor; [left; reflexivity|exact HF']]. cbn [List.concat app extract_list]. rewrite Er. cbn [rbind]. rewrite E. reflexivity.
  - exists ([XPI "change-start" a None; untype row; XPI "change-end" b None] :: items'). split; [|constructor; [right; eauto|exact HF']].
    cbn [List.concat app extract_list extract_in]. rewrite Er. cbn [rbind]. rewrite E. reflexivity.
Qed.
Definition is_pi (x : xnode) : Prop := exists a b, x = XPI a b None.
Lemma extract_footers lines items : Forall2 marks_or lines items -> Forall row_shape lines ->
  Forall (fun row => x_get row "TYPE" = Some "__GR.NOTES__" /\ exists cell, x_children row = [cell]) lines ->
  exists pis, extract_list (List.concat items) = Ok (pis, map (fun row => (None, [note_elem row])) lines) /\ Forall is_pi pis.
Proof.
  induction 1 as [|row its lines items HM HF IH]; intros HS HT; [exists []; split; [reflexivity|constructor]|].
  inversion HS as [|? ? S1 S2]; subst. inversion HT as [|? ? (T1 & cell & Tc) T2]; subst. destruct (IH S2 T2) as (pis & E & HF').
  pose proof (extract_note row cell S1 T1 Tc) as Er. destruct HM as [->|(a & b & ->)].
  - exists pis. split; [|exact HF']. cbn [List.concat app extract_list]. rewrite Er. cbn [rbind]. rewrite E. reflexivity.
  - exists (XPI "change-start" a None :: XPI "change-end" b None :: pis).
    split; [|repeat (constructor; [eexists; eexists; reflexivity|]); exact HF']. cbn [List.concat app extract_list extract_in]. rewrite Er. cbn [rbind]. rewrite E. reflexivity.
Qed.
Lemma put_new lines : forall before, put_notes None before (map (fun row => (None, [note_elem row])) lines) = (None, before ++ map note_elem lines).
Proof.
  induction lines as [|row lines IH]; intros before; cbn [map put_notes]; [rewrite app_nil_r; reflexivity|]. rewrite IH, <- app_assoc. reflexivity.
Qed.

(** ** What is written for a row, and for its cells *)

Definition finished_attrs (ns : option string) (type : option string) (e e' : xnode) : Prop :=
  x_get e' "TYPE" = type /\
  forall k, k <> "TYPE" -> (said_again ns k -> x_get e' k = None) /\ (~ said_again ns k -> x_get e' k = x_get e k).
Definition finished_cell (ns : option string) (type : option string) (e e' : xnode) : Prop :=
  x_tag e' = Some "CELL" /\ x_text e' = x_text e /\ x_children e' = x_children e /\ x_tail e' = x_tail e /\
  finished_attrs ns (match type with Some s => Some s | None => x_get e "TYPE" end) e e'.
Definition finished_row (ns : option string) (row : xnode) (d : nat) (row' : xnode) : Prop :=
  exists type level, decoded ns row "ROW" type level /\ d = Z.to_nat level /\
    x_tag row' = Some "ROW" /\ finished_attrs ns type row row' /\ Forall2 (finished_cell ns type) (x_children row) (x_children row').
Definition finished_note (ns : option string) (row note : xnode) : Prop :=
  exists cell, x_children row = [cell] /\ x_tag note = Some "GR.NOTES" /\ x_text note = Some (ostr (x_text cell)) /\ x_children note = x_children cell /\
    finished_attrs ns None row note.

Lemma said_type ns : ~ said_again ns "TYPE".
Proof. unfold said_again. destruct ns; cbn; intuition discriminate. Qed.
Lemma drop_attrs_ok ns (a : dict string) : dict_ok a -> forall k,
  (said_again ns k -> dget (fold_left (fun a k => ddel a (qname ns k)) SUPERFLUOUS a) k = None) /\
  (~ said_again ns k -> dget (fold_left (fun a k => ddel a (qname ns k)) SUPERFLUOUS a) k = dget a k).
Proof. intros H k. exact (proj2 (ddel_all_get ns SUPERFLUOUS a H) k). Qed.

Lemma drop_cell ns e : cell_shape e -> let e' := drop_in ns true e in
  x_tag e' = Some "CELL" /\ x_text e' = x_text e /\ x_children e' = x_children e /\ x_tail e' = x_tail e /\
  forall k, (said_again ns k -> x_get e' k = None) /\ (~ said_again ns k -> x_get e' k = x_get e k).
Proof.
  intros (H1 & H2 & H3). destruct e as [tag attrs text children tail| |]; try discriminate H1. injection H1 as ->. cbn -[SUPERFLUOUS] .
  split; [reflexivity|]. split; [reflexivity|]. split.
  - cbn [x_children] in H3. apply map_same. rewrite Forall_forall in *. intros x Hx. apply drop_lacks. apply (lacks_weaken _ _ _ (H3 x Hx)). intros y Hy. cbn in *. tauto.
  - split; [reflexivity|]. intros k. exact (drop_attrs_ok ns attrs H2 k).
Qed.

(** ** The CORPUS *)

Definition info_of (ns : option string) (row : xnode) : row_info := guess_row_info (x_get row (qname ns "rowstyle")).
Definition corpus_item (ns : option string) (c : xnode) : Prop := is_blk c = false /\ ri_tag (info_of ns c) = "ROW".
Definition leaf_of_item (ns : option string) (c : xnode) (p : nat * xnode) : Prop :=
  match c with
  | XPI _ _ _ => snd p = c
  | _ => blk_item ns (info_of ns c) c c = Ok (snd p) /\ fst p = Z.to_nat (ri_level (info_of ns c))
  end.
Lemma item_not_blk ns c x : corpus_item ns c -> blk_item ns (info_of ns c) c c = Ok x -> is_blk x = false.
Proof.
  intros [H1 H2] E. unfold blk_item in E. rewrite H2 in E. cbn [String.eqb Ascii.eqb Bool.eqb] in E.
  destruct (ri_type (info_of ns c)); injection E as <-; [|exact H1]. destruct c; exact H1.
Qed.
Lemma item_exists ns c : corpus_item ns c -> exists x, blk_item ns (info_of ns c) c c = Ok x.
Proof.
  intros [H1 H2]. unfold blk_item. rewrite H2. cbn [String.eqb Ascii.eqb Bool.eqb]. destruct (ri_type (info_of ns c)); eexists; reflexivity.
Qed.

Lemma steps_items ns l : forall st, Forall (corpus_item ns) l -> rest_ok st ->
  exists st', blk_steps ns st (combine l l) = Ok st' /\ rest_ok st' /\ exists m, Forall2 (leaf_of_item ns) l m /\ stack_leaves st' = stack_leaves st ++ m.
Proof.
  induction l as [|c l IH]; intros st HP Hst; cbn [combine blk_steps].
  - exists st. split; [reflexivity|]. split; [exact Hst|]. exists []. split; [constructor|symmetry; apply app_nil_r].
  - inversion HP as [|? ? Hc HP']; subst.
    assert (HR : (forall a b d, c <> XPI a b d) -> exists st', (st' <-? blk_step ns st (c, c) ;; blk_steps ns st' (combine l l)) = Ok st' /\ rest_ok st' /\
       exists m, Forall2 (leaf_of_item ns) (c :: l) m /\ stack_leaves st' = stack_leaves st ++ m).
    { intros Npi. destruct (item_exists ns c Hc) as [x Ex]. pose proof (item_not_blk ns c x Hc Ex) as Hx.
      assert (E1 : blk_step ns st (c, c) = Ok (blk_put x (blk_level (Z.to_nat (ri_level (info_of ns c))) st))).
      { unfold info_of in *. destruct c as [| |]; [cbn [blk_step]; rewrite Ex; reflexivity|exfalso; eapply Npi; reflexivity|cbn [blk_step]; rewrite Ex; reflexivity]. }
      rewrite E1. cbn [rbind]. destruct (level_ok (Z.to_nat (ri_level (info_of ns c))) st Hst) as (HL1 & HL2 & HL3).
      destruct (put_ok x _ HL1 Hx) as (P1 & P2 & P3). destruct (IH _ HP' P1) as (st' & E & R & m & Hm & Em).
      exists st'. split; [exact E|]. split; [exact R|]. exists ((Z.to_nat (ri_level (info_of ns c)), x) :: m). split.
      - constructor; [|exact Hm]. unfold leaf_of_item. destruct c; [split; [exact Ex|reflexivity]|exfalso; eapply Npi; reflexivity|split; [exact Ex|reflexivity]].
      - rewrite Em, P2, HL2, HL3, <- app_assoc. cbn. rewrite Nat.sub_0_r. reflexivity. }
    destruct c as [tag attrs text children tail|a b d|a b]; [apply HR; discriminate| |apply HR; discriminate].
    clear HR. cbn [blk_step rbind]. destruct Hst as [Ho Hu]. destruct (put_ok (XPI a b d) st) as (P1 & P2 & P3); [|reflexivity|].
    { destruct st as [|f r]; [destruct Ho|]. exists f, r. split; [reflexivity|]. split; apply Ho. }
    destruct (IH _ HP' P1) as (st' & E & R & m & Hm & Em). exists st'. split; [exact E|]. split; [exact R|]. exists ((List.length st - 1, XPI a b d)%nat :: m). split.
    + constructor; [reflexivity|exact Hm].
    + rewrite Em, P2, <- app_assoc. reflexivity.
Qed.
Lemma children_items ns l : Forall (corpus_item ns) l ->
  exists l', blk_children ns (combine l l) = Ok l' /\ tidy l' /\ Forall2 (leaf_of_item ns) l (leaves_of 0 l').
Proof.
  intros HP. destruct (steps_items ns l [[]] HP) as (st & E & (Ho & Hu) & m & Hm & Em).
  - split; [split; [constructor|split; [congruence|constructor]]|constructor; [|constructor]]. split; [constructor|]. intros n l0 En. destruct l0; discriminate.
  - assert (L : (1 <= List.length st)%nat) by (destruct st; [destruct Ho|cbn; lia]).
    destruct (closes_ok (List.length st - 1) st Ho ltac:(lia)) as (A & B & C). unfold blk_children. rewrite E. cbn [rbind].
    destruct (Nat.iter (List.length st - 1) blk_close st) as [|f [|g r]]; cbn in C; try lia.
    exists f. split; [reflexivity|]. split; [apply A|]. cbn in B, Em. rewrite B, Em. exact Hm.
Qed.

Lemma drop_tag ns n u : x_tag (drop_in ns u n) = x_tag n.
Proof. destruct n; reflexivity. Qed.
Lemma drop_is_blk ns u n : is_blk (drop_in ns u n) = is_blk n.
Proof. destruct n; reflexivity. Qed.
Lemma tidy_drop ns l : tidy l -> tidy (map (drop_in ns true) l).
Proof.
  induction 1 as [|n l Hn Hl IH|ch l Hne Hch IHc Hl IH Hx]; [constructor| |].
  - cbn [map]. constructor; [rewrite drop_is_blk; exact Hn|exact IH].
  - cbn [map drop_in orb andb existsb DROP_IN String.eqb Ascii.eqb Bool.eqb]. apply tidy_blk; [|exact IHc|exact IH|].
    + destruct ch; [congruence|discriminate].
    + intros n l' E. destruct l as [|y l]; [discriminate E|]. cbn [map] in E. injection E as <- _. rewrite drop_is_blk. exact (Hx y l eq_refl).
Qed.
Lemma leaves_drop ns l : tidy l -> forall d, leaves_of d (map (drop_in ns true) l) = map (fun p => (fst p, drop_in ns true (snd p))) (leaves_of d l).
Proof.
  induction 1 as [|n l Hn Hl IH|ch l Hne Hch IHc Hl IH Hx]; intros d; [reflexivity| |].
  - unfold leaves_of in *. cbn [map flat_map]. rewrite map_app, <- IH. f_equal. rewrite !leaves_leaf; [reflexivity|exact Hn|rewrite drop_is_blk; exact Hn].
  - unfold leaves_of in *. cbn [map flat_map]. rewrite map_app, <- IH. f_equal. cbn [drop_in orb andb existsb DROP_IN String.eqb Ascii.eqb Bool.eqb]. rewrite !leaves_blk. exact (IHc (S d)).
Qed.
Lemma fparts_leaves cns b l : tidy l -> forall d,
  flat_map (fparts None cns (b + Z.of_nat d)) l = flat_map (fun p => fparts None cns (b + Z.of_nat (fst p)) (snd p)) (leaves_of d l).
Proof.
  induction 1 as [|n l Hn Hl IH|ch l Hne Hch IHc Hl IH Hx]; intros d; [reflexivity| |].
  - unfold leaves_of in *. cbn [flat_map]. rewrite flat_map_app, IH. f_equal. rewrite (leaves_leaf _ _ Hn). cbn [flat_map fst snd]. rewrite app_nil_r. reflexivity.
  - unfold leaves_of in *. cbn [flat_map]. rewrite flat_map_app, IH. f_equal. rewrite leaves_blk. unfold leaves_of. rewrite <- IHc.
    assert (Hc : has_name cns "colspec" (XElem "BLK" [] None ch None) = false) by (apply (P_FormexSim.apart (MkPFmxOpts None cns false) "BLK"); [cbn; tauto|reflexivity]).
    cbn [fparts]. rewrite Hc. cbn. replace (b + Z.of_nat d + 1) with (b + Z.of_nat (S d)) by lia. reflexivity.
Qed.
Lemma proper_leaves cns l : tidy l -> forall d, (forall p, In p (leaves_of d l) -> proper_part None cns (snd p)) -> forall c, In c l -> proper_part None cns c.
Proof.
  induction 1 as [|n l Hn Hl IH|ch l Hne Hch IHc Hl IH Hx]; intros d HP c Hc; [destruct Hc| |]; unfold leaves_of in HP; cbn [flat_map] in HP.
  - destruct Hc as [<-|Hc]; [|apply (IH d); [intros p Hp; apply HP, in_app_iff; right; exact Hp|exact Hc]].
    rewrite (leaves_leaf _ _ Hn) in HP. exact (HP (d, n) (or_introl eq_refl)).
  - destruct Hc as [<-|Hc]; [|apply (IH d); [intros p Hp; apply HP, in_app_iff; right; exact Hp|exact Hc]].
    apply pp_blk; [reflexivity|]. cbn [x_children]. apply (IHc (S d)). intros p Hp. apply HP, in_app_iff. left. rewrite leaves_blk. exact Hp.
Qed.

(** *** The rows and the notes in the result *)

Lemma decoded_info ns row : decoded ns row (ri_tag (info_of ns row)) (ri_type (info_of ns row)) (ri_level (info_of ns row)).
Proof. exact (decoded_guess ns row). Qed.
Lemma untype_get row k : row_shape row -> x_get (untype row) k = if String.eqb k "TYPE" then None else x_get row k.
Proof.
  intros (H1 & H2 & _). destruct row as [tag attrs text children tail| |]; try discriminate H1. unfold x_get. cbn [untype x_attrs]. apply dget_ddel. exact H2.
Qed.
Lemma untype_attribute ns row : row_shape row -> attribute ns (untype row) "rowstyle" = attribute ns row "rowstyle".
Proof.
  intros H. unfold attribute. rewrite (untype_get _ _ H). destruct (String.eqb_spec (expanded ns "rowstyle") "TYPE") as [E|_]; [|reflexivity].
  exfalso. refine (fmx_apart ns "TYPE" "rowstyle" _ _ E); cbn; intuition discriminate.
Qed.
Lemma untype_info ns row : row_shape row -> info_of ns (untype row) = info_of ns row.
Proof. intros H. unfold info_of. pose proof (untype_attribute ns row H) as E. unfold attribute in E. rewrite <- qname_expanded in E. rewrite E. reflexivity. Qed.

Lemma set_shape e t : cell_shape e -> cell_shape (x_set e "TYPE" t).
Proof.
  intros (H1 & H2 & H3). destruct e as [tag attrs text children tail| |]; try discriminate H1. split; [exact H1|]. split; [|exact H3]. cbn. apply dict_ok_dset', H2.
Qed.
Lemma cell_finish ns type e : cell_shape e -> finished_cell ns type e (drop_in ns true (match type with Some t => x_set e "TYPE" t | None => e end)).
Proof.
  intros HS. assert (HS' : cell_shape (match type with Some t => x_set e "TYPE" t | None => e end)) by (destruct type; [apply set_shape|]; exact HS).
  destruct (drop_cell ns _ HS') as (D1 & D2 & D3 & D4 & D5). cbn zeta in *.
  assert (G : forall k, k <> "TYPE" -> x_get (match type with Some t => x_set e "TYPE" t | None => e end) k = x_get e k).
  { intros k Hk. destruct type as [t|]; [|reflexivity]. destruct e as [tag attrs text children tail| |]; [|reflexivity..]. unfold x_get. cbn [x_set x_attrs]. apply dget_dset_other. congruence. }
  assert (T : x_get (match type with Some t => x_set e "TYPE" t | None => e end) "TYPE" = match type with Some s => Some s | None => x_get e "TYPE" end).
  { destruct type as [t|]; [|reflexivity]. destruct HS as (H1 & _). destruct e as [tag attrs text children tail| |]; try discriminate H1. unfold x_get. cbn [x_set x_attrs]. apply dget_dset_same. }
  split; [exact D1|]. split; [rewrite D2; destruct type; [destruct e|]; reflexivity|]. split; [rewrite D3; destruct type; [destruct e|]; reflexivity|].
  split; [rewrite D4; destruct type; [destruct e|]; reflexivity|]. split.
  - rewrite (proj2 (D5 "TYPE") (said_type ns)). exact T.
  - intros k Hk. destruct (D5 k) as [D6 D7]. split; [exact D6|]. intros Hs. rewrite (D7 Hs). apply G, Hk.
Qed.
Lemma row_finish ns row x : row_shape row -> ri_tag (info_of ns row) = "ROW" -> blk_item ns (info_of ns (untype row)) (untype row) (untype row) = Ok x ->
  finished_row ns row (Z.to_nat (ri_level (info_of ns row))) (drop_in ns true x).
Proof.
  intros HS Hr E. pose proof (decoded_info ns row) as HD. rewrite Hr in HD. rewrite (untype_info ns row HS) in E.
  exists (ri_type (info_of ns row)), (ri_level (info_of ns row)). split; [exact HD|]. split; [reflexivity|].
  unfold blk_item in E. rewrite Hr in E. cbn [String.eqb Ascii.eqb Bool.eqb] in E.
  pose proof (untype_shape row HS) as (U1 & U2 & U3). pose proof (untype_get row) as UG. specialize (UG) with (1 := HS).
  assert (Ech : x_children (untype row) = x_children row) by (destruct row; reflexivity).
  assert (EX : x_tag x = Some "ROW" /\ dict_ok (x_attrs x) /\ x_get x "TYPE" = ri_type (info_of ns row) /\ (forall k, k <> "TYPE" -> x_get x k = x_get row k) /\
    x_children x = map (fun e => match ri_type (info_of ns row) with Some t => x_set e "TYPE" t | None => e end) (x_children row)).
  { rewrite <- Ech. destruct (ri_type (info_of ns row)) as [ty|]; injection E as <-.
    - destruct (untype row) as [tag attrs text children tail| |] eqn:Eu; try discriminate U1. cbn [x_tag x_attrs x_children] in *. split; [exact U1|]. split; [apply dict_ok_dset', U2|].
      split; [unfold x_get; cbn [x_attrs]; apply dget_dset_same|]. split.
      + intros k Hk. unfold x_get in *. cbn [x_attrs] in *. rewrite dget_dset_other by congruence. rewrite UG. destruct (String.eqb_spec k "TYPE"); [contradiction|reflexivity].
      + apply map_ext_in. intros c Hc. rewrite Forall_forall in U3. rewrite (proj2 (has_tag c "CELL") (proj1 (U3 c Hc))). reflexivity.
    - split; [exact U1|]. split; [exact U2|]. split; [rewrite UG; reflexivity|]. split; [|rewrite map_id; reflexivity].
      intros k Hk. rewrite UG. destruct (String.eqb_spec k "TYPE"); [contradiction|reflexivity]. }
  destruct EX as (X1 & X2 & X3 & X4 & X5). destruct x as [tag attrs text children tail| |]; try discriminate X1. injection X1 as ->. cbn [x_attrs x_children] in *. subst children.
  assert (DG : forall k, (said_again ns k -> x_get (drop_in ns true (XElem "ROW" attrs text (map (fun e => match ri_type (info_of ns row) with Some t => x_set e "TYPE" t | None => e end) (x_children row)) tail)) k = None) /\
     (~ said_again ns k -> x_get (drop_in ns true (XElem "ROW" attrs text (map (fun e => match ri_type (info_of ns row) with Some t => x_set e "TYPE" t | None => e end) (x_children row)) tail)) k = dget attrs k)).
  { intros k. exact (drop_attrs_ok ns attrs X2 k). }
  split; [reflexivity|]. split.
  - split; [rewrite (proj2 (DG "TYPE") (said_type ns)); exact X3|]. intros k Hk. destruct (DG k) as [D1 D2]. split; [exact D1|]. intros Hs. rewrite (D2 Hs). exact (X4 k Hk).
  - cbn [drop_in x_children]. rewrite map_map. destruct HS as (_ & _ & HC). clear - HC. induction HC as [|c l Hc _ IH]; cbn [map]; constructor; [|exact IH].
    exact (cell_finish ns _ c Hc).
Qed.
Lemma note_finish ns row cell : row_shape row -> x_children row = [cell] -> finished_note ns row (drop_in ns true (note_elem row)).
Proof.
  intros (H1 & H2 & H3) Hc. exists cell. split; [exact Hc|]. unfold note_elem. rewrite Hc. rewrite Hc in H3. inversion H3 as [|? ? (_ & _ & C3) _]; subst.
  set (attrs := fold_left (fun d kv => if dmem d (fst kv) then d else dset d (fst kv) (snd kv)) (ddel (x_attrs row) "TYPE") []).
  assert (A1 : dict_ok attrs).
  { unfold attrs. assert (G : forall (a d : dict string), dict_ok d -> dict_ok (fold_left (fun d kv => if dmem d (fst kv) then d else dset d (fst kv) (snd kv)) a d)).
    { induction a as [|kv a IH]; intros d Hd; [exact Hd|]. cbn [fold_left]. apply IH. destruct (dmem d (fst kv)); [exact Hd|apply dict_ok_dset', Hd]. }
    apply G, dict_ok_nil. }
  assert (A2 : forall k, dget attrs k = if String.eqb k "TYPE" then None else x_get row k).
  { intros k. unfold attrs. rewrite add_attrs_get. cbn [dget]. rewrite dget_ddel by exact H2. unfold x_get. reflexivity. }
  cbn [x_add_attrs drop_in]. fold attrs. split; [reflexivity|]. split; [reflexivity|]. split.
  - cbn [x_children]. apply map_same. rewrite Forall_forall in *. intros x Hx. apply drop_lacks. apply (lacks_weaken _ _ _ (C3 x Hx)). intros y Hy. cbn in *. tauto.
  - assert (DG : forall k, (said_again ns k -> dget (fold_left (fun a k => ddel a (qname ns k)) SUPERFLUOUS attrs) k = None) /\ (~ said_again ns k -> dget (fold_left (fun a k => ddel a (qname ns k)) SUPERFLUOUS attrs) k = dget attrs k)).
    { intros k. exact (drop_attrs_ok ns attrs A1 k). }
    cbn [orb andb]. replace (existsb (String.eqb "GR.NOTES") DROP_IN) with true by reflexivity. unfold finished_attrs, x_get. cbn [x_attrs]. split.
    + rewrite (proj2 (DG "TYPE") (said_type ns)), A2. reflexivity.
    + intros k Hk. destruct (DG k) as [D1 D2]. split; [exact D1|]. intros Hs. rewrite (D2 Hs), A2. destruct (String.eqb_spec k "TYPE"); [contradiction|reflexivity].
Qed.

(** ** The table *)

Definition spec_shape (ns cns : option string) (e : xnode) : Prop :=
  x_tag e <> None /\ lacks all_names e /\ is_blk e = false /\ x_get e (qname ns "rowstyle") = None /\ has_name cns "colspec" e = true /\ proper_part None cns e.

(** The leaves of the CORPUS: the columns, the rows and the processing instructions *)
Inductive finished_leaf (ns cns : option string) : xnode -> nat * xnode -> Prop :=
| fl_spec c d : spec_shape ns cns c -> finished_leaf ns cns c (d, c)
| fl_pi a b d : finished_leaf ns cns (XPI a b None) (d, XPI a b None)
| fl_row row d row' : row_shape row -> finished_row ns row d row' -> finished_leaf ns cns row (d, row').

Lemma leaf_finish ns cns c p : leaf_of_item ns c p ->
  (spec_shape ns cns c -> finished_leaf ns cns c (fst p, drop_in ns true (snd p))) /\ (is_pi c -> finished_leaf ns cns c (fst p, drop_in ns true (snd p))) /\
  (forall row, c = untype row -> row_shape row -> ri_tag (info_of ns row) = "ROW" -> finished_leaf ns cns row (fst p, drop_in ns true (snd p))).
Proof.
  destruct p as [d x]. cbn [fst snd]. intros H. split; [|split].
  - intros (H1 & H2 & H3 & H4 & H5 & H6). assert (x = c) as ->.
    { destruct c as [tag attrs text children tail|a b y|a b]; try (cbn in H1; congruence). cbn [leaf_of_item] in H. destruct H as [E _].
      unfold info_of in E. rewrite H4 in E. cbn in E. congruence. }
    assert (E : drop_in ns true c = c).
    { apply drop_lacks. apply (lacks_weaken _ _ _ H2). intros y Hy. cbn in *. tauto. }
    rewrite E. apply fl_spec. repeat (split; [assumption|]). assumption.
  - intros (a & b & ->). cbn in H. subst x. apply fl_pi.
  - intros row -> HS HT. pose proof (untype_shape row HS) as (U1 & _). pose proof (untype_info ns row HS) as UI.
    destruct (untype row) as [tag attrs text children tail| |] eqn:Eu; try discriminate U1. cbn [leaf_of_item fst snd] in H. destruct H as [E ->]. rewrite <- Eu in *. rewrite UI.
    apply fl_row; [exact HS|]. apply row_finish; [exact HS|exact HT|]. exact E.
Qed.

Lemma marks_lacks names lines items : Forall2 marks_or lines items -> Forall row_shape lines -> incl names all_names -> ~ In "ROW" names -> ~ In "CELL" names ->
  Forall (lacks names) (List.concat items).
Proof.
  induction 1 as [|row its lines items HM HF IH]; intros HS Hi H1 H2; [constructor|]. inversion HS as [|? ? S1 S2]; subst. cbn [List.concat].
  apply Forall_app. split; [|apply IH; assumption]. pose proof (row_lacks names row S1 Hi H1 H2) as HL.
  destruct HM as [->|(a & b & ->)]; repeat (apply Forall_cons; [first [exact HL|apply lacks_pi]|]); apply Forall_nil.
Qed.

Section Table.
  Variables ns cns : option string.
  Variables tattrs cattrs : dict string.
  Variables specs linesA linesB : list xnode.
  Variables itemsA itemsB : list (list xnode).
  Hypothesis HSp : Forall (spec_shape ns cns) specs.
  Hypothesis HA : Forall2 marks_or linesA itemsA.
  Hypothesis HB : Forall2 marks_or linesB itemsB.
  Hypothesis SA : Forall row_shape linesA.
  Hypothesis SB : Forall row_shape linesB.
  Hypothesis TA : Forall (fun row => x_get row "TYPE" <> Some "__GR.NOTES__" /\ ri_tag (info_of ns row) = "ROW") linesA.
  Hypothesis TB : Forall (fun row => x_get row "TYPE" = Some "__GR.NOTES__" /\ exists cell, x_children row = [cell]) linesB.

  Let corpus := XElem "CORPUS" cattrs None (specs ++ List.concat itemsA ++ List.concat itemsB) None.
  Let tbl := XElem "TBL" tattrs None [corpus] None.

  Lemma items_lack names : incl names all_names -> ~ In "ROW" names -> ~ In "CELL" names -> Forall (lacks names) (specs ++ List.concat itemsA ++ List.concat itemsB).
  Proof.
    intros Hi H1 H2. apply Forall_app. split; [|apply Forall_app; split; [apply (marks_lacks _ linesA)|apply (marks_lacks _ linesB)]; assumption].
    eapply Forall_impl; [|exact HSp]. intros e (_ & He & _). exact (lacks_weaken _ _ _ He Hi).
  Qed.
  Lemma tbl_numbered level stack : exists s s', M_FormexFinal.number level tbl stack = (XElem "TBL" (dset tattrs "NO.SEQ" s) None [corpus] None, s').
  Proof.
    unfold tbl. rewrite number_elem. cbn [String.eqb Ascii.eqb Bool.eqb].
    assert (E : forall lv st, numbers lv [corpus] st = ([corpus], st)).
    { intros lv st. apply numbers_same. constructor; [|constructor]. intros lv' s'. apply number_lacks. apply lacks_elem; [cbn; intuition discriminate|].
      apply items_lack; [intros y Hy; cbn in *; tauto|cbn; intuition discriminate|cbn; intuition discriminate]. }
    cbn zeta. rewrite E. do 2 eexists. reflexivity.
  Qed.
  Lemma tbl_cleaned a : cleanup_in false (XElem "TBL" a None [corpus] None) = [XElem "TBL" a None [corpus] None].
  Proof.
    assert (E : cleanup_in true corpus = [corpus]).
    { apply cleanup_lacks. apply lacks_elem; [cbn; intuition discriminate|].
      apply items_lack; [intros y Hy; cbn in *; tauto|cbn; intuition discriminate|cbn; intuition discriminate]. }
    change (cleanup_in false (XElem "TBL" a None [corpus] None)) with ([XElem "TBL" a None (cleanup_in true corpus ++ []) None]). rewrite E. reflexivity.
  Qed.
  Lemma tbl_extracted a : exists itemsC pis, Forall2 marks_or (map untype linesA) itemsC /\ Forall is_pi pis /\
    extract_in (XElem "TBL" a None [corpus] None) =
      Ok ([XElem "TBL" a None (map note_elem linesB ++ [XElem "CORPUS" cattrs None (specs ++ List.concat itemsC ++ pis) None]) None], []).
  Proof.
    destruct (extract_lines linesA itemsA HA SA (Forall_impl _ (fun r H => proj1 H) TA)) as (itemsC & EC & HC).
    destruct (extract_footers linesB itemsB HB SB TB) as (pis & EP & HP). exists itemsC, pis. split; [exact HC|]. split; [exact HP|].
    assert (ES : extract_list specs = Ok (specs, [])).
    { apply extract_list_same. eapply Forall_impl; [|exact HSp]. intros e (_ & He & _). apply extract_lacks. apply (lacks_weaken _ _ _ He). intros y Hy. cbn in *. tauto. }
    assert (E1 : extract_in corpus = Ok ([XElem "CORPUS" cattrs None (specs ++ List.concat itemsC ++ pis) None], map (fun row => (None, [note_elem row])) linesB)).
    { unfold corpus. rewrite extract_elem, !extract_list_app, ES, EC, EP. reflexivity. }
    rewrite extract_elem. cbn [extract_list]. rewrite E1. cbn [rbind fst snd app String.eqb Ascii.eqb Bool.eqb]. rewrite app_nil_r. unfold insert_notes.
    destruct linesB as [|row l] eqn:El; [reflexivity|]. cbn [map split_corpus].
    replace (x_has_tag (XElem "CORPUS" cattrs None (specs ++ List.concat itemsC ++ pis) None) "CORPUS") with true by reflexivity.
    pose proof (put_new (row :: l) []) as EN. cbn [map app] in EN. rewrite EN. reflexivity.
  Qed.
  Lemma notes_lack names : incl names all_names -> ~ In "GR.NOTES" names -> Forall (lacks names) (map note_elem linesB).
  Proof.
    intros Hi Hn. apply Forall_forall. intros x Hx. apply in_map_iff in Hx as (row & <- & Hr). rewrite Forall_forall in TB, SB.
    destruct (TB row Hr) as (_ & cell & Hc). destruct (SB row Hr) as (_ & _ & HS). unfold note_elem. rewrite Hc in *. inversion HS as [|? ? (_ & _ & HC) _]; subst.
    cbn [x_add_attrs]. apply lacks_elem; [exact Hn|]. eapply Forall_impl; [|exact HC]. intros y Hy. exact (lacks_weaken _ _ _ Hy Hi).
  Qed.

  Lemma tbl_finished level stack u : exists a1 s1 e2 l3 pairs notes,
    M_FormexFinal.number level tbl stack = (XElem "TBL" (dset tattrs "NO.SEQ" a1) None [corpus] None, s1) /\
    cleanup_in false (XElem "TBL" (dset tattrs "NO.SEQ" a1) None [corpus] None) = [XElem "TBL" (dset tattrs "NO.SEQ" a1) None [corpus] None] /\
    extract_in (XElem "TBL" (dset tattrs "NO.SEQ" a1) None [corpus] None) = Ok ([e2], []) /\
    (exists e3, insert_blk ns e2 = Ok e3 /\
       drop_in ns u e3 = XElem "TBL" (dset tattrs "NO.SEQ" a1) None (notes ++ [XElem "CORPUS" cattrs None l3 None]) None) /\
    Forall2 (finished_note ns) linesB notes /\ tidy l3 /\
    (forall p, In p (leaves_of 0 l3) -> exists c, finished_leaf ns cns c p /\ (row_shape c -> In c linesA)) /\
    Forall2 (fun row p => finished_row ns row (fst p) (snd p)) linesA pairs /\
    forall b, flat_map (fparts None cns b) l3 = map FColumn specs ++ map (fun p => FLine (b + Z.of_nat (fst p)) (snd p)) pairs.
  Proof.
    destruct (tbl_numbered level stack) as (a1 & s1 & EN). destruct (tbl_extracted (dset tattrs "NO.SEQ" a1)) as (itemsC & pis & HC & HP & EX).
    set (L := specs ++ List.concat itemsC ++ pis) in *.
    assert (SC : Forall row_shape (map untype linesA)).
    { apply Forall_forall. intros x Hx. apply in_map_iff in Hx as (r & <- & Hr). rewrite Forall_forall in SA. apply untype_shape, SA, Hr. }
    assert (HL : Forall (lacks ["CORPUS"]) L).
    { apply Forall_app. split; [|apply Forall_app; split].
      - eapply Forall_impl; [|exact HSp]. intros e (_ & He & _). apply (lacks_weaken _ _ _ He). intros y Hy. cbn in *. tauto.
      - apply (marks_lacks _ _ _ HC SC); [intros y Hy; cbn in *; tauto|cbn; intuition discriminate|cbn; intuition discriminate].
      - eapply Forall_impl; [|exact HP]. intros x (a & b & ->). apply lacks_pi. }
    assert (HI : Forall (corpus_item ns) L).
    { apply Forall_app. split; [|apply Forall_app; split].
      - eapply Forall_impl; [|exact HSp]. intros e (_ & _ & He & Hr & _). split; [exact He|]. unfold info_of. rewrite Hr. reflexivity.
      - clear - HC SA TA. revert TA SA. remember (map untype linesA) as M eqn:EM. intros TA SA. revert linesA EM TA SA. induction HC as [|row its M items HM HC IH]; intros lines EM TA SA; [constructor|].
        destruct lines as [|r lines]; [discriminate EM|]. cbn [map] in EM. injection EM as -> ->. inversion SA as [|? ? S1 S2]; subst. inversion TA as [|? ? T1 T2]; subst.
        cbn [List.concat]. apply Forall_app. split; [|exact (IH lines eq_refl T2 S2)].
        assert (HX : corpus_item ns (untype r)).
        { split; [|rewrite (untype_info ns r S1); apply T1]. destruct S1 as (H1 & _). destruct r; try discriminate H1. injection H1 as ->. reflexivity. }
        destruct HM as [->|(a & b & ->)]; repeat (constructor; [try exact HX; split; reflexivity|]); constructor.
      - eapply Forall_impl; [|exact HP]. intros x (a & b & ->). split; reflexivity. }
    destruct (children_items ns L HI) as (l2 & E2 & Ht2 & HF2).
    set (l3 := map (drop_in ns true) l2).
    set (notes := map (drop_in ns true) (map note_elem linesB)).
    exists a1, s1, (XElem "TBL" (dset tattrs "NO.SEQ" a1) None (map note_elem linesB ++ [XElem "CORPUS" cattrs None L None]) None), l3.
    assert (HLf : leaves_of 0 l3 = map (fun p => (fst p, drop_in ns true (snd p))) (leaves_of 0 l2)) by (apply leaves_drop, Ht2).
    (** the leaves *)
    assert (HD : exists D1 D2 D3, leaves_of 0 l3 = D1 ++ D2 ++ D3 /\
        Forall2 (fun c p => p = (fst p, c) /\ spec_shape ns cns c) specs D1 /\ (forall p, In p D3 -> exists c, is_pi c /\ p = (fst p, c)) /\
        exists pairs, Forall2 (fun row p => row_shape row /\ finished_row ns row (fst p) (snd p)) linesA pairs /\
          (forall b, flat_map (fun p => fparts None cns (b + Z.of_nat (fst p)) (snd p)) D2 = map (fun p => FLine (b + Z.of_nat (fst p)) (snd p)) pairs) /\
          (forall p, In p D2 -> (exists c, is_pi c /\ p = (fst p, c)) \/ exists row, In row linesA /\ row_shape row /\ finished_row ns row (fst p) (snd p))).
    { rewrite HLf. clear HLf. unfold L in HF2. apply Forall2_app_inv_l in HF2 as (E1 & E23 & F1 & F23 & ->). apply Forall2_app_inv_l in F23 as (E2' & E3 & F2 & F3 & ->).
      rewrite !map_app. do 3 eexists. split; [reflexivity|]. split; [|split].
      - clear - F1 HSp. induction F1 as [|c p l E1 Hc F1 IH]; cbn [map]; constructor.
        + inversion HSp as [|? ? S1 S2]; subst. split; [|exact S1]. destruct (leaf_finish ns cns c p Hc) as (K & _). pose proof (K S1) as K1.
          assert (EE : drop_in ns true (snd p) = c); [|cbn [fst]; rewrite EE; reflexivity].
          inversion K1 as [c0 d HX E0 E1'|a b d E0|row d row' HX HY E0]; subst; [congruence|cbn; congruence|]. exfalso. destruct HX as (HX & _). destruct S1 as (_ & HL & _).
          inversion HL as [? HL1 _]; subst. apply (HL1 _ HX). cbn. tauto.
        + apply IH. inversion HSp; assumption.
      - intros p Hp. apply in_map_iff in Hp as (p0 & <- & Hp). destruct (Forall2_In_r _ _ _ p0 F3 Hp) as (c & Hc & Hl). rewrite Forall_forall in HP. destruct (HP c Hc) as (a & b & ->).
        cbn in Hl. exists (XPI a b None). split; [exists a, b; reflexivity|]. rewrite Hl. reflexivity.
      - clear - F2 HC SA TA. remember (map untype linesA) as M eqn:EM. revert linesA E2' EM TA SA F2. induction HC as [|r0 its M items HM HC IH]; intros lines E2 EM TA SA F2.
        + destruct lines; [|discriminate EM]. inversion F2. exists []. split; [constructor|]. split; [reflexivity|intros p []].
        + destruct lines as [|row lines]; [discriminate EM|]. cbn [map] in EM. injection EM as -> ->. inversion SA as [|? ? S1 S2]; subst. inversion TA as [|? ? [T0 T1] T2]; subst.
          cbn [List.concat] in F2. apply Forall2_app_inv_l in F2 as (G1 & G2 & F2a & F2b & ->). destruct (IH lines G2 eq_refl T2 S2 F2b) as (pairs & I1 & I2 & I3).
          assert (HX : forall p, leaf_of_item ns (untype row) p -> finished_row ns row (fst p) (drop_in ns true (snd p))).
          { intros p Hp. destruct (leaf_finish ns cns _ p Hp) as (_ & _ & K). specialize (K row eq_refl S1 T1). inversion K as [c0 d HX E0 E1|a b d E0|row0 d row' HX HY E0]; subst.
            - exfalso. destruct HX as (_ & HL & _). inversion HL as [? HL1 _]; subst. apply (HL1 _ (proj1 S1)). cbn. tauto.
            - destruct S1 as (H1 & _). discriminate H1.
            - exact HY. }
          assert (HFp : forall b p, leaf_of_item ns (untype row) p -> fparts None cns (b + Z.of_nat (fst p)) (drop_in ns true (snd p)) = [FLine (b + Z.of_nat (fst p)) (drop_in ns true (snd p))]).
          { intros b p Hp. apply fparts_row. destruct (HX p Hp) as (? & ? & _ & _ & Ht & _). exact Ht. }
          rewrite map_app. destruct HM as [->|(a & b & ->)].
          * inversion F2a as [|? p ? ? Hp Hn]; subst. inversion Hn; subst. exists ((fst p, drop_in ns true (snd p)) :: pairs). split; [constructor; [split; [exact S1|exact (HX p Hp)]|exact I1]|]. split.
            -- intros b. cbn [map app flat_map fst snd]. rewrite (HFp b p Hp), I2. reflexivity.
            -- intros q Hq. cbn [map app] in Hq. destruct Hq as [<-|Hq]; [right; exists row; split; [left; reflexivity|]; split; [exact S1|exact (HX p Hp)]|].
               destruct (I3 q Hq) as [Hq'|(r & R1 & R2)]; [left; exact Hq'|right; exists r; split; [right; exact R1|exact R2]].
          * inversion F2a as [|? p1 ? ? Hp1 Hn1]; subst. inversion Hn1 as [|? p ? ? Hp Hn2]; subst. inversion Hn2 as [|? p3 ? ? Hp3 Hn3]; subst. inversion Hn3; subst. cbn in Hp1, Hp3.
            exists ((fst p, drop_in ns true (snd p)) :: pairs). split; [constructor; [split; [exact S1|exact (HX p Hp)]|exact I1]|]. split.
            -- intros b'. cbn [map app flat_map fst snd]. rewrite (HFp b' p Hp), Hp1, Hp3, I2. reflexivity.
            -- intros q Hq. cbn [map app] in Hq. destruct Hq as [<-|[<-|[<-|Hq]]].
               ++ left. exists (XPI "change-start" a None). split; [do 2 eexists; reflexivity|]. rewrite Hp1. reflexivity.
               ++ right; exists row; split; [left; reflexivity|]; split; [exact S1|exact (HX p Hp)].
               ++ left. exists (XPI "change-end" b None). split; [do 2 eexists; reflexivity|]. rewrite Hp3. reflexivity.
               ++ destruct (I3 q Hq) as [Hq'|(r & R1 & R2)]; [left; exact Hq'|right; exists r; split; [right; exact R1|exact R2]]. }
    destruct HD as (D1 & D2 & D3 & ED & F1 & F3 & pairs & FP & F2 & F2').
    exists pairs, notes. split; [exact EN|]. split; [apply tbl_cleaned|]. split; [exact EX|]. split; [|split; [|split; [|split; [|split]]]].
    - exists (XElem "TBL" (dset tattrs "NO.SEQ" a1) None (map note_elem linesB ++ [XElem "CORPUS" cattrs None l2 None]) None). split.
      + rewrite insert_elem.
        assert (Ei : insert_list ns (map note_elem linesB ++ [XElem "CORPUS" cattrs None L None]) = Ok (map note_elem linesB ++ [XElem "CORPUS" cattrs None l2 None])).
        { assert (EC : insert_blk ns (XElem "CORPUS" cattrs None L None) = Ok (XElem "CORPUS" cattrs None l2 None)).
          { rewrite insert_elem. rewrite insert_list_same; [|eapply Forall_impl; [|exact HL]; intros x Hx; apply insert_lacks, Hx]. cbn [rbind String.eqb Ascii.eqb Bool.eqb]. rewrite E2. reflexivity. }
          pose proof (notes_lack ["CORPUS"] ltac:(intros y Hy; cbn in *; tauto) ltac:(cbn; intuition discriminate)) as HN. revert HN. generalize (map note_elem linesB) as N.
          induction 1 as [|x N Hx HN IH]; cbn [app insert_list]; [rewrite EC; reflexivity|]. rewrite (insert_lacks ns x Hx). cbn [rbind]. rewrite IH. reflexivity. }
        rewrite Ei. reflexivity.
      + cbn [drop_in]. rewrite map_app. cbn [map drop_in]. replace (u || ("TBL" =? "TBL")%string)%bool with true by (destruct u; reflexivity).
        replace (existsb (String.eqb "TBL") DROP_IN) with false by reflexivity. replace (existsb (String.eqb "CORPUS") DROP_IN) with false by reflexivity. cbn [andb orb]. reflexivity.
    - unfold notes. rewrite map_map. clear - SB TB. induction linesB as [|row l IH]; cbn [map]; constructor.
      + inversion SB; subst. inversion TB as [|? ? (_ & cell & Hc) _]; subst. exact (note_finish ns row cell ltac:(assumption) Hc).
      + apply IH; [inversion SB|inversion TB]; assumption.
    - apply tidy_drop, Ht2.
    - intros p Hp. rewrite ED in Hp. apply in_app_iff in Hp as [Hp|Hp]; [|apply in_app_iff in Hp as [Hp|Hp]].
      + destruct (Forall2_In_r _ _ _ p F1 Hp) as (c & Hc & E & Hs). exists c. split; [rewrite E; apply fl_spec, Hs|]. intros (Hr & _). exfalso. destruct Hs as (_ & HLc & _).
        inversion HLc as [? HL1 _]; subst. apply (HL1 _ Hr). cbn. tauto.
      + destruct (F2' p Hp) as [(c & (a & b & ->) & E)|(row & R1 & R2 & R3)].
        * exists (XPI a b None). split; [rewrite E; apply fl_pi|]. intros (H & _). discriminate H.
        * exists row. split; [|intros _; exact R1]. destruct p. apply fl_row; assumption.
      + destruct (F3 p Hp) as (c & (a & b & ->) & E). exists (XPI a b None). split; [rewrite E; apply fl_pi|]. intros (H & _). discriminate H.
    - eapply Forall2_impl_l; [|exact FP]. intros row p _ [_ H]. exact H.
    - intros b. replace b with (b + Z.of_nat 0) at 1 by lia. rewrite (fparts_leaves cns b l3 (tidy_drop ns l2 Ht2) 0), ED, !flat_map_app, (F2 b).
      assert (E1 : flat_map (fun p => fparts None cns (b + Z.of_nat (fst p)) (snd p)) D1 = map FColumn specs).
      { clear - F1. induction F1 as [|c p l D [E (H1 & _ & _ & _ & H5 & _)] F1 IH]; [reflexivity|]. cbn [flat_map map]. rewrite IH, E. cbn [fst snd].
        change (FColumn c :: map FColumn l) with ([FColumn c] ++ map FColumn l). f_equal. destruct c as [tag at0 tx ch tl| |]; try (cbn in H1; congruence). cbn [fparts]. rewrite H5. reflexivity. }
      assert (E3 : flat_map (fun p => fparts None cns (b + Z.of_nat (fst p)) (snd p)) D3 = []).
      { clear - F3. induction D3 as [|p D IH]; [reflexivity|]. cbn [flat_map]. rewrite IH by (intros q Hq; apply F3; right; exact Hq).
        destruct (F3 p (or_introl eq_refl)) as (c & (x & y & ->) & ->). reflexivity. }
      rewrite E1, E3, app_nil_r. reflexivity.
  Qed.
End Table.
