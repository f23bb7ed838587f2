(** * Proofs about the notes and the attributes of complete Formex documents *)
From Verif Require Import Base M_Geometry M_Xml M_Cell M_Str M_Builder M_Cals M_Formex M_FormexFinal.
From Verif Require Import M_FormexFinish.
From Coq Require Import Permutation.
From Verif Require Import S_Grid S_Builder S_Cals S_FormexFinal S_FormexFinish P_Grid P_Cals P_Builder P_CalsParser P_OoxmlStyle P_FormexNumber P_FormexBlk.
Open Scope string_scope.
Open Scope list_scope.

Lemma has_tag n t : x_has_tag n t = true <-> x_tag n = Some t.
Proof.
  destruct n as [tag ? ? ? ?| |]; cbn [x_has_tag x_tag]; [|split; discriminate..].
  rewrite String.eqb_eq. split; [intros ->; reflexivity|intros [= ->]; reflexivity].
Qed.
Lemma has_no_tag n t : x_has_tag n t = false <-> x_tag n <> Some t.
Proof. rewrite <- not_true_iff_false, has_tag. reflexivity. Qed.

(** ** Tables in tables *)

Lemma cleanup_spec n : (x_tag n = Some "TBL" -> lifted n (cleanup_in true n)) /\
  (x_tag n <> Some "TBL" -> cleanup_in true n = cleanup_in false n) /\
  exists n', cleanup_in false n = [n'] /\ flattened n n'.
Proof.
  induction n as [tag attrs text children tail IH| |] using xnode_ind'; cbn [x_tag cleanup_in andb].
  - assert (HL : Forall2 lifted children (map (cleanup_in true) children)).
    { induction IH as [|c l (H1 & H2 & n' & H3 & H4) _ IH']; cbn [map]; [constructor|]. constructor; [|exact IH'].
      destruct (x_has_tag c "TBL") eqn:E.
      - apply H1, has_tag, E.
      - apply has_no_tag in E. rewrite (H2 E), H3. apply lifted_other; assumption. }
    assert (HF : exists children', flat_map (cleanup_in false) children = children' /\ Forall2 flattened children children').
    { clear HL. induction IH as [|c l (_ & _ & n' & H3 & H4) _ (r & E & HF)]; cbn [flat_map]; [exists []; split; [reflexivity|constructor]|].
      exists (n' :: r). rewrite H3, E. split; [reflexivity|constructor; assumption]. }
    rewrite (flat_map_concat_map (cleanup_in (String.eqb tag "TBL"))).
    destruct (String.eqb_spec tag "TBL") as [->|Hne].
    + split; [intros _; apply lifted_tbl, HL|]. split; [intros H; congruence|]. eexists. split; [reflexivity|]. apply flattened_tbl, HL.
    + split; [intros [= H]; congruence|]. split; [reflexivity|]. destruct HF as (r & E & HF). rewrite <- flat_map_concat_map, E.
      eexists. split; [reflexivity|]. apply flattened_elem; assumption.
  - split; [discriminate|]. split; [reflexivity|]. eexists. split; [reflexivity|constructor].
  - split; [discriminate|]. split; [reflexivity|]. eexists. split; [reflexivity|constructor].
Qed.
Lemma cleanup_flattened n : flattened n (cleanup_tbl_in_tbl n).
Proof. destruct (cleanup_spec n) as (_ & _ & n' & E & H). unfold cleanup_tbl_in_tbl. rewrite E. exact H. Qed.

(** ** Notes *)

Definition note_pieces (x : note) : list piece := otext_pieces (fst x) ++ flat_map node_pieces (snd x).

Lemma tail_last_pieces s l : l <> [] -> flat_map node_pieces (tail_last s l) = flat_map node_pieces l ++ text_pieces s.
Proof.
  induction l as [|a l IH]; [congruence|]. intros _. destruct l as [|b l].
  - cbn [tail_last flat_map]. rewrite !app_nil_r. exact (node_pieces_add a s).
  - change (tail_last s (a :: b :: l)) with (a :: tail_last s (b :: l)). cbn [flat_map] in *. rewrite IH by discriminate. rewrite <- !app_assoc. reflexivity.
Qed.
Lemma put_notes_pieces notes : forall text before, let r := put_notes text before notes in
  otext_pieces (fst r) ++ flat_map node_pieces (snd r) = otext_pieces text ++ flat_map node_pieces before ++ List.concat (map note_pieces notes).
Proof.
  induction notes as [|[[s|] nodes] notes IH]; intros text before; cbn [put_notes map List.concat].
  - cbn. rewrite app_nil_r. reflexivity.
  - destruct before as [|b before].
    + cbv zeta in IH. rewrite IH. unfold note_pieces. cbn [fst snd flat_map otext_pieces app].
      assert (E : text_pieces (ostr text ++ s) = otext_pieces text ++ text_pieces s) by (rewrite text_pieces_app; destruct text; reflexivity).
      rewrite E, <- !app_assoc. reflexivity.
    + cbv zeta in IH. rewrite IH. rewrite flat_map_app, tail_last_pieces by discriminate. unfold note_pieces. cbn [fst snd otext_pieces].
      rewrite <- !app_assoc. reflexivity.
  - cbv zeta in IH. rewrite IH, flat_map_app. unfold note_pieces. cbn [fst snd otext_pieces app]. rewrite <- !app_assoc. reflexivity.
Qed.
Lemma split_corpus_spec l a b : split_corpus l = Some (a, b) -> exists c r, b = c :: r /\ l = a ++ b /\ x_tag c = Some "CORPUS" /\ forall d, In d a -> x_tag d <> Some "CORPUS".
Proof.
  revert a b. induction l as [|c l IH]; intros a b; cbn [split_corpus]; [discriminate|]. destruct (x_has_tag c "CORPUS") eqn:E.
  - intros [= <- <-]. exists c, l. split; [reflexivity|]. split; [reflexivity|]. split; [apply has_tag, E|intros d []].
  - destruct (split_corpus l) as [[a' b']|]; [|discriminate]. intros [= <- <-]. destruct (IH a' b' eq_refl) as (d & r & -> & -> & Hd & Hn).
    exists d, r. split; [reflexivity|]. split; [reflexivity|]. split; [exact Hd|]. intros x [<-|Hx]; [apply has_no_tag, E|apply Hn, Hx].
Qed.
Lemma split_corpus_none l : split_corpus l = None -> forall d, In d l -> x_tag d <> Some "CORPUS".
Proof.
  induction l as [|c l IH]; [intros _ d []|]. cbn [split_corpus]. destruct (x_has_tag c "CORPUS") eqn:E; [discriminate|].
  destruct (split_corpus l) as [[a b]|]; [discriminate|]. intros _ d [<-|Hd]; [apply has_no_tag, E|apply IH; auto].
Qed.

Lemma dget_ddel {V} (d : dict V) k k' : dict_ok d -> dget (ddel d k) k' = if String.eqb k' k then None else dget d k'.
Proof.
  unfold dict_ok. induction d as [|[a v] d IH]; cbn [ddel dget map fst]; intros HN; [destruct (String.eqb k' k); reflexivity|].
  inversion HN as [|? ? Hx HN']; subst. specialize (IH HN'). destruct (String.eqb_spec k a) as [E|Hne].
  - subst a. rewrite IH. destruct (String.eqb_spec k' k); reflexivity.
  - cbn [dget]. rewrite IH. destruct (String.eqb_spec k' a) as [E|Hk]; [subst k'|reflexivity].
    destruct (String.eqb_spec a k); [congruence|reflexivity].
Qed.
Lemma ddel_ok {V} (d : dict V) k : dict_ok d -> dict_ok (ddel d k).
Proof.
  unfold dict_ok. induction d as [|[a v] d IH]; cbn [ddel map fst]; intros HN; [constructor|]. inversion HN as [|? ? Hx HN']; subst.
  destruct (String.eqb k a); [apply IH, HN'|]. cbn [map fst]. constructor; [|apply IH, HN']. intros Hin. apply Hx.
  clear - Hin. induction d as [|[b w] d IH]; [destruct Hin|]. cbn in *. destruct (String.eqb k b); [right; apply IH, Hin|]. destruct Hin as [E|Hin]; [left; exact E|right; apply IH, Hin].
Qed.
Lemma add_attrs_get (a : dict string) : forall (d : dict string) k,
  dget (fold_left (fun d kv => if dmem d (fst kv) then d else dset d (fst kv) (snd kv)) a d) k =
  match dget d k with Some v => Some v | None => dget a k end.
Proof.
  induction a as [|[k0 v0] a IH]; intros d k; cbn [fold_left fst snd]; [cbn [dget]; destruct (dget d k); reflexivity|]. rewrite IH. cbn [dget].
  unfold dmem. destruct (dget d k0) as [u|] eqn:E0.
  - destruct (dget d k) as [w|] eqn:E; [reflexivity|]. destruct (String.eqb_spec k k0) as [->|_]; [congruence|reflexivity].
  - destruct (String.eqb_spec k k0) as [->|Hne]; [rewrite dget_dset_same, E0; reflexivity|rewrite dget_dset_other by congruence; reflexivity].
Qed.
Lemma update_first_some p f (l r : list xnode) : update_first p f l = Some r -> exists a c b, l = a ++ c :: b /\ p c = true /\ r = a ++ f c :: b /\ forall d, In d a -> p d = false.
Proof.
  revert r. induction l as [|c l IH]; intros r; cbn [update_first]; [discriminate|]. destruct (p c) eqn:E.
  - intros [= <-]. exists [], c, l. repeat split; auto. intros d [].
  - destruct (update_first p f l) as [r'|]; [|discriminate]. intros [= <-]. destruct (IH r' eq_refl) as (a & x & b & -> & Hx & -> & Hn).
    exists (c :: a), x, b. repeat split; auto. intros d [<-|Hd]; auto.
Qed.
Lemma update_first_none p f l : update_first p f l = None -> forall d, In d l -> p d = false.
Proof.
  induction l as [|c l IH]; cbn [update_first]; [intros _ d []|]. destruct (p c) eqn:E; [discriminate|].
  destruct (update_first p f l); [discriminate|]. intros _ d [<-|Hd]; auto.
Qed.
Lemma find_first name l : match find (fun c => x_has_tag c name) l with
  | Some c => exists a b, first_named name l a c b
  | None => forall d, In d l -> x_tag d <> Some name end.
Proof.
  induction l as [|c l IH]; cbn [find]; [intros d []|]. destruct (x_has_tag c name) eqn:E.
  - exists [], l. split; [reflexivity|]. split; [apply has_tag, E|intros d []].
  - destruct (find _ l) as [d|].
    + destruct IH as (a & b & -> & Hd & Hn). exists (c :: a), b. split; [reflexivity|]. split; [exact Hd|]. intros x [<-|Hx]; [apply has_no_tag, E|apply Hn, Hx].
    + intros d [<-|Hd]; [apply has_no_tag, E|apply IH, Hd].
Qed.

Lemma note_of_spec attrs children x : dict_ok attrs -> note_of (ddel attrs "TYPE") children = Ok x ->
  exists a cell b, first_named "CELL" children a cell b /\ notes_of attrs cell (note_pieces x).
Proof.
  intros HN. unfold note_of. pose proof (find_first "CELL" children) as HC. destruct (find _ children) as [cell|]; [|discriminate].
  destruct HC as (a & b & HC). intros H. exists a, cell, b. split; [exact HC|].
  destruct (update_first _ _ (x_children cell)) as [l|] eqn:E; injection H as <-.
  - apply update_first_some in E as (u & g & v & E & Hg & -> & Hn). apply has_tag in Hg. unfold note_pieces. cbn [fst snd otext_pieces].
    assert (Et : text_pieces (ostr (x_text cell)) = otext_pieces (x_text cell)) by (destruct (x_text cell); reflexivity). rewrite Et.
    destruct g as [tag gattrs text ch tail| |]; [|discriminate..]. cbn [x_tag] in Hg. injection Hg as ->. cbn [x_add_attrs].
    apply (notes_old attrs cell u gattrs text ch tail v).
    + split; [exact E|]. split; [reflexivity|]. intros d Hd. apply has_no_tag, Hn, Hd.
    + intros k. rewrite add_attrs_get. destruct (dget gattrs k); [reflexivity|]. apply dget_ddel, HN.
  - pose proof (update_first_none _ _ _ E) as Hn. unfold note_pieces. cbn [fst snd otext_pieces x_add_attrs app flat_map].
    unfold node_pieces. cbn [x_set_tail x_tail otext_pieces]. apply notes_new.
    + intros d Hd. apply has_no_tag, Hn, Hd.
    + intros k. rewrite add_attrs_get. cbn [dget]. apply dget_ddel, HN.
    + unfold elem_pieces. f_equal. destruct (x_text cell); reflexivity.
Qed.
Lemma note_of_total attrs children : (exists c, In c children /\ x_tag c = Some "CELL") -> exists x, note_of attrs children = Ok x.
Proof.
  intros (c & Hc & Ht). unfold note_of. pose proof (find_first "CELL" children) as HC. destruct (find _ children) as [cell|]; [|destruct (HC c Hc Ht)].
  destruct (update_first _ _ _); eauto.
Qed.

Fixpoint extract_list (l : list xnode) : result (list xnode * list note) :=
  match l with
  | [] => Ok ([], [])
  | c :: l' => a <-? extract_in c ;; b <-? extract_list l' ;; Ok (fst a ++ fst b, snd a ++ snd b)
  end.
Lemma extract_elem tag attrs text children tail : extract_in (XElem tag attrs text children tail) =
  (cn <-? extract_list children ;;
   let (children', notes) := cn in
   if String.eqb tag "TBL" then
     tc <-? insert_notes text children' notes ;;
     Ok ([XElem tag attrs (fst tc) (snd tc) tail], [])
   else if String.eqb tag "ROW" then
     let attrs' := ddel attrs "TYPE" in
     match dget attrs "TYPE" with
     | Some t =>
         if String.eqb t "__GR.NOTES__" then
           x <-? note_of attrs' children' ;; Ok ([], x :: notes)
         else Ok ([XElem tag attrs' text children' tail], notes)
     | None => Ok ([XElem tag attrs' text children' tail], notes)
     end
   else Ok ([XElem tag attrs text children' tail], notes)).
Proof. reflexivity. Qed.

Definition ord_item (i : xnode) : Prop :=
  (x_tag i <> Some "ROW" /\ orderly i) \/ (x_tag i = Some "ROW" /\ NoDup (map fst (x_attrs i)) /\ Forall orderly (x_children i)).
Definition ord_part (c : xnode) : Prop :=
  (x_tag c <> Some "CORPUS" /\ orderly c) \/ (x_tag c = Some "CORPUS" /\ Forall ord_item (x_children c)).

(** The outcome on a node, and on the lists of nodes *)
Definition good (n : xnode) : Prop :=
  orderly n -> forall l notes, extract_in n = Ok (l, notes) -> notes = [] /\ exists n', l = [n'] /\ noted n n'.
Lemma noted_tag n n' : noted n n' -> x_tag n' = x_tag n.
Proof. destruct 1; reflexivity. Qed.
Lemma list_good l : Forall good l -> Forall orderly l -> forall r notes, extract_list l = Ok (r, notes) -> notes = [] /\ Forall2 noted l r.
Proof.
  induction 1 as [|c l Hc _ IH]; intros HO r notes; cbn [extract_list].
  - intros [= <- <-]. split; [reflexivity|constructor].
  - inversion HO as [|? ? Oc Ol]; subst. destruct (extract_in c) as [[a m]|] eqn:E; cbn [rbind]; [|discriminate].
    destruct (Hc Oc a m E) as (-> & n' & -> & Hn). destruct (extract_list l) as [[b m]|] eqn:E2; cbn [rbind]; [|discriminate].
    destruct (IH Ol b m eq_refl) as (-> & HF). cbn. intros [= <- <-]. split; [reflexivity|constructor; assumption].
Qed.
Lemma items_good l : Forall (fun i => good i /\ Forall good (x_children i)) l -> Forall ord_item l ->
  forall r notes, extract_list l = Ok (r, notes) -> sorted l r (map note_pieces notes).
Proof.
  induction 1 as [|i l [Hi Hch] _ IH]; intros HO r notes; cbn [extract_list].
  - intros [= <- <-]. constructor.
  - inversion HO as [|? ? Oi Ol]; subst. destruct (extract_in i) as [[a m]|] eqn:E; cbn [rbind]; [|discriminate].
    destruct (extract_list l) as [[b m2]|] eqn:E2; cbn [rbind]; [|discriminate]. specialize (IH Ol b m2 eq_refl). cbn [fst snd]. intros [= <- <-].
    destruct Oi as [[Ht Oi]|(Ht & HN & Oi)].
    + destruct (Hi Oi a m E) as (-> & n' & -> & Hn). cbn [app]. apply sorted_node; assumption.
    + destruct i as [tag attrs text children tail| |]; [|discriminate..]. cbn [x_tag] in Ht. injection Ht as ->. cbn [x_attrs x_children] in *.
      rewrite extract_elem in E. destruct (extract_list children) as [[ch m3]|] eqn:E3; cbn [rbind] in E; [|discriminate].
      destruct (list_good children Hch Oi ch m3 E3) as (-> & HF). cbn [String.eqb Ascii.eqb Bool.eqb] in E. cbv zeta in E.
      assert (HU : untyped attrs (ddel attrs "TYPE")) by (intros k; apply dget_ddel, HN).
      destruct (dget attrs "TYPE") as [t|] eqn:Et.
      * destruct (String.eqb_spec t "__GR.NOTES__") as [->|Hne].
        -- destruct (note_of (ddel attrs "TYPE") ch) as [x|] eqn:Ex; cbn [rbind] in E; [|discriminate]. injection E as <- <-. cbn [app map].
           destruct (note_of_spec attrs ch x HN Ex) as (u & cell & v & Hc & Hx). pose proof Hc as (-> & _).
           apply (sorted_footer attrs text children u cell v tail); assumption.
        -- injection E as <- <-. cbn [app]. apply sorted_row; try assumption. unfold footer_type. congruence.
      * injection E as <- <-. cbn [app]. apply sorted_row; try assumption. unfold footer_type. congruence.
Qed.
Lemma parts_good l : Forall (fun c => good c /\ Forall (fun i => good i /\ Forall good (x_children i)) (x_children c)) l -> Forall ord_part l ->
  forall r notes, extract_list l = Ok (r, notes) -> collected l r (map note_pieces notes).
Proof.
  induction 1 as [|c l [Hc Hch] _ IH]; intros HO r notes; cbn [extract_list].
  - intros [= <- <-]. constructor.
  - inversion HO as [|? ? Oi Ol]; subst. destruct (extract_in c) as [[a m]|] eqn:E; cbn [rbind]; [|discriminate].
    destruct (extract_list l) as [[b m2]|] eqn:E2; cbn [rbind]; [|discriminate]. specialize (IH Ol b m2 eq_refl). cbn [fst snd]. intros [= <- <-].
    destruct Oi as [[Ht Oi]|(Ht & Oi)].
    + destruct (Hc Oi a m E) as (-> & n' & -> & Hn). cbn [app]. apply collected_node; assumption.
    + destruct c as [tag attrs text children tail| |]; [|discriminate..]. cbn [x_tag] in Ht. injection Ht as ->. cbn [x_children] in *.
      rewrite extract_elem in E. destruct (extract_list children) as [[ch m3]|] eqn:E3; cbn [rbind] in E; [|discriminate].
      cbn [String.eqb Ascii.eqb Bool.eqb] in E. injection E as <- <-. cbn [app]. rewrite map_app. apply collected_corpus; [|exact IH].
      apply items_good; assumption.
Qed.
Lemma insert_notes_noted attrs text children children' notes tail tc :
  collected children children' (map note_pieces notes) -> insert_notes text children' notes = Ok tc ->
  noted (XElem "TBL" attrs text children tail) (XElem "TBL" attrs (fst tc) (snd tc) tail).
Proof.
  intros HC. unfold insert_notes. destruct notes as [|x notes].
  - intros [= <-]. apply noted_plain_tbl, HC.
  - destruct (split_corpus children') as [[a b]|] eqn:E; [|discriminate]. apply split_corpus_spec in E as (c & r & -> & -> & Hc & Hn).
    pose proof (put_notes_pieces (x :: notes) text a) as HP. cbv zeta in HP. destruct (put_notes text a (x :: notes)) as [text' before']. cbn [fst snd] in HP.
    intros [= <-]. cbn [fst snd]. apply (noted_tbl attrs text children a c r (map note_pieces (x :: notes))); assumption.
Qed.

Fixpoint deep (k : nat) (P : xnode -> Prop) (n : xnode) : Prop :=
  P n /\ match k with O => True | S k' => Forall (deep k' P) (x_children n) end.
Lemma all_good n : forall k, deep k good n.
Proof.
  induction n as [tag attrs text children tail IH|target data tail|data tail] using xnode_ind'.
  - assert (HG : good (XElem tag attrs text children tail)).
    { intros HO l notes. rewrite extract_elem. destruct (extract_list children) as [[ch m]|] eqn:E; cbn [rbind]; [|discriminate].
      inversion HO as [| |? ? ? ? ? Ht Hr Hch|? ? ? ? Hch]; subst.
      - destruct (String.eqb_spec tag "TBL"); [congruence|]. destruct (String.eqb_spec tag "ROW"); [congruence|]. intros [= <- <-].
        destruct (list_good children) with (r := ch) (notes := m) as (-> & HF); try assumption.
        { rewrite Forall_forall in *. intros c Hc. exact (proj1 (IH c Hc 0%nat)). }
        split; [reflexivity|]. eexists. split; [reflexivity|]. apply noted_elem; assumption.
      - cbn [String.eqb Ascii.eqb Bool.eqb]. destruct (insert_notes text ch m) as [tc|] eqn:Ei; cbn [rbind]; [|discriminate]. intros [= <- <-].
        split; [reflexivity|]. eexists. split; [reflexivity|]. eapply insert_notes_noted; [|exact Ei].
        apply parts_good; [|exact Hch|exact E]. rewrite Forall_forall in *. intros c Hc. destruct (IH c Hc 2%nat) as [H1 H2]. split; [exact H1|].
        rewrite Forall_forall in *. intros i Hi. destruct (H2 i Hi) as [H3 H4]. split; [exact H3|]. rewrite Forall_forall in *. intros d Hd. apply (H4 d Hd). }
    intros [|k]; (split; [exact HG|]); [exact I|]. cbn [x_children]. rewrite Forall_forall in *. intros c Hc. apply IH, Hc.
  - intros k. assert (HG : good (XPI target data tail)) by (intros _ l notes [= <- <-]; split; [reflexivity|eexists; split; [reflexivity|constructor]]).
    destruct k; (split; [exact HG|]); [exact I|constructor].
  - intros k. assert (HG : good (XComment data tail)) by (intros _ l notes [= <- <-]; split; [reflexivity|eexists; split; [reflexivity|constructor]]).
    destruct k; (split; [exact HG|]); [exact I|constructor].
Qed.
Lemma extract_noted doc doc' : orderly doc -> extract_gr_notes doc = Ok doc' -> noted doc doc'.
Proof.
  intros HO. unfold extract_gr_notes. destruct (extract_in doc) as [[l m]|] eqn:E; cbn [rbind]; [|discriminate].
  destruct (proj1 (all_good doc 0%nat) HO l m E) as (-> & n' & -> & H). intros [= <-]. exact H.
Qed.

(** The extraction succeeds. *)
Definition works (n : xnode) : Prop := orderly n -> footers_ready n -> exists l, extract_in n = Ok (l, []).
Lemma ready_in n c : footers_ready n -> In c (x_children n) -> footers_ready c.
Proof. intros [m H _] Hc. apply H, Hc. Qed.
Lemma list_works l : Forall works l -> Forall orderly l -> Forall footers_ready l -> exists r, extract_list l = Ok (r, []).
Proof.
  induction 1 as [|c l Hc _ IH]; intros HO HR; cbn [extract_list]; [eauto|]. inversion HO; inversion HR; subst.
  destruct Hc as (a & ->); auto. destruct IH as (b & ->); auto. cbn. eauto.
Qed.
Lemma orderly_tags n : orderly n -> x_tag n <> Some "ROW".
Proof. destruct 1; cbn; congruence. Qed.
Lemma items_work l : Forall (fun i => works i /\ Forall works (x_children i)) l -> Forall ord_item l -> Forall footers_ready l ->
  exists r notes, extract_list l = Ok (r, notes).
Proof.
  induction 1 as [|i l [Hi Hch] _ IH]; intros HO HR; cbn [extract_list]; [eauto|]. inversion HO as [|? ? Oi Ol]; inversion HR as [|? ? Ri Rl]; subst.
  destruct (IH Ol Rl) as (b & m & ->).
  assert (E : exists a n, extract_in i = Ok (a, n)).
  { destruct Oi as [[Ht Oi]|(Ht & HN & Oi)]; [destruct (Hi Oi Ri) as (a & ->); eauto|].
    destruct i as [tag attrs text children tail| |]; [|discriminate..]. cbn [x_tag] in Ht. injection Ht as ->. cbn [x_attrs x_children] in *.
    rewrite extract_elem. destruct (list_works children Hch Oi) as (ch & E).
    { rewrite Forall_forall. intros c Hc. apply (ready_in _ c Ri), Hc. }
    rewrite E. cbn [rbind String.eqb Ascii.eqb Bool.eqb]. cbv zeta. destruct (dget attrs "TYPE") as [t|] eqn:Et; [|eauto].
    destruct (String.eqb_spec t "__GR.NOTES__") as [->|_]; [|eauto].
    inversion Ri as [? _ Rc]; subst. cbn [x_tag x_attrs x_children] in *.
    destruct (note_of_total (ddel attrs "TYPE") ch) as (x & Ex); [|rewrite Ex; cbn; eauto]. 
    assert (HF : Forall2 noted children ch).
    { apply (list_good children) with (notes := []); [|exact Oi|exact E]. rewrite Forall_forall. intros c _. exact (proj1 (all_good c 0%nat)). }
    destruct (Rc eq_refl Et) as (c & Hc & Htc). clear - HF Hc Htc.
    induction HF as [|a b l l' H _ IH]; [destruct Hc|]. destruct Hc as [->|Hc].
    - exists b. split; [left; reflexivity|]. rewrite (noted_tag _ _ H). exact Htc.
    - destruct (IH Hc) as (d & Hd & X). exists d. split; [right; exact Hd|exact X]. }
  destruct E as (a & n & ->). cbn. eauto.
Qed.
Lemma parts_work l : Forall (fun c => works c /\ Forall (fun i => works i /\ Forall works (x_children i)) (x_children c)) l -> Forall ord_part l -> Forall footers_ready l ->
  exists r notes, extract_list l = Ok (r, notes) /\ (notes = [] \/ exists c, In c r /\ x_tag c = Some "CORPUS").
Proof.
  induction 1 as [|c l [Hc Hch] _ IH]; intros HO HR; cbn [extract_list]; [eauto 6|]. inversion HO as [|? ? Oi Ol]; inversion HR as [|? ? Ri Rl]; subst.
  destruct (IH Ol Rl) as (b & m & -> & Hm). destruct Oi as [[Ht Oi]|(Ht & Oi)].
  - destruct (Hc Oi Ri) as (a & ->). cbn. exists (a ++ b), m. split; [reflexivity|]. destruct Hm as [Hm|(d & Hd & X)]; [auto|right]. exists d. split; [apply in_app_iff; auto|exact X].
  - destruct c as [tag attrs text children tail| |]; [|discriminate..]. cbn [x_tag] in Ht. injection Ht as ->. cbn [x_children] in *. rewrite extract_elem.
    destruct (items_work children Hch Oi) as (ch & n & ->).
    { rewrite Forall_forall. intros c Hc'. apply (ready_in _ c Ri), Hc'. }
    cbn. eexists _, _. split; [reflexivity|]. right. eexists. split; [left; reflexivity|reflexivity].
Qed.
Lemma insert_notes_total text children notes : (notes = [] \/ exists c, In c children /\ x_tag c = Some "CORPUS") -> exists tc, insert_notes text children notes = Ok tc.
Proof.
  intros H. unfold insert_notes. destruct notes as [|x notes]; [eauto|]. destruct H as [H|(c & Hc & Ht)]; [discriminate|].
  destruct (split_corpus children) as [[a b]|] eqn:E; [destruct (put_notes text a (x :: notes)); eauto|]. destruct (split_corpus_none _ E c Hc Ht).
Qed.
Lemma all_work n : forall k, deep k works n.
Proof.
  induction n as [tag attrs text children tail IH|target data tail|data tail] using xnode_ind'.
  - assert (HG : works (XElem tag attrs text children tail)).
    { intros HO HR. rewrite extract_elem.
      assert (HRc : Forall footers_ready children) by (rewrite Forall_forall; intros c Hc; apply (ready_in _ c HR), Hc).
      inversion HO as [| |? ? ? ? ? Ht Hr Hch|? ? ? ? Hch]; subst.
      - destruct (list_works children) as (r & ->); try assumption.
        { rewrite Forall_forall in *. intros c Hc. exact (proj1 (IH c Hc 0%nat)). }
        cbn [rbind]. destruct (String.eqb_spec tag "TBL"); [congruence|]. destruct (String.eqb_spec tag "ROW"); [congruence|]. eauto.
      - destruct (parts_work children) as (r & m & -> & Hm); try assumption.
        { rewrite Forall_forall in *. intros c Hc. destruct (IH c Hc 2%nat) as [H1 H2]. split; [exact H1|].
          rewrite Forall_forall in *. intros i Hi. destruct (H2 i Hi) as [H3 H4]. split; [exact H3|]. rewrite Forall_forall in *. intros d Hd. apply (H4 d Hd). }
        cbn [rbind String.eqb Ascii.eqb Bool.eqb]. destruct (insert_notes_total text r m Hm) as (tc & ->). cbn. eauto. }
    intros [|k]; (split; [exact HG|]); [exact I|]. cbn [x_children]. rewrite Forall_forall in *. intros c Hc. apply IH, Hc.
  - intros k. assert (HG : works (XPI target data tail)) by (intros _ _; cbn; eauto). destruct k; (split; [exact HG|]); [exact I|constructor].
  - intros k. assert (HG : works (XComment data tail)) by (intros _ _; cbn; eauto). destruct k; (split; [exact HG|]); [exact I|constructor].
Qed.
Lemma extract_total doc : orderly doc -> footers_ready doc -> exists doc', extract_gr_notes doc = Ok doc'.
Proof.
  intros HO HR. destruct (proj1 (all_work doc 0%nat) HO HR) as (l & E). unfold extract_gr_notes. rewrite E. cbn [rbind].
  destruct (proj1 (all_good doc 0%nat) HO l [] E) as (_ & n' & -> & _). eauto.
Qed.

(** ** Attributes *)

Lemma qname_expanded ns k : qname ns k = expanded ns k.
Proof. destruct ns; reflexivity. Qed.
Lemma ddel_all_get ns (l : list string) : forall (d : dict string), dict_ok d ->
  dict_ok (fold_left (fun a k => ddel a (qname ns k)) l d) /\
  forall k, (In k (map (expanded ns) l) -> dget (fold_left (fun a k => ddel a (qname ns k)) l d) k = None) /\
            (~ In k (map (expanded ns) l) -> dget (fold_left (fun a k => ddel a (qname ns k)) l d) k = dget d k).
Proof.
  induction l as [|x l IH]; intros d HN; cbn [fold_left map]; [split; [exact HN|]; intros k; split; [intros []|reflexivity]|].
  destruct (IH (ddel d (qname ns x)) (ddel_ok _ _ HN)) as [H1 H2]. split; [exact H1|]. intros k. destruct (H2 k) as [H3 H4].
  destruct (in_dec String.string_dec k (map (expanded ns) l)) as [Hin|Hin].
  - split; [intros _; apply H3, Hin|]. intros H. exfalso. apply H. right. exact Hin.
  - rewrite (H4 Hin), (dget_ddel d (qname ns x) k HN). change (qname ns x) with (expanded ns x). split.
    + intros [E|H]; [subst k; destruct (String.eqb_spec (expanded ns x) (expanded ns x)); congruence|contradiction].
    + intros H. destruct (String.eqb_spec k (expanded ns x)) as [->|_]; [|reflexivity]. exfalso. apply H. left. reflexivity.
Qed.
Lemma drop_lightened ns n : proper n -> forall w, lightened ns w n (drop_in ns w n).
Proof.
  induction n as [tag attrs text children tail IH|target data tail|data tail] using xnode_ind'; intros HP w; cbn [drop_in]; [|constructor..].
  inversion HP as [? HN Hch]; subst. cbn [x_attrs x_children] in *.
  assert (Hb : existsb (String.eqb tag) DROP_IN = true <-> of_table tag).
  { rewrite existsb_exists. unfold of_table. split; [intros (x & Hx & E); apply String.eqb_eq in E; subst; exact Hx|intros H; exists tag; split; [exact H|apply String.eqb_refl]]. }
  apply lightened_elem.
  - intros Hw Ht k. apply Hb in Ht. rewrite Hw, Ht. cbn [andb]. apply (proj2 (ddel_all_get ns SUPERFLUOUS attrs HN) k).
  - intros Hn. destruct (w || String.eqb tag "TBL") eqn:Ew; cbn [andb]; [|reflexivity]. destruct (existsb (String.eqb tag) DROP_IN) eqn:Eb; [|reflexivity].
    exfalso. apply Hn. split; [reflexivity|apply Hb; reflexivity].
  - clear HP HN Hb. induction IH as [|c l Hc _ IH']; cbn [map]; [constructor|]. constructor; [apply Hc, Hch; left; reflexivity|].
    apply IH'. intros d Hd. apply Hch. right. exact Hd.
Qed.

(** ** The numbers of the finished document *)

Definition seqs (n : xnode) : list (option string) := map (fun a => x_get a "NO.SEQ") (all_tables n).
Definition lseqs (l : list xnode) : list (option string) := flat_map seqs l.
Definition sub {A} (l m : list A) : Prop := exists r, Permutation (l ++ r) m.
Lemma sub_refl {A} (l : list A) : sub l l.
Proof. exists []. rewrite app_nil_r. reflexivity. Qed.
Lemma sub_trans {A} (a b c : list A) : sub a b -> sub b c -> sub a c.
Proof. intros (r & H) (s & G). exists (r ++ s). rewrite app_assoc, H. exact G. Qed.
Lemma sub_nil {A} (l : list A) : sub [] l.
Proof. exists l. reflexivity. Qed.
Lemma sub_perm {A} (l m : list A) : Permutation l m -> sub l m.
Proof. intros H. exists []. rewrite app_nil_r. exact H. Qed.
Lemma sub_app {A} (a b c d : list A) : sub a b -> sub c d -> sub (a ++ c) (b ++ d).
Proof.
  intros (r & H) (s & G). exists (r ++ s). rewrite <- H, <- G, <- !app_assoc. apply Permutation_app_head. rewrite !app_assoc. apply Permutation_app_tail, Permutation_app_comm.
Qed.
Lemma sub_l {A} (a b : list A) : sub a (a ++ b).
Proof. exists b. reflexivity. Qed.
Lemma sub_r {A} (a b : list A) : sub b (a ++ b).
Proof. exists a. apply Permutation_app_comm. Qed.
Lemma sub_NoDup {A} (l m : list A) : sub l m -> NoDup m -> NoDup l.
Proof.
  intros (r & H) HN. apply Permutation_sym in H. apply (Permutation_NoDup H) in HN. revert HN. clear. induction l as [|x l IH]; intros HN; [constructor|].
  inversion HN as [|? ? Hx HN']; subst. constructor; [|apply IH, HN']. intros Hin. apply Hx, in_app_iff. left. exact Hin.
Qed.

Lemma seqs_elem tag attrs text children tail :
  seqs (XElem tag attrs text children tail) = (if String.eqb tag "TBL" then [dget attrs "NO.SEQ"] else []) ++ lseqs children.
Proof.
  unfold seqs, lseqs. cbn [all_tables]. rewrite map_app. f_equal.
  - unfold is_tbl, x_has_tag. cbn [x_tag]. rewrite (String.eqb_sym "TBL" tag). destruct (String.eqb tag "TBL"); reflexivity.
  - induction children as [|c l IH]; [reflexivity|]. cbn [flat_map]. rewrite map_app, IH. reflexivity.
Qed.
Lemma lseqs_app a b : lseqs (a ++ b) = lseqs a ++ lseqs b.
Proof. apply flat_map_app. Qed.
Lemma seqs_sub_attrs tag attrs attrs' text text' children children' tail tail' :
  dget attrs' "NO.SEQ" = dget attrs "NO.SEQ" -> sub (lseqs children') (lseqs children) ->
  sub (seqs (XElem tag attrs' text' children' tail')) (seqs (XElem tag attrs text children tail)).
Proof. intros E H. rewrite !seqs_elem, E. apply sub_app; [apply sub_refl|exact H]. Qed.

Lemma cleanup_seqs n : forall u, sub (lseqs (cleanup_in u n)) (seqs n).
Proof.
  induction n as [tag attrs text children tail IH|target data tail|data tail] using xnode_ind'; intros u; cbn [cleanup_in]; [|apply sub_refl..].
  assert (H : sub (lseqs (flat_map (cleanup_in (String.eqb tag "TBL")) children)) (lseqs children)).
  { induction IH as [|c l Hc _ IH']; [apply sub_nil|]. cbn [flat_map lseqs]. rewrite lseqs_app. apply sub_app; [apply Hc|exact IH']. }
  destruct (u && String.eqb tag "TBL").
  - rewrite seqs_elem. eapply sub_trans; [exact H|apply sub_r].
  - cbn [lseqs flat_map]. rewrite app_nil_r. apply seqs_sub_attrs; [reflexivity|exact H].
Qed.

Definition nseqs (notes : list note) : list (option string) := flat_map (fun x => lseqs (snd x)) notes.
Lemma seqs_tail n t : seqs (x_set_tail n t) = seqs n.
Proof. destruct n; [|reflexivity..]. cbn [x_set_tail]. rewrite !seqs_elem. reflexivity. Qed.
Lemma tail_last_seqs s l : lseqs (tail_last s l) = lseqs l.
Proof. induction l as [|a [|b l] IH]; [reflexivity| |]; cbn [tail_last lseqs flat_map] in *; [rewrite seqs_tail; reflexivity|]. f_equal. exact IH. Qed.
Lemma put_notes_seqs notes : forall text before, Permutation (lseqs (snd (put_notes text before notes))) (lseqs before ++ nseqs notes).
Proof.
  induction notes as [|[[s|] nodes] notes IH]; intros text before; cbn [put_notes nseqs flat_map snd].
  - rewrite app_nil_r. reflexivity.
  - destruct before as [|b before]; rewrite IH; [reflexivity|]. rewrite lseqs_app, tail_last_seqs, <- app_assoc. reflexivity.
  - rewrite IH, lseqs_app, <- app_assoc. reflexivity.
Qed.
Lemma add_attrs_seqs a n : x_tag n <> Some "TBL" -> seqs (x_add_attrs a n) = seqs n.
Proof.
  destruct n as [tag attrs text children tail| |]; [|reflexivity..]. cbn [x_tag x_add_attrs]. intros H. rewrite !seqs_elem.
  destruct (String.eqb_spec tag "TBL"); [congruence|reflexivity].
Qed.
Lemma update_first_seqs p f l r : update_first p f l = Some r -> (forall c, p c = true -> seqs (f c) = seqs c) -> lseqs r = lseqs l.
Proof.
  intros E H. revert r E. induction l as [|c l IH]; intros r; cbn [update_first]; [discriminate|]. destruct (p c) eqn:Ep.
  - intros [= <-]. cbn [lseqs flat_map]. rewrite (H c Ep). reflexivity.
  - destruct (update_first p f l) as [r'|]; [|discriminate]. intros [= <-]. cbn [lseqs flat_map]. f_equal. exact (IH r' eq_refl).
Qed.
Lemma seqs_children n : sub (lseqs (x_children n)) (seqs n).
Proof. destruct n; [rewrite seqs_elem; apply sub_r|apply sub_nil..]. Qed.
Lemma in_seqs c l : In c l -> sub (seqs c) (lseqs l).
Proof.
  intros H. apply in_split in H as (a & b & ->). rewrite lseqs_app. cbn [lseqs flat_map]. eapply sub_trans; [|apply sub_r]. apply sub_l.
Qed.
Lemma note_of_seqs attrs children x : note_of attrs children = Ok x -> sub (lseqs (snd x)) (lseqs children).
Proof.
  unfold note_of. destruct (find _ children) as [cell|] eqn:Ef; [|discriminate]. apply find_some in Ef as [Hin _].
  intros H. eapply sub_trans; [|apply (in_seqs cell children Hin)]. eapply sub_trans; [|apply seqs_children].
  destruct (update_first _ _ (x_children cell)) as [l|] eqn:E; injection H as <-; cbn [snd].
  - rewrite (update_first_seqs _ _ _ _ E); [apply sub_refl|]. intros c Hc. apply add_attrs_seqs. apply has_tag in Hc. rewrite Hc. discriminate.
  - cbn [lseqs flat_map]. cbn [x_add_attrs]. rewrite seqs_elem, app_nil_r. apply sub_refl.
Qed.
Lemma split_corpus_seqs l a b : split_corpus l = Some (a, b) -> l = a ++ b.
Proof.
  revert a. induction l as [|c l IH]; intros a; cbn [split_corpus]; [discriminate|]. destruct (x_has_tag c "CORPUS"); [intros [= <- <-]; reflexivity|].
  destruct (split_corpus l) as [[a' b']|]; [|discriminate]. intros [= <- <-]. cbn [app]. f_equal. apply IH. reflexivity.
Qed.
Lemma insert_notes_seqs text children notes tc : insert_notes text children notes = Ok tc -> Permutation (lseqs (snd tc)) (lseqs children ++ nseqs notes).
Proof.
  unfold insert_notes. destruct notes as [|x notes]; [intros [= <-]; cbn [snd nseqs flat_map]; rewrite app_nil_r; reflexivity|].
  destruct (split_corpus children) as [[a b]|] eqn:E; [|discriminate]. apply split_corpus_seqs in E as ->.
  destruct (put_notes text a (x :: notes)) as [t a'] eqn:Ep. intros [= <-]. cbn [snd]. pose proof (put_notes_seqs (x :: notes) text a) as H. rewrite Ep in H. cbn [snd] in H.
  rewrite !lseqs_app, H, <- !app_assoc. apply Permutation_app_head, Permutation_app_comm.
Qed.
Lemma perm_mid {A} (a b c d : list A) : Permutation ((a ++ b) ++ (c ++ d)) ((a ++ c) ++ (b ++ d)).
Proof. rewrite <- !app_assoc. apply Permutation_app_head. rewrite !app_assoc. apply Permutation_app_tail, Permutation_app_comm. Qed.
Lemma extract_seqs n : forall l notes, extract_in n = Ok (l, notes) -> sub (lseqs l ++ nseqs notes) (seqs n).
Proof.
  induction n as [tag attrs text children tail IH|target data tail|data tail] using xnode_ind'; intros l notes; [|cbn; intros [= <- <-]; apply sub_refl..].
  rewrite extract_elem. intros H. bind H as cn E. destruct cn as [ch nt].
  assert (HS : sub (lseqs ch ++ nseqs nt) (lseqs children)).
  { clear H. revert ch nt E. induction IH as [|c r Hc _ IH']; intros ch nt; cbn [extract_list]; [intros [= <- <-]; apply sub_nil|].
    intros E. bind E as a Ea. bind E as b Eb. injection E as <- <-. destruct a as [a1 a2], b as [b1 b2]. cbn [fst snd].
    rewrite lseqs_app. unfold nseqs. rewrite flat_map_app. eapply sub_trans; [apply sub_perm, perm_mid|]. cbn [lseqs flat_map].
    apply sub_app; [apply Hc; reflexivity|apply IH'; reflexivity]. }
  clear E. destruct (String.eqb tag "TBL") eqn:Et.
  - bind H as tc E. injection H as <- <-. cbn [lseqs flat_map nseqs]. rewrite !app_nil_r. apply seqs_sub_attrs; [reflexivity|].
    eapply sub_trans; [|exact HS]. apply sub_perm. apply (insert_notes_seqs _ _ _ _ E).
  - assert (HK : forall a, sub (lseqs [XElem tag a text ch tail] ++ nseqs nt) (seqs (XElem tag attrs text children tail))).
    { intros a. cbn [lseqs flat_map]. rewrite app_nil_r, !seqs_elem, Et. cbn [app]. exact HS. }
    destruct (String.eqb tag "ROW") eqn:Er; [|injection H as <- <-; apply HK]. cbv zeta in H.
    destruct (dget attrs "TYPE") as [t|]; [|injection H as <- <-; apply HK]. destruct (String.eqb t "__GR.NOTES__"); [|injection H as <- <-; apply HK].
    bind H as x E. injection H as <- <-. cbn [lseqs flat_map nseqs app]. rewrite seqs_elem, Et. cbn [app]. eapply sub_trans; [|exact HS].
    apply sub_app; [apply (note_of_seqs _ _ _ E)|apply sub_refl].
Qed.

Lemma set_type_seqs t n : seqs (x_set n "TYPE" t) = seqs n.
Proof. destruct n as [tag attrs text children tail| |]; [|reflexivity..]. cbn [x_set]. rewrite !seqs_elem, dget_dset_other by discriminate. reflexivity. Qed.
Lemma blk_item_seqs ns info row row' x : blk_item ns info row row' = Ok x -> (String.eqb (ri_tag info) "TBL" = false) -> sub (seqs x) (seqs row').
Proof.
  unfold blk_item. intros H HT. destruct (String.eqb (ri_tag info) "ROW").
  - destruct (ri_type info) as [t|]; injection H as <-; [|apply sub_refl]. destruct row' as [tag attrs text children tail| |]; [|apply sub_refl..].
    apply seqs_sub_attrs; [apply dget_dset_other; discriminate|]. apply sub_perm. unfold lseqs. induction children as [|c l IH]; [reflexivity|]. cbn [map flat_map].
    destruct (x_has_tag c "CELL"); [rewrite set_type_seqs|]; apply Permutation_app_head, IH.
  - cbv zeta in H. bind H as found Ef. bind H as cell Ec. destruct cell as [c' [a b]]. injection H as <-. rewrite seqs_elem, HT. cbn [app].
    eapply sub_trans; [apply seqs_children|]. eapply sub_trans; [|apply seqs_children]. apply in_seqs.
    set (cells := filter _ _) in *.
    assert (HI : exists c, In (c, c') cells).
    { destruct found as [f|].
      - injection Ec as ->. revert Ef. generalize 1%Z. clearbody cells. induction cells as [|[c d] r IH]; intros p; cbn [title_cell_of]; [discriminate|].
        destruct (cell_filled c); [|intros Ef; destruct (IH _ Ef) as (c0 & H0); exists c0; right; exact H0].
        cbv zeta. intros Ef. destruct (truthy _ && truthy _)%bool; [bind Ef as u Eu; bind Ef as v Ev|]; injection Ef as <- <- <-; exists c; left; reflexivity.
      - destruct cells as [|[c d] r]; [discriminate|]. injection Ec as <- <- <-. exists c. left. reflexivity. }
    destruct HI as (c & HI). apply filter_In in HI as [HI _]. apply (in_combine_r _ _ _ _ HI).
Qed.
Definition sseqs (st : list (list xnode)) : list (option string) := flat_map lseqs st.
Lemma blk_close_seqs st : Permutation (sseqs (blk_close st)) (sseqs st).
Proof.
  destruct st as [|f [|g r]]; [reflexivity..|]. cbn [blk_close sseqs flat_map]. rewrite lseqs_app. cbn [lseqs flat_map]. rewrite seqs_elem. cbn [String.eqb Ascii.eqb Bool.eqb app].
  rewrite app_nil_r, !app_assoc. apply Permutation_app_tail, Permutation_app_comm.
Qed.
Lemma iter_close_seqs k st : Permutation (sseqs (Nat.iter k blk_close st)) (sseqs st).
Proof. induction k as [|k IH]; [reflexivity|]. cbn [Nat.iter nat_rect]. rewrite blk_close_seqs. exact IH. Qed.
Lemma blk_put_seqs x st : sub (sseqs (blk_put x st)) (seqs x ++ sseqs st).
Proof.
  destruct st as [|f r]; [apply sub_nil|]. cbn [blk_put sseqs flat_map]. rewrite lseqs_app. cbn [lseqs flat_map]. rewrite app_nil_r, !app_assoc.
  apply sub_perm, Permutation_app_tail, Permutation_app_comm.
Qed.
Lemma guess_tag_tbl ns row : String.eqb (ri_tag (guess_row_info (x_get row (qname ns "rowstyle")))) "TBL" = false.
Proof. destruct (decoded_tag _ _ _ _ _ (decoded_guess ns row)) as [E|[E|E]]; rewrite E; reflexivity. Qed.
Lemma blk_steps_seqs ns l : forall st st', blk_steps ns st l = Ok st' -> sub (sseqs st') (sseqs st ++ lseqs (map snd l)).
Proof.
  induction l as [|[row row'] l IH]; intros st st'; cbn [blk_steps map snd lseqs flat_map]; [intros [= <-]; rewrite app_nil_r; apply sub_refl|].
  intros H. bind H as s1 E1. eapply sub_trans; [apply IH, H|]. rewrite app_assoc. apply sub_app; [|apply sub_refl]. clear IH H.
  eapply sub_trans; [|apply sub_perm, Permutation_app_comm].
  assert (HX : (exists d x, blk_item ns (guess_row_info (x_get row (qname ns "rowstyle"))) row row' = Ok x /\ s1 = blk_put x (blk_level d st)) \/ s1 = blk_put row' st).
  { unfold blk_step in E1. destruct row; [|right; injection E1 as <-; reflexivity|].
    all: cbv zeta in E1; bind E1 as x Ex; injection E1 as <-; left; eexists; exists x; split; [first [exact Ex|reflexivity]|reflexivity]. }
  destruct HX as [(d & x & Ex & ->)| ->]; [|apply blk_put_seqs].
  eapply sub_trans; [apply blk_put_seqs|]. apply sub_app; [apply (blk_item_seqs _ _ _ _ _ Ex), guess_tag_tbl|].
  unfold blk_level, sseqs. rewrite flat_map_app. fold (sseqs (Nat.iter (List.length st - S d) blk_close st)).
  assert (E0 : forall k, flat_map lseqs (repeat [] k) = []) by (induction k; [reflexivity|assumption]). rewrite E0. apply sub_perm, iter_close_seqs.
Qed.
Lemma insert_seqs ns n : forall n', insert_blk ns n = Ok n' -> sub (seqs n') (seqs n).
Proof.
  induction n as [tag attrs text children tail IH|target data tail|data tail] using xnode_ind'; intros n'; cbn [insert_blk]; [|intros [= <-]; apply sub_refl..].
  intros H. bind H as ch E.
  assert (HS : sub (lseqs ch) (lseqs children) /\ List.length ch = List.length children).
  { clear H. revert ch E. induction IH as [|c r Hc _ IH']; intros ch E; [injection E as <-; split; [apply sub_nil|reflexivity]|].
    bind E as a Ea. bind E as b Eb. injection E as <-. destruct (IH' b eq_refl) as [H1 H2]. cbn [lseqs flat_map List.length]. split; [apply sub_app; [apply Hc; reflexivity|exact H1]|congruence]. }
  destruct HS as [HS HL]. destruct (String.eqb tag "CORPUS"); [|injection H as <-; apply seqs_sub_attrs; [reflexivity|exact HS]].
  bind H as ch' E'. injection H as <-. apply seqs_sub_attrs; [reflexivity|]. eapply sub_trans; [|exact HS].
  unfold blk_children in E'. bind E' as st Est. injection E' as <-. apply blk_steps_seqs in Est. cbn [sseqs lseqs flat_map app] in Est.
  assert (Em : map snd (combine children ch) = ch) by (clear - HL; revert ch HL; induction children as [|c l IH]; intros [|d ch] HL; try discriminate; [reflexivity|cbn; f_equal; apply IH; injection HL; auto]).
  rewrite Em in Est. eapply sub_trans; [|exact Est]. 
  destruct (Nat.iter (List.length st - 1) blk_close st) as [|f r] eqn:Ei; [apply sub_nil|].
  eapply sub_trans; [|apply sub_perm, (iter_close_seqs (List.length st - 1) st)]. rewrite Ei. cbn [sseqs flat_map]. apply sub_l.
Qed.
Lemma drop_seqs ns n : forall u, seqs (drop_in ns u n) = seqs n.
Proof.
  induction n as [tag attrs text children tail IH|target data tail|data tail] using xnode_ind'; intros u; cbn [drop_in]; [|reflexivity..].
  rewrite !seqs_elem. f_equal.
  - destruct (String.eqb_spec tag "TBL") as [->|]; [|reflexivity]. rewrite andb_false_r. reflexivity.
  - generalize (u || String.eqb tag "TBL"). intros v. induction IH as [|c l Hc _ IH']; [reflexivity|]. cbn [map lseqs flat_map]. f_equal; [apply Hc|exact IH'].
Qed.
Lemma finish_seqs ns doc doc' : finalize_tree ns doc = Ok doc' -> sub (seqs doc') (seqs (update_no_seq doc)).
Proof.
  unfold finalize_tree. set (d0 := update_no_seq doc). intros H. bind H as d1 E1. bind H as d2 E2. injection H as <-.
  unfold drop_superfluous_attrs. rewrite drop_seqs. eapply sub_trans; [apply (insert_seqs _ _ _ E2)|].
  eapply sub_trans with (b := seqs (cleanup_tbl_in_tbl d0)).
  - unfold extract_gr_notes in E1. bind E1 as r Er. destruct r as [[|a [|b l]] [|x notes]]; try discriminate. injection E1 as <-.
    apply extract_seqs in Er. cbn [lseqs flat_map nseqs] in Er. rewrite !app_nil_r in Er. exact Er.
  - unfold cleanup_tbl_in_tbl. pose proof (cleanup_seqs d0 false) as H. destruct (cleanup_in false d0) as [|a [|b l]]; [apply sub_refl| |apply sub_refl].
    cbn [lseqs flat_map] in H. rewrite app_nil_r in H. exact H.
Qed.
Lemma finish_distinct ns doc doc' : finalize_tree ns doc = Ok doc' -> NoDup (seqs doc').
Proof. intros H. apply (sub_NoDup _ _ (finish_seqs _ _ _ H)), numbered_distinct, update_numbered. Qed.
