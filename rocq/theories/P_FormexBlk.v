(** * The blocks of a Formex document *)
From Verif Require Import Base M_Geometry M_Xml M_Cell M_Regex M_Str M_Table M_Cals M_Formex M_FormexFinal.
From Verif Require Import S_Units S_Int S_Builder S_Cals S_Formex S_FormexFinal.
From Verif Require Import P_Geometry P_Grid P_Units P_Int P_Str P_Cals P_CalsParser P_FormexStyle P_FormexNumber.
Open Scope string_scope.
Open Scope list_scope.
Open Scope Z_scope.

(** ** A tidy list is known by its leaves *)

Lemma leaves_blk d children : leaves d (XElem "BLK" [] None children None) = leaves_of (S d) children.
Proof. reflexivity. Qed.
Lemma leaves_leaf d n : is_blk n = false -> leaves d n = [(d, n)].
Proof. destruct n; cbn [leaves]; intros ->; reflexivity. Qed.
Lemma leaves_of_app d l m : leaves_of d (l ++ m) = leaves_of d l ++ leaves_of d m.
Proof. apply flat_map_app. Qed.

Fixpoint xsize (n : xnode) : nat :=
  match n with XElem _ _ _ children _ => S (list_sum (map xsize children)) | _ => 1%nat end.
Definition lsize (l : list xnode) : nat := list_sum (map xsize l).
Lemma lsize_cons n l : lsize (n :: l) = (xsize n + lsize l)%nat.
Proof. reflexivity. Qed.
Lemma xsize_pos n : (1 <= xsize n)%nat.
Proof. destruct n; cbn; lia. Qed.

Lemma leaves_deep n : forall d e x, In (e, x) (leaves d n) -> (d <= e)%nat.
Proof.
  induction n as [tag attrs text children tail IH| |] using xnode_ind'; intros d e x H.
  2,3: cbn in H; destruct H as [[= <- _]|[]]; lia.
  cbn [leaves] in H. destruct (is_blk (XElem tag attrs text children tail)); [|destruct H as [[= <- _]|[]]; lia].
  apply in_flat_map in H as (c & Hc & Hi). rewrite Forall_forall in IH. specialize (IH c Hc _ _ _ Hi). lia.
Qed.
Lemma leaves_of_deep l d e x : In (e, x) (leaves_of d l) -> (d <= e)%nat.
Proof. intros H. apply in_flat_map in H as (c & _ & H). eapply leaves_deep, H. Qed.
Lemma tidy_leaves l : tidy l -> l <> [] -> forall d, leaves_of d l <> [].
Proof.
  intros H. induction H as [|n l Hn Hl IH|ch l Hne Hch IHch Hl IHl Hx]; intros N d; [congruence| |].
  - unfold leaves_of. cbn [flat_map]. rewrite (leaves_leaf d n Hn). discriminate.
  - unfold leaves_of. cbn [flat_map]. rewrite leaves_blk. intros E. apply app_eq_nil in E as [E _]. apply (IHch Hne (S d) E).
Qed.

(** the first element of the rest has depth [d] *)
Lemma split_depth d (a a' b b' : list (nat * xnode)) :
  (forall p, In p a -> (d < fst p)%nat) -> (forall p, In p a' -> (d < fst p)%nat) ->
  (b = [] \/ exists x r, b = (d, x) :: r) -> (b' = [] \/ exists x r, b' = (d, x) :: r) ->
  a ++ b = a' ++ b' -> a = a' /\ b = b'.
Proof.
  revert a'. induction a as [|p a IH]; intros [|p' a'] Ha Ha' Hb Hb' E; cbn in E.
  - auto.
  - exfalso. specialize (Ha' p' (or_introl eq_refl)). destruct Hb as [->|(x & r & ->)]; [discriminate|]. injection E as <- _. cbn in Ha'. lia.
  - exfalso. specialize (Ha p (or_introl eq_refl)). destruct Hb' as [->|(x & r & ->)]; [discriminate|]. injection E as -> _. cbn in Ha. lia.
  - injection E as -> E. destruct (IH a') as [-> ->]; auto.
    + intros q Hq. apply Ha. right. exact Hq.
    + intros q Hq. apply Ha'. right. exact Hq.
Qed.
Lemma head_leaf d l : (forall n l', l = n :: l' -> is_blk n = false) -> leaves_of d l = [] \/ exists x r, leaves_of d l = (d, x) :: r.
Proof.
  intros H. destruct l as [|n l]; [left; reflexivity|]. right. unfold leaves_of. cbn [flat_map]. rewrite (leaves_leaf d n (H n l eq_refl)).
  eexists. eexists. reflexivity.
Qed.
Lemma tidy_unique_size k : forall l m d, (lsize l < k)%nat -> tidy l -> tidy m -> leaves_of d l = leaves_of d m -> l = m.
Proof.
  induction k as [|k IH]; intros l m d Hk Hl Hm E; [lia|].
  destruct Hl as [|n l Hn Hl|ch l Hne Hch Hl Hx].
  - destruct m as [|n m]; [reflexivity|]. exfalso. apply (tidy_leaves _ Hm ltac:(discriminate) d). auto.
  - unfold leaves_of in E at 1. cbn [flat_map] in E. rewrite (leaves_leaf d n Hn) in E. cbn [app] in E. fold (leaves_of d l) in E.
    destruct Hm as [|n' m Hn' Hm|ch m Hne Hch Hm Hx]; [discriminate| |].
    + unfold leaves_of in E at 2. cbn [flat_map] in E. rewrite (leaves_leaf d n' Hn') in E. cbn [app] in E. fold (leaves_of d m) in E.
      injection E as -> E. f_equal. apply (IH l m d); try assumption. rewrite lsize_cons in Hk. pose proof (xsize_pos n'). lia.
    + exfalso. unfold leaves_of in E at 2. cbn [flat_map] in E. rewrite leaves_blk in E.
      destruct (leaves_of (S d) ch) as [|p r] eqn:El; [apply (tidy_leaves _ Hch Hne (S d) El)|]. injection E as Ep _.
      assert (X : In p (leaves_of (S d) ch)) by (rewrite El; left; reflexivity). destruct p as [e x]. injection Ep as <- <-.
      apply leaves_of_deep in X. lia.
  - unfold leaves_of in E at 1. cbn [flat_map] in E. rewrite leaves_blk in E. fold (leaves_of d l) in E.
    destruct Hm as [|n' m Hn' Hm|ch' m Hne' Hch' Hm Hx'].
    + exfalso. apply app_eq_nil in E as [E _]. apply (tidy_leaves _ Hch Hne (S d) E).
    + exfalso. unfold leaves_of in E at 3. cbn [flat_map] in E. rewrite (leaves_leaf d n' Hn') in E.
      destruct (leaves_of (S d) ch) as [|p r] eqn:El; [apply (tidy_leaves _ Hch Hne (S d) El)|]. injection E as Ep _.
      assert (X : In p (leaves_of (S d) ch)) by (rewrite El; left; reflexivity). destruct p as [e x]. injection Ep as -> ->.
      apply leaves_of_deep in X. lia.
    + unfold leaves_of in E at 3. cbn [flat_map] in E. rewrite leaves_blk in E. fold (leaves_of d m) in E.
      apply (split_depth d) in E as [E1 E2].
      * rewrite lsize_cons in Hk. cbn [xsize] in Hk. fold (lsize ch) in Hk.
        rewrite (IH ch ch' (S d)) by (try assumption; lia). rewrite (IH l m d) by (try assumption; lia). reflexivity.
      * intros [e x] Hp. apply leaves_of_deep in Hp. cbn. lia.
      * intros [e x] Hp. apply leaves_of_deep in Hp. cbn. lia.
      * apply head_leaf, Hx.
      * apply head_leaf, Hx'.
Qed.
Lemma tidy_unique l m : tidy l -> tidy m -> leaves_of 0 l = leaves_of 0 m -> l = m.
Proof. intros Hl Hm E. apply (tidy_unique_size (S (lsize l)) l m 0); auto. Qed.

(** ** The stack *)

Definition ends_leaf (l : list xnode) : Prop := forall n l', l = l' ++ [n] -> is_blk n = false.
Lemma tidy_snoc_leaf l n : tidy l -> is_blk n = false -> tidy (l ++ [n]).
Proof.
  intros H Hn. induction H as [|x l Hx Hl IH|ch l Hne Hch _ Hl IH Hx]; cbn [app].
  - constructor; [exact Hn|constructor].
  - constructor; assumption.
  - apply tidy_blk; try assumption. intros y l' E. destruct l as [|z l]; cbn in E; injection E as <- _; [exact Hn|]. apply (Hx z l eq_refl).
Qed.
Lemma tidy_snoc_blk l ch : tidy l -> ends_leaf l -> tidy ch -> ch <> [] -> tidy (l ++ [XElem "BLK" [] None ch None]).
Proof.
  intros H He Hch Hne. induction H as [|x l Hx Hl IH|c l Hcne Hc _ Hl IH Hx]; cbn [app].
  - apply tidy_blk; [exact Hne|exact Hch|constructor|]. intros n l' E. discriminate E.
  - constructor; [exact Hx|]. apply IH. intros n l' E. apply (He n (x :: l')). cbn. congruence.
  - assert (Nl : l <> []) by (intros ->; specialize (He (XElem "BLK" [] None c None) [] eq_refl); discriminate He).
    apply tidy_blk; try assumption.
    + apply IH. intros n l' E. apply (He n (XElem "BLK" [] None c None :: l')). cbn. congruence.
    + intros y l' E. destruct l as [|z l]; [congruence|]. cbn in E. injection E as <- _. apply (Hx z l eq_refl).
Qed.

Fixpoint stack_leaves (st : list (list xnode)) : list (nat * xnode) :=
  match st with [] => [] | f :: r => stack_leaves r ++ leaves_of (List.length r) f end.
(** the elements which are open, but the innermost *)
Definition under (st : list (list xnode)) : Prop := Forall (fun f => tidy f /\ ends_leaf f) st.
Definition open_ok (st : list (list xnode)) : Prop :=
  match st with [] => False | f :: r => tidy f /\ (r <> [] -> f <> []) /\ under r end.

Lemma close_ok f g r : open_ok (f :: g :: r) ->
  open_ok (blk_close (f :: g :: r)) /\ stack_leaves (blk_close (f :: g :: r)) = stack_leaves (f :: g :: r).
Proof.
  intros (Hf & Hn & Hu). inversion Hu as [|? ? [Hg Hge] Hr]; subst. cbn [blk_close]. split.
  - split; [apply tidy_snoc_blk; auto; apply Hn; discriminate|]. split; [intros _; destruct g; discriminate|exact Hr].
  - cbn [stack_leaves List.length]. rewrite leaves_of_app, app_assoc. f_equal. unfold leaves_of at 1. cbn [flat_map]. rewrite leaves_blk, app_nil_r. reflexivity.
Qed.
Lemma closes_ok k : forall st, open_ok st -> (k < List.length st)%nat ->
  open_ok (Nat.iter k blk_close st) /\ stack_leaves (Nat.iter k blk_close st) = stack_leaves st /\
  List.length (Nat.iter k blk_close st) = (List.length st - k)%nat.
Proof.
  induction k as [|k IH]; intros st H Hk; [cbn; split; [exact H|split; [reflexivity|lia]]|].
  destruct (IH st H ltac:(lia)) as (A & B & C). change (Nat.iter (S k) blk_close st) with (blk_close (Nat.iter k blk_close st)).
  destruct (Nat.iter k blk_close st) as [|f [|g r]]; cbn in C; try lia.
  destruct (close_ok f g r A) as [D E]. split; [exact D|]. split; [congruence|]. cbn. lia.
Qed.

(** between two rows *)
Definition rest_ok (st : list (list xnode)) : Prop := open_ok st /\ under st.
Lemma repeat_leaves k st : stack_leaves (repeat [] k ++ st) = stack_leaves st.
Proof. induction k as [|k IH]; [reflexivity|]. cbn [repeat app stack_leaves]. rewrite IH. apply app_nil_r. Qed.
Lemma repeat_under k st : under st -> under (repeat [] k ++ st).
Proof. induction k as [|k IH]; intros H; [exact H|]. cbn. constructor; [|apply IH, H]. split; [constructor|]. intros n l' E. destruct l'; discriminate. Qed.

Lemma put_ok x st : (exists f r, st = f :: r /\ tidy f /\ under r) -> is_blk x = false ->
  rest_ok (blk_put x st) /\ stack_leaves (blk_put x st) = stack_leaves st ++ [((List.length st - 1)%nat, x)] /\
  List.length (blk_put x st) = List.length st.
Proof.
  intros (f & r & -> & Hf & Hr) Hx. cbn [blk_put]. split; [|split; [|reflexivity]].
  - split.
    + split; [apply tidy_snoc_leaf; assumption|]. split; [intros _; destruct f; discriminate|exact Hr].
    + constructor; [|exact Hr]. split; [apply tidy_snoc_leaf; assumption|]. intros n l' E. apply app_inj_tail in E as [_ <-]. exact Hx.
  - cbn [stack_leaves List.length]. rewrite leaves_of_app, app_assoc. f_equal. unfold leaves_of. cbn [flat_map]. rewrite (leaves_leaf _ _ Hx).
    cbn. f_equal. f_equal. lia.
Qed.
Lemma level_ok d st : rest_ok st ->
  (exists f r, blk_level d st = f :: r /\ tidy f /\ under r) /\ stack_leaves (blk_level d st) = stack_leaves st /\
  List.length (blk_level d st) = S d.
Proof.
  intros [Ho Hu]. unfold blk_level. assert (L : (1 <= List.length st)%nat) by (destruct st; [destruct Ho|cbn; lia]).
  destruct (Nat.le_gt_cases (List.length st) (S d)) as [H|H].
  - replace (List.length st - S d)%nat with 0%nat by lia. cbn [Nat.iter nat_rect]. split; [|split; [apply repeat_leaves|rewrite app_length, repeat_length; lia]].
    destruct (S d - List.length st)%nat as [|k].
    + cbn. destruct st as [|f r]; [destruct Ho|]. exists f, r. split; [reflexivity|]. split; [apply Ho|apply Ho].
    + cbn. exists [], (repeat [] k ++ st). split; [reflexivity|]. split; [constructor|apply repeat_under, Hu].
  - replace (S d - List.length st)%nat with 0%nat by lia. cbn [repeat app].
    destruct (closes_ok (List.length st - S d) st Ho ltac:(lia)) as (A & B & C). split; [|split; [exact B|lia]].
    destruct (Nat.iter (List.length st - S d) blk_close st) as [|f r]; [destruct A|]. exists f, r. split; [reflexivity|]. split; apply A.
Qed.

(** ** The rows *)

Lemma concat_empty l : String.concat "" l = "" <-> forall s, In s l -> s = "".
Proof.
  induction l as [|s l IH]; [cbn; split; [intros _ ? []|reflexivity]|]. rewrite concat_nil_cons. split.
  - intros E t [<-|Ht]; [destruct s; [reflexivity|discriminate]|]. apply IH; [|exact Ht]. destruct s; [exact E|discriminate].
  - intros H. rewrite (H s (or_introl eq_refl)). cbn. apply IH. intros t Ht. apply H. right. exact Ht.
Qed.
Lemma string_value_spec n : string_value n <> "" <-> says n.
Proof.
  induction n as [tag attrs text children tail IH|a b c|a b] using xnode_ind'.
  2,3: cbn; split; [congruence|]; intros H; exfalso; inversion H; subst; cbn in *; (contradiction || discriminate).
  cbn [string_value]. split.
  - intros H. destruct (ostr text) as [|c s] eqn:Et.
    + cbn in H. assert (X : exists s, In s (map (fun c => (string_value c ++ ostr (x_tail c))%string) children) /\ s <> "").
      { clear - H. induction children as [|c l IHl]; [cbn in H; congruence|]. cbn [map] in H. rewrite concat_nil_cons in H.
        destruct (String.eqb_spec (string_value c ++ ostr (x_tail c)) "") as [E|N].
        - rewrite E in H. destruct (IHl H) as (s & Hs & N). exists s. split; [right; exact Hs|exact N].
        - eexists. split; [left; reflexivity|exact N]. }
      destruct X as (s & Hs & N). apply in_map_iff in Hs as (c & <- & Hc). rewrite Forall_forall in IH.
      destruct (String.eqb_spec (string_value c) "") as [E|N'].
      * rewrite E in N. destruct (x_tail c) as [s|] eqn:Ec; [|cbn in N; congruence]. eapply says_tail; [exact Hc|exact Ec|]. intros ->. cbn in N. congruence.
      * eapply says_inside; [exact Hc|]. apply IH; assumption.
    + destruct text as [t|]; [|discriminate]. cbn in Et. subst t. eapply says_text; [reflexivity|discriminate].
  - intros H E. destruct (ostr text) as [|c s] eqn:Et; [|discriminate]. cbn in E. rewrite concat_empty in E.
    assert (HC : forall c, In c children -> string_value c = "" /\ ostr (x_tail c) = "").
    { intros c Hc. specialize (E _ (in_map (fun c => (string_value c ++ ostr (x_tail c))%string) _ _ Hc)). destruct (string_value c); [auto|discriminate]. }
    rewrite Forall_forall in IH. inversion H as [? s' Hs N|? c s' Hc Hs N|? c Hc Hs]; cbn [x_text x_children] in *.
    + subst text. cbn in Et. congruence.
    + apply HC in Hc as [_ Hc]. rewrite Hs in Hc. cbn in Hc. congruence.
    + apply (IH c Hc) in Hs. apply Hs, HC, Hc.
Qed.
Lemma filled_spec c : cell_filled c = true <-> filled c.
Proof.
  unfold cell_filled, filled. rewrite orb_true_iff, negb_true_iff, String.eqb_neq, string_value_spec, existsb_exists.
  split; (intros [H|H]; [left; exact H|right]).
  - destruct H as (e & He & Ht). exists e. split; [exact He|]. destruct e; try discriminate. cbn [x_has_tag x_tag] in *. apply String.eqb_eq in Ht. congruence.
  - destruct H as (e & He & Ht). exists e. split; [exact He|]. destruct e; try discriminate. injection Ht as ->. reflexivity.
Qed.

Lemma decoded_guess ns row : decoded ns row (ri_tag (guess_row_info (x_get row (qname ns "rowstyle"))))
    (ri_type (guess_row_info (x_get row (qname ns "rowstyle")))) (ri_level (guess_row_info (x_get row (qname ns "rowstyle")))).
Proof.
  unfold decoded, attribute. rewrite <- qname_expanded. destruct (x_get row (qname ns "rowstyle")) as [s|]; [|cbn; auto].
  destruct (ms ROW_INFO (list_ascii_of_string s)) as [|w ws] eqn:E.
  - assert (HN : forall tag type ds, ~ parts (list_ascii_of_string s) tag type ds).
    { intros tag type ds HP. pose proof HP as HP'. destruct HP' as (_ & _ & _ & nl & Es & Hn).
      assert (X : In (list_ascii_of_string tag ++ type_text type ++ level_text ds, found type ds tag, nl) (ms ROW_INFO (list_ascii_of_string s))).
      { apply row_info_ways. exists tag, type, ds, nl. split; [exact HP|]. split; [exact Hn|]. split; [exact Es|]. cbn. auto. }
      rewrite E in X. destruct X. }
    right. rewrite (guess_other s HN). split; [|cbn; auto]. intros a b c Hr. apply row_style_name_parts in Hr as (ds & HP & _). apply (HN _ _ _ HP).
  - left. assert (X : In w (ms ROW_INFO (list_ascii_of_string s))) by (rewrite E; left; reflexivity).
    apply row_info_ways in X as (tag & type & ds & nl & HP & _). rewrite (guess_parts _ _ _ _ HP). cbn [ri_tag ri_type ri_level].
    exists (option_map int_of_digits ds). split; [apply row_style_name_parts; exists ds; auto|]. destruct ds; reflexivity.
Qed.
Lemma decoded_level ns row tag type level : decoded ns row tag type level -> 0 <= level.
Proof.
  unfold decoded. destruct (attribute ns row "rowstyle") as [s|]; [|intuition lia].
  intros [(lv & H & ->)|(_ & _ & _ & ->)]; [|lia]. apply row_style_name_parts in H as (ds & (_ & _ & Hd & _) & <-).
  destruct ds as [d|]; cbn; [|lia]. destruct (Hd d eq_refl) as [_ D].
  unfold int_of_digits. assert (G : forall l n, 0 <= n -> forallb is_digit l = true -> 0 <= fold_left (fun acc c => 10 * acc + digit_value c) l n).
  { induction l as [|c l IH]; intros n Hn Hl; [exact Hn|]. cbn [forallb fold_left] in Hl |- *. apply andb_true_iff in Hl as [Hc Hl]. apply IH; [|exact Hl].
    unfold digit_value. unfold is_digit in Hc. apply andb_true_iff in Hc as [Hc _]. apply Nat.leb_le in Hc. lia. }
  apply G; [lia|exact D].
Qed.

(** ** Titles *)

Lemma title_cell_spec ns cells : forall pos r, title_cell_of ns pos cells = Ok r ->
  match r with
  | Some (c', (a, b)) => exists i c, nth_error cells i = Some (c, c') /\ filled c /\
      (match attribute ns c "namest", attribute ns c "nameend" with
       | Some s, Some t => if String.eqb s "" || String.eqb t "" then a = pos + Z.of_nat i /\ b = pos + Z.of_nat i
                           else first_number s a /\ first_number t b
       | _, _ => a = pos + Z.of_nat i /\ b = pos + Z.of_nat i
       end) /\ forall j p, (j < i)%nat -> nth_error cells j = Some p -> ~ filled (fst p)
  | None => forall p, In p cells -> ~ filled (fst p)
  end.
Proof.
  induction cells as [|[c c'] cells IH]; intros pos r H; cbn [title_cell_of] in H.
  - injection H as <-. intros p [].
  - destruct (cell_filled c) eqn:Ec.
    + assert (Fc : filled c) by (apply filled_spec; exact Ec). unfold attribute. rewrite (qname_expanded ns "namest"), (qname_expanded ns "nameend") in H.
      assert (Fst : forall j p, (j < 0)%nat -> nth_error ((c, c') :: cells) j = Some p -> ~ filled (fst p)) by (intros; lia).
      destruct (x_get c (expanded ns "namest")) as [s|] eqn:Es; cbn [truthy andb negb ostr] in H.
      2: { injection H as <-. exists 0%nat, c. cbn [nth_error]. split; [reflexivity|]. split; [exact Fc|]. split; [rewrite Es; split; lia|exact Fst]. }
      destruct (x_get c (expanded ns "nameend")) as [t|] eqn:Et; cbn [truthy andb negb ostr] in H.
      2: { rewrite andb_false_r in H. injection H as <-. exists 0%nat, c. cbn [nth_error]. split; [reflexivity|]. split; [exact Fc|]. split; [rewrite Es, Et; split; lia|exact Fst]. }
      destruct s as [|c1 s], t as [|c2 t]; cbn [truthy andb] in H.
      4: { destruct (first_int (String c1 s)) as [a|] eqn:Ea; cbn [rbind] in H; [|discriminate]. destruct (first_int (String c2 t)) as [b|] eqn:Eb; cbn [rbind] in H; [|discriminate].
           injection H as <-. exists 0%nat, c. cbn [nth_error]. split; [reflexivity|]. split; [exact Fc|].
           split; [|exact Fst]. rewrite Es, Et. cbn [orb String.eqb]. split; apply first_int_spec; assumption. }
      all: injection H as <-; exists 0%nat, c; cbn [nth_error]; split; [reflexivity|]; split; [exact Fc|]; split; [|exact Fst];
        rewrite Es, Et; cbn [orb String.eqb]; split; lia.
    + assert (Fc : ~ filled c) by (rewrite <- filled_spec; congruence). specialize (IH _ _ H). destruct r as [[d' [a b]]|].
      * destruct IH as (i & d & Hi & Hd & Hab & Hj). exists (S i), d. split; [exact Hi|]. split; [exact Hd|]. split.
        -- destruct (attribute ns d "namest") as [s|]; [destruct (attribute ns d "nameend") as [t|]|].
           ++ destruct (String.eqb s "" || String.eqb t ""); [destruct Hab; split; lia|exact Hab].
           ++ destruct Hab; split; lia.
           ++ destruct Hab; split; lia.
        -- intros [|j] p Hlt Hp; [injection Hp as <-; exact Fc|]. apply (Hj j p); [lia|exact Hp].
      * intros p [<-|Hp]; [exact Fc|]. apply IH, Hp.
Qed.

Definition same_tags (l m : list xnode) : Prop := Forall2 (fun a b => x_tag b = x_tag a) l m.
Lemma has_tag_same a b t : x_tag b = x_tag a -> x_has_tag b t = x_has_tag a t.
Proof. destruct a, b; cbn; intros E; try congruence; injection E as ->; reflexivity. Qed.
Lemma combine_named l m t : same_tags l m ->
  map fst (filter (fun p => x_has_tag (fst p) t) (combine l m)) = filter (fun e => x_has_tag e t) l /\
  map snd (filter (fun p => x_has_tag (fst p) t) (combine l m)) = filter (fun e => x_has_tag e t) m.
Proof.
  intros H. induction H as [|a b l m Hab H [IH1 IH2]]; [split; reflexivity|]. cbn [combine filter fst]. rewrite (has_tag_same a b t Hab).
  destruct (x_has_tag a t); [|split; assumption]. cbn [map fst snd]. rewrite IH1, IH2. split; reflexivity.
Qed.
Lemma dget_filter_not (d : dict string) k k' : dget (filter (fun kv => negb (String.eqb (fst kv) k')) d) k = if String.eqb k k' then None else dget d k.
Proof.
  induction d as [|[j v] d IH]; [cbn; destruct (String.eqb k k'); reflexivity|]. cbn [filter fst].
  destruct (String.eqb_spec j k') as [->|N]; cbn [negb].
  - rewrite IH. cbn [dget]. destruct (String.eqb k k'); reflexivity.
  - cbn [dget]. rewrite IH. destruct (String.eqb_spec k j) as [->|]; [|reflexivity]. destruct (String.eqb_spec j k'); [congruence|reflexivity].
Qed.
Lemma nth_pair {A B} (l : list (A * B)) i x y : nth_error (map fst l) i = Some x -> nth_error (map snd l) i = Some y -> nth_error l i = Some (x, y).
Proof.
  rewrite !nth_error_map. destruct (nth_error l i) as [[a b]|]; cbn; [|discriminate]. congruence.
Qed.
Lemma filter_NoDup_fst (d : dict string) f : NoDup (map fst d) -> NoDup (map fst (filter f d)).
Proof.
  induction d as [|[k v] d IH]; intros H; [constructor|]. inversion H as [|? ? Hn Hd]; subst. cbn [filter]. destruct (f (k, v)); [|apply IH, Hd].
  cbn. constructor; [|apply IH, Hd]. intros Hi. apply Hn. apply in_map_iff in Hi as ([k' v'] & <- & Hi). apply filter_In in Hi as [Hi _].
  apply in_map_iff. exists (k', v'). split; [reflexivity|exact Hi].
Qed.

Lemma item_spec ns row row' x :
  same_tags (x_children row) (x_children row') \/ ri_tag (guess_row_info (x_get row (qname ns "rowstyle"))) = "ROW" ->
  x_tag row' = x_tag row -> x_tag row <> None \/ x_get row (qname ns "rowstyle") = None ->
  blk_item ns (guess_row_info (x_get row (qname ns "rowstyle"))) row row' = Ok x ->
  block_item ns (ri_tag (guess_row_info (x_get row (qname ns "rowstyle")))) (ri_type (guess_row_info (x_get row (qname ns "rowstyle")))) row row' x.
Proof.
  intros HC HT HE H. unfold blk_item in H. unfold block_item. destruct (String.eqb_spec (ri_tag (guess_row_info (x_get row (qname ns "rowstyle")))) "ROW") as [Er|Nr].
  - destruct (ri_type (guess_row_info (x_get row (qname ns "rowstyle")))) as [t|] eqn:Et; [|congruence].
    destruct row' as [tag attrs text children tail|a b c|a b].
    2,3: exfalso; destruct HE as [HE|HE]; [cbn in HT; congruence|]; rewrite HE in Et; discriminate Et.
    injection H as <-. unfold typed_row. cbn [x_tag x_text x_tail x_children]. split; [reflexivity|]. split; [reflexivity|]. split; [reflexivity|].
    split; [apply dget_dset_same|]. split; [intros k Hk; apply dget_dset_other; congruence|].
    clear. induction children as [|c l IH]; [constructor|]. cbn [map]. constructor; [|exact IH].
    destruct (x_has_tag c "CELL") eqn:Ec; [|reflexivity]. destruct c as [tag attrs text ch tail| |]; try discriminate.
    unfold with_attr. cbn [x_set x_tag x_text x_children x_tail]. split; [reflexivity|]. split; [reflexivity|]. split; [reflexivity|]. split; [reflexivity|].
    split; [apply dget_dset_same|]. intros k Hk. apply dget_dset_other. congruence.
  - destruct HC as [HC|HC]; [|congruence].
    destruct (combine_named _ _ "CELL" HC) as [C1 C2].
    set (cells := filter (fun p : xnode * xnode => x_has_tag (fst p) "CELL") (combine (x_children row) (x_children row'))) in *.
    assert (D1 : cells_of row = map fst cells) by (unfold cells_of, children_named; cbn [flat_map]; rewrite app_nil_r; congruence).
    assert (D2 : cells_of row' = map snd cells) by (unfold cells_of, children_named; cbn [flat_map]; rewrite app_nil_r; congruence).
    destruct (title_cell_of ns 1 cells) as [r|] eqn:Ef; cbn [rbind] in H; [|discriminate]. pose proof (title_cell_spec ns cells 1 r Ef) as Hs.
    unfold block_title. rewrite D1, D2.
    assert (HA : forall a b, NoDup (map fst (x_attrs row)) ->
       forall k, dget (dupdate [("COL.START", py_str_int a); ("COL.END", py_str_int b)]
               (filter (fun kv => negb (String.eqb (fst kv) "TYPE")) (x_attrs row))) k =
         match (if String.eqb k "TYPE" then None else x_get row k) with
         | Some v => Some v
         | None => if String.eqb k "COL.START" then Some (py_str_int a)
                   else if String.eqb k "COL.END" then Some (py_str_int b) else None
         end).
    { intros a b Hd k. rewrite dget_dupdate by (apply filter_NoDup_fst, Hd). rewrite dget_filter_not. unfold x_get.
      destruct (String.eqb k "TYPE"); [reflexivity|]. destruct (dget (x_attrs row) k); reflexivity. }
    destruct r as [[c' [a b]]|]; cbn [rbind] in H.
    + injection H as <-. destruct Hs as (i & c & Hi & Hc & Hab & Hj). exists i, c, c', a, b.
      split; [rewrite nth_error_map, Hi; reflexivity|]. split; [rewrite nth_error_map, Hi; reflexivity|].
      split; [|split; [reflexivity|split; [reflexivity|split; [reflexivity|split; [reflexivity|exact (HA a b)]]]]].
      left. split; [exact Hc|]. split.
      * unfold title_columns. rewrite Z.add_comm. exact Hab.
      * intros j d Hlt Hd. rewrite nth_error_map in Hd. destruct (nth_error cells j) as [p|] eqn:Ep; [|discriminate]. injection Hd as <-. apply (Hj j p Hlt Ep).
    + destruct cells as [|[c c'] cells'] eqn:Ecs; [discriminate|]. cbn [rbind] in H. injection H as <-. exists 0%nat, c, c', 1, 1.
      split; [reflexivity|]. split; [reflexivity|]. split; [|split; [reflexivity|split; [reflexivity|split; [reflexivity|split; [reflexivity|exact (HA 1 1)]]]]].
      right. split; [reflexivity|]. split; [reflexivity|]. split; [reflexivity|]. intros d Hd. apply in_map_iff in Hd as (p & <- & Hp). apply Hs, Hp.
Qed.
Lemma item_leaf ns tag type row row' x : is_blk row' = false -> (tag = "ROW" \/ tag = "TI.BLK" \/ tag = "STI.BLK") ->
  block_item ns tag type row row' x -> is_blk x = false.
Proof.
  intros Hr Ht H. unfold block_item in H. destruct (String.eqb_spec tag "ROW") as [->|N].
  - destruct type as [t|]; [|congruence]. destruct H as (E & _). unfold is_blk in *. rewrite (has_tag_same row' x) by exact E. exact Hr.
  - destruct H as (i & c & c' & a & b & _ & _ & _ & E & _). destruct x as [xt| |]; try discriminate. injection E as ->.
    destruct Ht as [-> |[-> | ->]]; [congruence|reflexivity|reflexivity].
Qed.
Lemma decoded_tag ns row tag type level : decoded ns row tag type level -> tag = "ROW" \/ tag = "TI.BLK" \/ tag = "STI.BLK".
Proof.
  unfold decoded. destruct (attribute ns row "rowstyle") as [s|]; [|tauto].
  intros [(lv & (H & _) & _)|(_ & H & _)]; [|tauto]. cbn in H. intuition congruence.
Qed.

(** ** The children of a CORPUS *)

Definition pair_ok (p : xnode * xnode) : Prop :=
  is_blk (fst p) = false /\ x_tag (snd p) = x_tag (fst p) /\ same_tags (x_children (fst p)) (x_children (snd p)).
Lemma steps_spec ns l : forall st st', Forall pair_ok l -> rest_ok st -> blk_steps ns st l = Ok st' ->
  rest_ok st' /\ exists m, placed ns (List.length st - 1) l m /\ stack_leaves st' = stack_leaves st ++ m.
Proof.
  induction l as [|[row row'] l IH]; intros st st' HP Hst H; cbn [blk_steps] in H.
  - injection H as <-. split; [exact Hst|]. exists []. split; [constructor|symmetry; apply app_nil_r].
  - inversion HP as [|? ? (Hb & Ht & Hc) HP']; subst. cbn [fst snd] in *.
    assert (Hb' : is_blk row' = false) by (unfold is_blk in *; rewrite (has_tag_same row row') by exact Ht; exact Hb).
    destruct (blk_step ns st (row, row')) as [s1|] eqn:E1; cbn [rbind] in H; [|discriminate].
    assert (HR : (forall a b c, row <> XPI a b c) -> rest_ok st' /\ exists m, placed ns (List.length st - 1) ((row, row') :: l) m /\ stack_leaves st' = stack_leaves st ++ m).
    { intros Npi. assert (E1' : (x <-? blk_item ns (guess_row_info (x_get row (qname ns "rowstyle"))) row row' ;;
              Ok (blk_put x (blk_level (Z.to_nat (ri_level (guess_row_info (x_get row (qname ns "rowstyle"))))) st))) = Ok s1).
      { destruct row as [| |]; [exact E1|exfalso; eapply Npi; reflexivity|exact E1]. }
      clear E1. set (info := guess_row_info (x_get row (qname ns "rowstyle"))) in *.
      destruct (blk_item ns info row row') as [x|] eqn:Ex; cbn [rbind] in E1'; [|discriminate]. injection E1' as <-.
      pose proof (decoded_guess ns row) as HD. fold info in HD.
      assert (HI : block_item ns (ri_tag info) (ri_type info) row row' x).
      { apply item_spec; [left; exact Hc|exact Ht| |exact Ex]. destruct row; [left; discriminate|exfalso; eapply Npi; reflexivity|right; reflexivity]. }
      assert (Hx : is_blk x = false) by (eapply item_leaf; [exact Hb'|eapply decoded_tag; exact HD|exact HI]).
      destruct (level_ok (Z.to_nat (ri_level info)) st Hst) as (HL1 & HL2 & HL3).
      destruct (put_ok x _ HL1 Hx) as (P1 & P2 & P3).
      destruct (IH _ _ HP' P1 H) as (R & m & Hm & Em). split; [exact R|]. exists ((Z.to_nat (ri_level info), x) :: m). split.
      - apply (placed_row ns _ row row' (ri_tag info) (ri_type info) (ri_level info)); [exact Npi|exact HD|exact HI|].
        rewrite P3, HL3 in Hm. cbn in Hm. rewrite Nat.sub_0_r in Hm. exact Hm.
      - rewrite Em, P2, HL2, HL3, <- app_assoc. cbn. rewrite Nat.sub_0_r. reflexivity. }
    destruct row as [tag attrs text children tail|a b c|a b]; [apply HR; discriminate| |apply HR; discriminate].
    clear HR. cbn [blk_step] in E1. injection E1 as <-.
    destruct Hst as [Ho Hu]. destruct (put_ok row' st) as (P1 & P2 & P3); [|exact Hb'|].
    { destruct st as [|f r]; [destruct Ho|]. exists f, r. split; [reflexivity|]. split; apply Ho. }
    destruct (IH _ _ HP' P1 H) as (R & m & Hm & Em). split; [exact R|]. exists ((List.length st - 1, row')%nat :: m). split.
    + apply placed_pi. rewrite P3 in Hm. exact Hm.
    + rewrite Em, P2, <- app_assoc. reflexivity.
Qed.
Lemma children_spec ns l l' : Forall pair_ok l -> blk_children ns l = Ok l' -> tidy l' /\ placed ns 0 l (leaves_of 0 l').
Proof.
  intros HP H. unfold blk_children in H. destruct (blk_steps ns [[]] l) as [st|] eqn:E; cbn [rbind] in H; [|discriminate].
  destruct (steps_spec ns l [[]] st HP) as ((Ho & Hu) & m & Hm & Em).
  - split; [split; [constructor|split; [congruence|constructor]]|constructor; [|constructor]]. split; [constructor|]. intros n l0 En. destruct l0; discriminate.
  - exact E.
  - assert (L : (1 <= List.length st)%nat) by (destruct st; [destruct Ho|cbn; lia]).
    destruct (closes_ok (List.length st - 1) st Ho ltac:(lia)) as (A & B & C).
    destruct (Nat.iter (List.length st - 1) blk_close st) as [|f [|g r]]; cbn in C; try lia.
    injection H as <-. split; [apply A|]. cbn in B, Em, Hm. rewrite B, Em. exact Hm.
Qed.

(** ** The document *)

Lemma blocked_tag ns n n' : blocked ns n n' -> x_tag n' = x_tag n.
Proof. intros H. destruct H; reflexivity. Qed.
Lemma blocked_children ns n n' : blocked ns n n' -> x_tag n <> Some "CORPUS" -> same_tags (x_children n) (x_children n').
Proof.
  intros H N. destruct H as [| |tag attrs text children children' tail _ H|]; cbn in *; try constructor; [|congruence].
  induction H as [|a b l m Hab H IH]; constructor; [eapply blocked_tag, Hab|exact IH].
Qed.
Lemma insert_blocked ns n : plain_corpora n -> forall n', insert_blk ns n = Ok n' -> blocked ns n n'.
Proof.
  induction n as [tag attrs text children tail IH|a b c|a b] using xnode_ind'; intros HP n' H.
  2,3: cbn in H; injection H as <-; constructor.
  cbn [insert_blk] in H. inversion HP as [? HC HB]; subst. cbn [x_children x_tag] in HC, HB.
  set (go := fix go (l : list xnode) : result (list xnode) :=
                         match l with
                         | [] => Ok []
                         | c :: l' => c' <-? insert_blk ns c ;; r <-? go l' ;; Ok (c' :: r)
                         end) in *.
  destruct (go children) as [children'|] eqn:Eg; cbn [rbind] in H; [|discriminate].
  assert (HF : Forall2 (blocked ns) children children').
  { clear H HB HP. revert children' Eg. induction IH as [|c l Hc Hl IHl]; intros l' Eg; cbn in Eg.
    - injection Eg as <-. constructor.
    - destruct (insert_blk ns c) as [c'|] eqn:Ec; cbn [rbind] in Eg; [|discriminate]. destruct (go l) as [r|] eqn:Er; cbn [rbind] in Eg; [|discriminate].
      injection Eg as <-. constructor; [apply Hc; [apply HC; left; reflexivity|reflexivity]|]. apply IHl; [|reflexivity]. intros x Hx. apply HC. right. exact Hx. }
  destruct (String.eqb_spec tag "CORPUS") as [->|N].
  - destruct (blk_children ns (combine children children')) as [l|] eqn:Eb; cbn [rbind] in H; [|discriminate]. injection H as <-.
    destruct (children_spec ns (combine children children') l) as [T P]; [|exact Eb|].
    + specialize (HB eq_refl). clear - HF HB. induction HF as [|a b l m Hab H IH]; [constructor|]. cbn [combine]. constructor.
      * destruct (HB a (or_introl eq_refl)) as [H1 H2]. split; [exact H1|]. split; [eapply blocked_tag, Hab|]. cbn [fst snd]. eapply blocked_children; eassumption.
      * apply IH. intros c Hc. apply HB. right. exact Hc.
    + eapply blocked_corpus; [exact HF|exact T|exact P].
  - injection H as <-. constructor; assumption.
Qed.

(** ** No text is lost when there is no title *)

Definition whole (n : xnode) : string := (string_value n ++ ostr (x_tail n))%string.
Definition wholes (l : list xnode) : string := String.concat "" (map whole l).
Lemma wholes_cons n l : wholes (n :: l) = (whole n ++ wholes l)%string.
Proof. apply concat_nil_cons. Qed.
Lemma value_elem tag attrs text children tail : string_value (XElem tag attrs text children tail) = (ostr text ++ wholes children)%string.
Proof. reflexivity. Qed.
Lemma wholes_app l m : wholes (l ++ m) = (wholes l ++ wholes m)%string.
Proof. induction l as [|n l IH]; [reflexivity|]. cbn [app]. rewrite !wholes_cons, IH. symmetry. apply str_app_assoc. Qed.
Lemma tidy_wholes l : tidy l -> forall d, wholes l = wholes (map snd (leaves_of d l)).
Proof.
  intros H. induction H as [|n l Hn Hl IH|ch l Hne Hch IHch Hl IHl Hx]; intros d; [reflexivity| |].
  - unfold leaves_of. cbn [flat_map]. rewrite (leaves_leaf d n Hn). cbn [app map snd]. rewrite !wholes_cons. f_equal. apply IH.
  - unfold leaves_of. cbn [flat_map]. rewrite leaves_blk, map_app, wholes_app, wholes_cons. f_equal; [|apply IHl].
    unfold whole. rewrite value_elem. cbn [ostr x_tail]. rewrite str_app_nil. cbn. apply IHch.
Qed.
Lemma typed_whole t row x : typed_row t row x -> x_tag row <> None -> whole x = whole row.
Proof.
  intros (E1 & E2 & E3 & _ & _ & HF) N. destruct row as [tag attrs text children tail| |]; cbn in N; try congruence.
  destruct x as [tag' attrs' text' children' tail'| |]; cbn in E1; try discriminate. cbn in E2, E3, HF. subst text' tail'.
  unfold whole. rewrite !value_elem. cbn [x_tail]. f_equal. f_equal.
  induction HF as [|c c' l l' Hc HF IH]; [reflexivity|]. rewrite !wholes_cons, IH. f_equal.
  destruct (x_has_tag c "CELL") eqn:Ec; [|congruence]. destruct Hc as (F1 & F2 & F3 & F4 & _).
  destruct c as [? ? ? ? ?| |]; try discriminate. destruct c' as [? ? ? ? ?| |]; try discriminate. cbn in *. subst. reflexivity.
Qed.
Lemma placed_wholes ns d l m : placed ns d l m -> Forall (fun p => whole (snd p) = whole (fst p) /\ x_tag (snd p) = x_tag (fst p)) l ->
  (forall p tag type level, In p l -> decoded ns (fst p) tag type level -> tag = "ROW") ->
  wholes (map snd m) = wholes (map fst l).
Proof.
  intros H. induction H as [d|d a b c row' l m H IH|d row row' tag type level x l m Npi Hd Hi H IH]; intros HF HT; [reflexivity| |];
    inversion HF as [|? ? [Hw Ht] HF']; subst; cbn [map fst snd] in *; rewrite !wholes_cons.
  - rewrite Hw, IH; [reflexivity|exact HF'|]. intros p tg ty lv Hp. apply HT. right. exact Hp.
  - rewrite IH; [|exact HF'|intros p tg ty lv Hp; apply HT; right; exact Hp]. f_equal.
    assert (E : tag = "ROW") by (eapply (HT (row, row')); [left; reflexivity|exact Hd]). subst tag. cbn in Hi.
    destruct type as [t|]; [|congruence]. rewrite <- Hw. apply (typed_whole t); [exact Hi|].
    rewrite Ht. destruct row as [| |]; [discriminate|exfalso; eapply Npi; reflexivity|]. unfold decoded in Hd. cbn in Hd. destruct Hd as (_ & ? & _). discriminate.
Qed.
Lemma blocked_value ns n : untitled ns n -> forall n', blocked ns n n' -> string_value n' = string_value n /\ whole n' = whole n.
Proof.
  induction n as [tag attrs text children tail IH|a b c|a b] using xnode_ind'; intros HU n' H; inversion H; subst; try (split; reflexivity).
  - match goal with X : Forall2 _ _ _ |- _ => rename X into HF end. inversion HU as [? HC _]; subst. cbn [x_children] in HC.
    assert (E : wholes children' = wholes children).
    { clear H HU. induction HF as [|c c' l l' Hc HF IHF]; [reflexivity|]. inversion IH as [|? ? Hc1 Hl1]; subst. rewrite !wholes_cons. f_equal.
      - apply Hc1; [apply HC; left; reflexivity|exact Hc].
      - apply IHF; [exact Hl1|]. intros y Hy. apply HC. right. exact Hy. }
    unfold whole. rewrite !value_elem, E. split; reflexivity.
  - match goal with X : Forall2 _ _ _ |- _ => rename X into HF end. match goal with X : tidy _ |- _ => rename X into HT end.
    match goal with X : placed _ _ _ _ |- _ => rename X into HPl end.
    inversion HU as [? HC HR]; subst. cbn [x_children x_tag] in HC, HR. specialize (HR eq_refl).
    assert (E : wholes children' = wholes children).
    { rewrite (tidy_wholes _ HT 0).
      assert (EM : map fst (combine children rows) = children).
      { clear - HF. induction HF as [|c c' l l' _ _ IH]; [reflexivity|]. cbn. rewrite IH. reflexivity. }
      rewrite (placed_wholes ns 0 (combine children rows) _ HPl).
      - rewrite EM. reflexivity.
      - clear - HF IH HC. induction HF as [|c c' l l' Hc HF IHF]; [constructor|]. inversion IH as [|? ? Hc1 Hl1]; subst. cbn [combine]. constructor.
        + cbn [fst snd]. split; [apply Hc1; [apply HC; left; reflexivity|exact Hc]|eapply blocked_tag, Hc].
        + apply IHF; [exact Hl1|]. intros y Hy. apply HC. right. exact Hy.
      - intros p tg ty lv Hp Hd. apply (HR (fst p) tg ty lv); [|exact Hd]. rewrite <- EM. apply in_map, Hp. }
    unfold whole. rewrite !value_elem, E. split; reflexivity.
Qed.

(** ** It succeeds *)

Lemma title_cell_ok ns cells : (forall p, In p cells -> columns_ready ns (fst p)) -> forall pos, exists r, title_cell_of ns pos cells = Ok r.
Proof.
  induction cells as [|[c c'] cells IH]; intros H pos; cbn [title_cell_of]; [eexists; reflexivity|].
  destruct (cell_filled c); [|apply IH; intros p Hp; apply H; right; exact Hp].
  specialize (H (c, c') (or_introl eq_refl)). unfold columns_ready, attribute in H. cbn [fst] in H.
  rewrite (qname_expanded ns "namest"), (qname_expanded ns "nameend").
  destruct (x_get c (expanded ns "namest")) as [[|c1 s]|], (x_get c (expanded ns "nameend")) as [[|c2 t]|]; cbn [truthy andb ostr]; try (eexists; reflexivity).
  destruct (H _ _ eq_refl eq_refl ltac:(discriminate) ltac:(discriminate)) as [(a & Ha) (b & Hb)].
  apply first_int_spec in Ha, Hb. rewrite Ha, Hb. cbn [rbind]. eexists. reflexivity.
Qed.
Lemma steps_ok ns l : (forall p, In p l -> (exists x, blk_item ns (guess_row_info (x_get (fst p) (qname ns "rowstyle"))) (fst p) (snd p) = Ok x)) ->
  forall st, exists st', blk_steps ns st l = Ok st'.
Proof.
  induction l as [|[row row'] l IH]; intros H st; cbn [blk_steps]; [eexists; reflexivity|].
  assert (X : exists s1, blk_step ns st (row, row') = Ok s1).
  { destruct (H (row, row') (or_introl eq_refl)) as [x Hx]. cbn [fst snd] in Hx. destruct row as [| |]; cbn [blk_step]; try (eexists; reflexivity); rewrite Hx; cbn [rbind]; eexists; reflexivity. }
  destruct X as [s1 ->]. cbn [rbind]. apply IH. intros p Hp. apply H. right. exact Hp.
Qed.
Lemma item_ok ns row row' : same_tags (x_children row) (x_children row') -> title_ready ns row ->
  exists x, blk_item ns (guess_row_info (x_get row (qname ns "rowstyle"))) row row' = Ok x.
Proof.
  intros HC HT. unfold blk_item. destruct (String.eqb_spec (ri_tag (guess_row_info (x_get row (qname ns "rowstyle")))) "ROW") as [Er|Nr].
  - destruct (ri_type _); eexists; reflexivity.
  - destruct (HT _ _ _ (decoded_guess ns row) Nr) as [HN HR].
    destruct (combine_named _ _ "CELL" HC) as [C1 _].
    set (cells := filter (fun p : xnode * xnode => x_has_tag (fst p) "CELL") (combine (x_children row) (x_children row'))) in *.
    assert (D1 : cells_of row = map fst cells) by (unfold cells_of, children_named; cbn [flat_map]; rewrite app_nil_r; congruence).
    destruct (title_cell_ok ns cells) with (pos := 1) as [r ->].
    + intros p Hp. apply HR. rewrite D1. apply in_map, Hp.
    + cbn [rbind]. destruct r as [[c' [a b]]|]; cbn [rbind]; [eexists; reflexivity|].
      destruct cells as [|[c c'] cells']; [rewrite D1 in HN; cbn in HN; congruence|]. cbn [rbind]. eexists. reflexivity.
Qed.
Lemma insert_ok ns n : plain_corpora n -> titles_ready ns n -> exists n', insert_blk ns n = Ok n'.
Proof.
  induction n as [tag attrs text children tail IH|a b c|a b] using xnode_ind'; intros HP HR; [|eexists; reflexivity|eexists; reflexivity].
  cbn [insert_blk]. inversion HP as [? HC HB]; subst. inversion HR as [? HD HE]; subst. cbn [x_children x_tag] in *.
  set (go := fix go (l : list xnode) : result (list xnode) :=
                         match l with
                         | [] => Ok []
                         | c :: l' => c' <-? insert_blk ns c ;; r <-? go l' ;; Ok (c' :: r)
                         end).
  assert (X : exists children', go children = Ok children' /\ Forall2 (blocked ns) children children').
  { clear HP HR HB HE. induction IH as [|c l Hc Hl IHl]; [exists []; split; [reflexivity|constructor]|].
    destruct Hc as [c' Ec]; [apply HC; left; reflexivity|apply HD; left; reflexivity|].
    destruct IHl as (l' & El & Fl); [intros y Hy; apply HC; right; exact Hy|intros y Hy; apply HD; right; exact Hy|].
    exists (c' :: l'). split; [change (go (c :: l)) with (c' <-? insert_blk ns c ;; r <-? go l ;; Ok (c' :: r)); rewrite Ec, El; reflexivity|].
    constructor; [|exact Fl]. apply insert_blocked; [apply HC; left; reflexivity|exact Ec]. }
  destruct X as (children' & -> & HF). cbn [rbind]. destruct (String.eqb_spec tag "CORPUS") as [->|N]; [|eexists; reflexivity].
  unfold blk_children. destruct (steps_ok ns (combine children children')) with (st := [@nil xnode]) as [st ->].
  - intros p Hp. specialize (HB eq_refl). specialize (HE eq_refl).
    assert (Y : In (fst p) children /\ blocked ns (fst p) (snd p)).
    { clear - HF Hp. induction HF as [|c c' l l' Hc HF IHF]; [destruct Hp|]. destruct Hp as [<-|Hp]; [split; [left; reflexivity|exact Hc]|].
      destruct (IHF Hp). split; [right|]; assumption. }
    destruct Y as [Y1 Y2]. apply item_ok; [|apply HE, Y1]. eapply blocked_children; [exact Y2|]. apply HB, Y1.
  - cbn [rbind]. eexists. reflexivity.
Qed.

Lemma decoded_is_guess ns row tag type level : decoded ns row tag type level ->
  guess_row_info (x_get row (qname ns "rowstyle")) = MkRowInfo tag type level.
Proof.
  unfold decoded, attribute. rewrite <- qname_expanded. destruct (x_get row (qname ns "rowstyle")) as [s|]; [|intros (-> & -> & ->); reflexivity].
  intros [(lv & H & ->)|(H & -> & -> & ->)].
  - apply row_style_name_parts in H as (ds & HP & <-). rewrite (guess_parts _ _ _ _ HP). destruct ds; reflexivity.
  - apply guess_other. intros tag type ds HP. apply (H tag type (option_map int_of_digits ds)). apply row_style_name_parts. exists ds. auto.
Qed.
