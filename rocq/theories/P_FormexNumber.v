(** * The numbers of the tables of a Formex document *)
From Coq Require Import DecimalString DecimalPos DecimalFacts.
From Verif Require Import Base M_Xml M_Regex M_Str M_Formex M_FormexFinal S_Units S_FormexFinal P_Geometry P_Units P_Int P_Str P_Grid.
Open Scope string_scope.
Open Scope list_scope.
Open Scope Z_scope.

(** ** Texts *)

Lemma las_inj s t : list_ascii_of_string s = list_ascii_of_string t -> s = t.
Proof. intros H. rewrite <- (string_of_list_ascii_of_string s), <- (string_of_list_ascii_of_string t), H. reflexivity. Qed.
Lemma str_app_nil s : (s ++ "")%string = s.
Proof. apply las_inj. rewrite list_of_append. apply app_nil_r. Qed.
Lemma str_app_assoc a b c : ((a ++ b) ++ c)%string = (a ++ b ++ c)%string.
Proof. apply las_inj. rewrite !list_of_append. symmetry. apply app_assoc. Qed.
Lemma str_app_inv_head a b c : (a ++ b)%string = (a ++ c)%string -> b = c.
Proof. intros H. apply (f_equal list_ascii_of_string) in H. rewrite !list_of_append in H. apply app_inv_head in H. apply las_inj, H. Qed.

Lemma digit_zero c : is_digit c = true -> digit_value c = 0 -> c = "0"%char.
Proof.
  unfold is_digit, digit_value. intros H E.
  destruct c as [[|] [|] [|] [|] [|] [|] [|] [|]]; vm_compute in H; try discriminate; vm_compute in E; try discriminate; reflexivity.
Qed.
Lemma zeros_value n l : int_of_digits (repeat "0"%char n ++ l) = int_of_digits l.
Proof.
  rewrite int_of_digits_app. replace (int_of_digits (repeat "0"%char n)) with 0; [lia|].
  induction n as [|n IH]; [reflexivity|]. exact IH.
Qed.
Lemma zeros_digits n : forallb is_digit (repeat "0"%char n) = true.
Proof. induction n; [reflexivity|exact IHn]. Qed.

Lemma py_str_first n : 0 < n -> exists c r, list_ascii_of_string (py_str_int n) = c :: r /\ c <> "0"%char.
Proof.
  intros H. unfold py_str_int. pose proof (DecimalZ.of_to n) as T. destruct (Z.to_int n) as [d|d] eqn:E; [|destruct n; try discriminate; lia].
  destruct n as [|p|p]; try lia. cbn in E. injection E as <-. clear T.
  pose proof (DecimalPos.Unsigned.to_uint_nonnil p) as N. pose proof (DecimalPos.Unsigned.to_of (Pos.to_uint p)) as T. rewrite DecimalPos.Unsigned.of_to in T. cbn in T.
  unfold NilZero.string_of_int, NilZero.string_of_uint.
  assert (Hl : forall d', Pos.to_uint p <> Decimal.D0 d').
  { intros d' E. rewrite E in T. unfold Decimal.unorm in T. cbn [Decimal.nzhead] in T.
    destruct (Decimal.nzhead d') eqn:En; try discriminate T.
    - injection T as ->. pose proof (DecimalPos.Unsigned.of_to p) as X. rewrite E in X. discriminate X.
    - revert En. clear. revert u. induction d'; intros u En; cbn in En; try discriminate. eapply IHd', En. }
  destruct (Pos.to_uint p) eqn:Ep; try (exfalso; apply N; reflexivity); try (exfalso; eapply Hl; reflexivity);
    cbn; eexists; eexists; (split; [reflexivity|discriminate]).
Qed.

Lemma format04_spec n : 0 <= n -> four_digits n (format04 n).
Proof.
  intros H. unfold four_digits, format04. destruct (py_str_nonneg n H) as (c & l & E & D & V).
  rewrite list_of_append, list_ascii_of_string_of_list_ascii, E.
  assert (El : String.length (py_str_int n) = List.length (c :: l)).
  { rewrite <- E. clear. induction (py_str_int n); cbn; congruence. }
  rewrite El. split; [|split].
  - apply digits_value_spec. split; [|rewrite zeros_value; exact V]. rewrite forallb_app, zeros_digits. exact D.
  - rewrite app_length, repeat_length. lia.
  - destruct (Nat.le_gt_cases (List.length (c :: l)) 4) as [L|L].
    + left. rewrite app_length, repeat_length. lia.
    + right. replace (4 - List.length (c :: l))%nat with 0%nat by lia. cbn [repeat app]. exists c, l. split; [reflexivity|].
      intros ->. destruct (Z.eq_dec n 0) as [->|N].
      * cbn in E. injection E as <-. cbn in L. lia.
      * destruct (py_str_first n) as (c' & r & E' & N'); [lia|]. rewrite E in E'. injection E' as <- _. congruence.
Qed.
Lemma four_digits_value n m s : four_digits n s -> four_digits m s -> n = m.
Proof. intros [H _] [H' _]. apply digits_value_spec in H as [_ H]. apply digits_value_spec in H' as [_ H']. congruence. Qed.

(** a text of digits is followed by nothing or a dot *)
Definition tail_ok (r : string) : Prop := r = "" \/ exists r', r = String "." r'.
Lemma digits_dot s : forall s' r r', forallb is_digit s = true -> forallb is_digit s' = true ->
  (r = [] \/ exists x, r = "."%char :: x) -> (r' = [] \/ exists x, r' = "."%char :: x) ->
  s ++ r = s' ++ r' -> s = s' /\ r = r'.
Proof.
  induction s as [|c s IH]; intros [|c' s'] r r' D D' T T' E; cbn in *.
  - auto.
  - exfalso. apply andb_true_iff in D' as [D' _]. destruct T as [->|[x ->]]; [discriminate|]. injection E as <- _. discriminate.
  - exfalso. apply andb_true_iff in D as [D _]. destruct T' as [->|[x ->]]; [discriminate|]. injection E as -> _. discriminate.
  - apply andb_true_iff in D as [_ D]. apply andb_true_iff in D' as [_ D']. injection E as -> E.
    destruct (IH s' r r' D D' T T' E) as [-> ->]. auto.
Qed.
Lemma four_digits_tail n m s s' r r' : four_digits n s -> four_digits m s' -> tail_ok r -> tail_ok r' ->
  (s ++ r)%string = (s' ++ r')%string -> n = m /\ r = r'.
Proof.
  intros H H' T T' E. pose proof (proj1 H) as D. pose proof (proj1 H') as D'. apply digits_value_spec in D as [D _]. apply digits_value_spec in D' as [D' _].
  apply (f_equal list_ascii_of_string) in E. rewrite !list_of_append in E. apply digits_dot in E as [E1 E2]; try assumption.
  - apply las_inj in E1 as <-. apply las_inj in E2 as <-. split; [|reflexivity]. eapply four_digits_value; eassumption.
  - destruct T as [->|[x ->]]; cbn; eauto.
  - destruct T' as [->|[x ->]]; cbn; eauto.
Qed.

(** ** The walk *)

Fixpoint numbers (level : nat) (l : list xnode) (stack : list Z) : list xnode * list Z :=
  match l with
  | [] => ([], stack)
  | c :: l' =>
      let (c', s1) := number level c stack in
      let (r, s2) := numbers level l' s1 in
      (c' :: r, s2)
  end.
Lemma number_elem level tag attrs text children tail stack :
  number level (XElem tag attrs text children tail) stack =
  if String.eqb tag "TBL" then
    let s := bump (S level) stack in
    let (children', s') := numbers (S level) children s in
    (XElem tag (dset attrs "NO.SEQ" (no_seq_text s)) text children' tail, s')
  else
    let (children', s') := numbers level children stack in
    (XElem tag attrs text children' tail, s').
Proof.
  assert (E : forall l level stack,
    (fix go (level : nat) (l : list xnode) (stack : list Z) : list xnode * list Z :=
        match l with
        | [] => ([], stack)
        | c :: l' => let (c', s1) := number level c stack in let (r, s2) := go level l' s1 in (c' :: r, s2)
        end) level l stack = numbers level l stack).
  { induction l as [|c l IH]; intros lv st; [reflexivity|]. cbn [numbers]. destruct (number lv c st) as [c' s1]. rewrite IH. reflexivity. }
  cbn [number]. rewrite !E. reflexivity.
Qed.

Definition prefix_of (p : list Z) : string := String.concat "" (map (fun x => (format04 x ++ ".")%string) p).
Lemma concat_nil_cons s l : String.concat "" (s :: l) = (s ++ String.concat "" l)%string.
Proof. destruct l; cbn [String.concat]; [rewrite str_app_nil; reflexivity|reflexivity]. Qed.
Lemma prefix_snoc p x : prefix_of (p ++ [x]) = (prefix_of p ++ format04 x ++ ".")%string.
Proof.
  unfold prefix_of. induction p as [|y p IH]; [reflexivity|]. cbn [app map]. rewrite !concat_nil_cons, IH, !str_app_assoc. reflexivity.
Qed.
Lemma text_snoc p x : no_seq_text (p ++ [x]) = (prefix_of p ++ format04 x)%string.
Proof.
  unfold no_seq_text, prefix_of. induction p as [|y p IH]; [reflexivity|]. cbn [app map].
  assert (E : forall s l, l <> [] -> String.concat "." (s :: l) = (s ++ "." ++ String.concat "." l)%string) by (intros s [|? ?] N; [congruence|reflexivity]).
  rewrite E, IH by (destruct p; discriminate). rewrite concat_nil_cons, !str_app_assoc. reflexivity.
Qed.

Lemma incr_last_snoc p x : incr_last (p ++ [x]) = p ++ [x + 1].
Proof.
  induction p as [|y p IH]; [reflexivity|]. cbn [app incr_last]. rewrite IH. destruct (p ++ [x]) eqn:E; [destruct p; discriminate|reflexivity].
Qed.
Lemma bump_spec level stack : (level <= List.length stack)%nat ->
  bump (S level) stack = firstn level stack ++ [nth level stack 0 + 1].
Proof.
  intros H. unfold bump. destruct (Nat.ltb_spec (List.length stack) (S level)) as [L|L].
  - assert (E : level = List.length stack) by lia. replace (S level - List.length stack)%nat with 1%nat by lia. cbn [repeat].
    rewrite incr_last_snoc. subst level. rewrite firstn_all, nth_overflow by lia. reflexivity.
  - destruct (nth_error stack level) as [x|] eqn:En; [|apply nth_error_None in En; lia].
    rewrite (nth_error_nth _ _ _ En). replace (firstn (S level) stack) with (firstn level stack ++ [x]); [apply incr_last_snoc|].
    clear - En. revert stack En. induction level as [|k IH]; intros [|y s] En; try discriminate; cbn in *; [congruence|]. f_equal. apply IH, En.
Qed.

Definition numbered_from (prefix : string) (k : Z) (l : list xnode) : Prop :=
  forall i a, nth_error l i = Some a ->
    exists s, four_digits (k + Z.of_nat i + 1) s /\ x_get a "NO.SEQ" = Some (prefix ++ s)%string /\
      numbered (prefix ++ s ++ ".")%string (tables_in a).
Lemma numbered_from_app prefix k l m : numbered_from prefix k l -> numbered_from prefix (k + Z.of_nat (List.length l)) m ->
  numbered_from prefix k (l ++ m).
Proof.
  intros H1 H2 i a Ha. destruct (Nat.lt_ge_cases i (List.length l)) as [L|L].
  - rewrite nth_error_app1 in Ha by exact L. apply H1, Ha.
  - rewrite nth_error_app2 in Ha by exact L. destruct (H2 _ _ Ha) as (s & Hs). exists s. 
    replace (k + Z.of_nat (List.length l) + Z.of_nat (i - List.length l) + 1) with (k + Z.of_nat i + 1) in Hs by lia. exact Hs.
Qed.

Definition good (level : nat) (stack : list Z) (l : list xnode) (s' : list Z) : Prop :=
  (level <= List.length s')%nat /\ firstn level s' = firstn level stack /\
  nth level s' 0 = nth level stack 0 + Z.of_nat (List.length l) /\
  numbered_from (prefix_of (firstn level stack)) (nth level stack 0) l.

Lemma outer_elem tag attrs text children tail : outer_tables (XElem tag attrs text children tail) =
  if String.eqb tag "TBL" then [XElem tag attrs text children tail] else flat_map outer_tables children.
Proof. cbn [outer_tables]. unfold is_tbl. cbn [x_has_tag]. rewrite String.eqb_sym. reflexivity. Qed.

Lemma number_good n : forall level stack n' s', (level <= List.length stack)%nat -> 0 <= nth level stack 0 ->
  number level n stack = (n', s') -> good level stack (outer_tables n') s'.
Proof.
  induction n as [tag attrs text children tail IH| |] using xnode_ind'; intros level stack n' s' HL HZ E.
  2,3: cbn in E; injection E as <- <-; split; [exact HL|]; split; [reflexivity|]; split; [cbn; lia|]; intros [|i] a Ha; discriminate.
  assert (HN : forall level stack ch' s', (level <= List.length stack)%nat -> 0 <= nth level stack 0 ->
    numbers level children stack = (ch', s') -> good level stack (flat_map outer_tables ch') s').
  { clear E HL HZ n' s' stack level. induction IH as [|c l Hc _ IHl]; intros level stack ch' s' HL HZ E; cbn [numbers] in E.
    - injection E as <- <-. split; [exact HL|]. split; [reflexivity|]. split; [cbn; lia|]. intros [|i] a Ha; discriminate.
    - destruct (number level c stack) as [c' s1] eqn:E1. destruct (numbers level l s1) as [r s2] eqn:E2. injection E as <- <-.
      destruct (Hc _ _ _ _ HL HZ E1) as (A1 & A2 & A3 & A4).
      assert (HZ1 : 0 <= nth level s1 0) by lia.
      destruct (IHl _ _ _ _ A1 HZ1 E2) as (B1 & B2 & B3 & B4). cbn [flat_map].
      split; [exact B1|]. split; [congruence|]. split; [rewrite app_length; lia|].
      apply numbered_from_app; [exact A4|]. rewrite <- A2, <- A3. exact B4. }
  rewrite number_elem in E. destruct (String.eqb tag "TBL") eqn:Et.
  - cbv zeta in E. destruct (numbers (S level) children (bump (S level) stack)) as [ch' s1] eqn:E1. injection E as <- <-.
    rewrite (bump_spec _ _ HL) in E1. rewrite (bump_spec _ _ HL).
    assert (Lf : List.length (firstn level stack) = level) by (rewrite firstn_length; lia).
    assert (Ls : List.length (firstn level stack ++ [nth level stack 0 + 1]) = S level) by (rewrite app_length, Lf; cbn; lia).
    destruct (HN _ _ _ _ (eq_ind_r (fun k => (S level <= k)%nat) (le_n _) Ls) ltac:(rewrite nth_overflow; lia) E1) as (A1 & A2 & A3 & A4).
    rewrite outer_elem, Et.
    assert (Ef : firstn (S level) (firstn level stack ++ [nth level stack 0 + 1]) = firstn level stack ++ [nth level stack 0 + 1]) by (apply firstn_all2; lia).
    rewrite Ef in A2, A4.
    split; [lia|]. split; [|split].
    + replace (firstn level s1) with (firstn level (firstn (S level) s1)) by (rewrite firstn_firstn; f_equal; lia).
      rewrite A2. rewrite firstn_app, Lf, Nat.sub_diag, firstn_O, app_nil_r, firstn_firstn. f_equal. lia.
    + replace (nth level s1 0) with (nth level (firstn (S level) s1) 0).
      * rewrite A2, app_nth2, Lf, Nat.sub_diag by lia. reflexivity.
      * rewrite <- (firstn_skipn (S level) s1) at 2. rewrite app_nth1; [reflexivity|]. rewrite firstn_length. lia.
    + intros [|i] a Ha; [|destruct i; discriminate]. injection Ha as <-.
      exists (format04 (nth level stack 0 + 1)). split; [replace (nth level stack 0 + Z.of_nat 0 + 1) with (nth level stack 0 + 1) by lia; apply format04_spec; lia|].
      split; [unfold x_get; cbn [x_attrs]; rewrite dget_dset_same; f_equal; apply text_snoc|].
      rewrite prefix_snoc in A4. unfold tables_in. cbn [x_children]. constructor. intros i b Hb. destruct (A4 _ _ Hb) as (s & Hs).
      exists s. rewrite nth_overflow in Hs by lia. exact Hs.
  - destruct (numbers level children stack) as [ch' s1] eqn:E1. injection E as <- <-. rewrite outer_elem, Et. eapply HN; eassumption.
Qed.
Lemma update_numbered root : numbered "" (outer_tables (update_no_seq root)).
Proof.
  unfold update_no_seq. destruct (number 0 root []) as [n' s'] eqn:E. cbn [fst].
  destruct (number_good root 0 [] n' s' (Nat.le_refl 0) (Z.le_refl 0) E) as (_ & _ & _ & H). constructor. intros i a Ha. exact (H i a Ha).
Qed.

Lemma ddel_dset {V} (d : dict V) k v : ddel (dset d k v) k = ddel d k.
Proof.
  induction d as [|[k' v'] d IH]; cbn [dset ddel]; [rewrite String.eqb_refl; reflexivity|].
  destruct (String.eqb k k') eqn:E; cbn [ddel]; rewrite E; [reflexivity|]. f_equal. exact IH.
Qed.
Lemma number_same n : forall level stack, without_numbers (fst (number level n stack)) = without_numbers n.
Proof.
  induction n as [tag attrs text children tail IH| |] using xnode_ind'; intros level stack; try reflexivity.
  assert (HN : forall level stack, map without_numbers (fst (numbers level children stack)) = map without_numbers children).
  { induction IH as [|c l Hc _ IHl]; intros lv st; [reflexivity|]. cbn [numbers]. specialize (Hc lv st). destruct (number lv c st) as [c' s1].
    specialize (IHl lv s1). destruct (numbers lv l s1) as [r s2]. cbn [fst map] in *. congruence. }
  rewrite number_elem. destruct (String.eqb tag "TBL") eqn:Et.
  - cbv zeta. specialize (HN (S level) (bump (S level) stack)). destruct (numbers (S level) children (bump (S level) stack)) as [ch s1].
    cbn [fst without_numbers] in *. rewrite Et, ddel_dset, HN. reflexivity.
  - specialize (HN level stack). destruct (numbers level children stack) as [ch s1]. cbn [fst without_numbers] in *. rewrite Et, HN. reflexivity.
Qed.

(** ** The numbers are distinct *)

Definition ns_of (a : xnode) : option string := x_get a "NO.SEQ".
Definition apart (prefix : string) (k : Z) (cnt : nat) (l : list xnode) : Prop :=
  NoDup (map ns_of l) /\
  forall b, In b l -> exists i s r, k < i <= k + Z.of_nat cnt /\ four_digits i s /\ tail_ok r /\ ns_of b = Some (prefix ++ s ++ r)%string.
Lemma apart_app prefix k c1 c2 l m : apart prefix k c1 l -> apart prefix (k + Z.of_nat c1) c2 m -> apart prefix k (c1 + c2) (l ++ m).
Proof.
  intros [N1 H1] [N2 H2]. split.
  - rewrite map_app. apply NoDup_app_intro; [exact N1|exact N2|].
    intros x Hx Hy. apply in_map_iff in Hx as (a & <- & Ha). apply in_map_iff in Hy as (b & E & Hb).
    destruct (H1 a Ha) as (i & s & r & Hi & Hs & Hr & Ea). destruct (H2 b Hb) as (j & s' & r' & Hj & Hs' & Hr' & Eb).
    rewrite Ea, Eb in E. injection E as E. apply str_app_inv_head in E. destruct (four_digits_tail _ _ _ _ _ _ Hs' Hs Hr' Hr E) as [-> _]. lia.
  - intros b Hb. apply in_app_iff in Hb as [Hb|Hb].
    + destruct (H1 b Hb) as (i & s & r & Hi & Hrest). exists i, s, r. split; [lia|exact Hrest].
    + destruct (H2 b Hb) as (i & s & r & Hi & Hrest). exists i, s, r. split; [lia|exact Hrest].
Qed.
Lemma numbered_from_split prefix k l m : numbered_from prefix k (l ++ m) ->
  numbered_from prefix k l /\ numbered_from prefix (k + Z.of_nat (List.length l)) m.
Proof.
  intros H. split; intros i a Ha.
  - apply H. rewrite nth_error_app1; [exact Ha|]. apply nth_error_Some. congruence.
  - specialize (H (List.length l + i)%nat a). rewrite nth_error_app2 in H by lia.
    replace (List.length l + i - List.length l)%nat with i in H by lia. destruct (H Ha) as (s & Hs). exists s.
    replace (k + Z.of_nat (List.length l) + Z.of_nat i + 1) with (k + Z.of_nat (List.length l + i) + 1) by lia. exact Hs.
Qed.
Lemma all_elem tag attrs text children tail : all_tables (XElem tag attrs text children tail) =
  if String.eqb tag "TBL" then XElem tag attrs text children tail :: flat_map all_tables children else flat_map all_tables children.
Proof. cbn [all_tables]. unfold is_tbl. cbn [x_has_tag]. rewrite String.eqb_sym. destruct (String.eqb tag "TBL"); reflexivity. Qed.

Lemma numbered_apart n : forall prefix k, numbered_from prefix k (outer_tables n) ->
  apart prefix k (List.length (outer_tables n)) (all_tables n).
Proof.
  induction n as [tag attrs text children tail IH| |] using xnode_ind'; intros prefix k H.
  2,3: split; [constructor|intros b []].
  assert (HL : forall prefix k, numbered_from prefix k (flat_map outer_tables children) ->
    apart prefix k (List.length (flat_map outer_tables children)) (flat_map all_tables children)).
  { clear H prefix k. induction IH as [|c l Hc _ IHl]; intros prefix k H; [split; [constructor|intros b []]|].
    cbn [flat_map] in *. apply numbered_from_split in H as [H1 H2]. rewrite app_length. apply apart_app; [apply Hc, H1|apply IHl, H2]. }
  rewrite outer_elem in H |- *. rewrite all_elem. destruct (String.eqb tag "TBL") eqn:Et; [|apply HL, H].
  set (e := XElem tag attrs text children tail) in *. destruct (H 0%nat e eq_refl) as (s & Hs & Ea & Hn).
  inversion Hn as [? ? Hn' E1 E2]; subst.
  assert (HF : numbered_from (prefix ++ s ++ ".") 0 (flat_map outer_tables children)) by (intros i a Ha; exact (Hn' i a Ha)).
  destruct (HL _ _ HF) as [N HB]. split.
  - cbn [map]. constructor; [|exact N]. intros Hi. apply in_map_iff in Hi as (b & Eb & Hb).
    destruct (HB b Hb) as (i & s' & r & _ & Hs' & _ & E). unfold ns_of in Eb at 2. rewrite Ea, E in Eb. injection Eb as Eb.
    rewrite !str_app_assoc in Eb. apply str_app_inv_head in Eb.
    assert (X : (s ++ "." ++ s' ++ r)%string = (s ++ "")%string) by (rewrite str_app_nil; exact Eb). apply str_app_inv_head in X. discriminate.
  - intros b [<-|Hb].
    + exists (k + Z.of_nat 0 + 1), s, "". cbn [List.length]. split; [lia|]. split; [exact Hs|]. split; [left; reflexivity|].
      rewrite str_app_nil. exact Ea.
    + destruct (HB b Hb) as (i & s' & r & _ & _ & _ & E). exists (k + Z.of_nat 0 + 1), s, ("." ++ s' ++ r)%string. cbn [List.length].
      split; [lia|]. split; [exact Hs|]. split; [right; eexists; reflexivity|]. rewrite E, !str_app_assoc. reflexivity.
Qed.
Lemma numbered_distinct n : numbered "" (outer_tables n) -> NoDup (map ns_of (all_tables n)).
Proof. intros H. inversion H as [? ? H']; subst. apply (numbered_apart n "" 0). intros i a Ha. exact (H' i a Ha). Qed.
