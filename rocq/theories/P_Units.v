(** * Proofs about units *)
From Coq Require Import QArith Qround Qabs Lqa.
From Verif Require Import Base M_Regex M_Units S_Units.
Open Scope Z_scope.

(** ** Digits *)

Lemma digit_table c d : In (c, d) digits <-> is_digit c = true /\ digit_value c = d.
Proof.
  split.
  - intros H. cbn in H. repeat (destruct H as [H|H]; [injection H as <- <-; vm_compute; auto|]). destruct H.
  - intros [H <-]. destruct c as [[] [] [] [] [] [] [] []]; try discriminate H; vm_compute; tauto.
Qed.
Lemma digit_spec c : digit c <-> is_digit c = true.
Proof.
  unfold digit. rewrite in_map_iff. split.
  - intros ([c' d] & <- & H). apply digit_table in H. apply H.
  - intros H. exists (c, digit_value c). split; [reflexivity|]. apply digit_table. auto.
Qed.

Lemma int_of_app l : forall n,
  fold_left (fun n c => 10 * n + digit_value c) l n = n * 10 ^ Z.of_nat (List.length l) + int_of_digits l.
Proof.
  unfold int_of_digits. induction l as [|c l IH]; intros n; cbn [fold_left List.length]; [cbn; lia|].
  rewrite IH, (IH (10 * 0 + digit_value c)). rewrite Nat2Z.inj_succ, Z.pow_succ_r by lia. ring.
Qed.
Lemma int_of_digits_app a b :
  int_of_digits (a ++ b) = int_of_digits a * 10 ^ Z.of_nat (List.length b) + int_of_digits b.
Proof. unfold int_of_digits at 1. rewrite fold_left_app. apply int_of_app. Qed.
Lemma digits_value_spec l n : digits_value l n <-> forallb is_digit l = true /\ int_of_digits l = n.
Proof.
  split.
  - induction 1 as [|c d l n Hd Hl IH]; [auto|]. apply digit_table in Hd as [Hd <-]. destruct IH as [IH <-].
    cbn. rewrite Hd. split; [exact IH|]. unfold int_of_digits at 1. cbn [fold_left]. rewrite int_of_app.
    f_equal.
  - intros [H <-]. induction l as [|c l IH]; [constructor|]. cbn in H. apply andb_true_iff in H as [H1 H2].
    replace (int_of_digits (c :: l)) with (digit_value c * 10 ^ Z.of_nat (List.length l) + int_of_digits l).
    + constructor; [apply digit_table; auto | apply IH, H2].
    + unfold int_of_digits at 2. cbn [fold_left]. rewrite int_of_app. reflexivity.
Qed.

(** ** Matching *)

Fixpoint span (p : ascii -> bool) (s : list ascii) : list ascii * list ascii :=
  match s with
  | [] => ([], [])
  | c :: s' => if p c then (c :: fst (span p s'), snd (span p s')) else ([], s)
  end.

Lemma span_split p s : s = fst (span p s) ++ snd (span p s).
Proof. induction s as [|c s IH]; [reflexivity|]. cbn. destruct (p c); cbn; congruence. Qed.
Lemma span_all p s : forallb p (fst (span p s)) = true.
Proof. induction s as [|c s IH]; [reflexivity|]. cbn. destruct (p c) eqn:E; cbn; rewrite ?E; auto. Qed.
Lemma span_stop p s c r : snd (span p s) = c :: r -> p c = false.
Proof.
  induction s as [|d s IH]; cbn; [discriminate|]. destruct (p d) eqn:E; cbn; [exact IH|].
  intros [= <- <-]. exact E.
Qed.
Lemma span_app p a b : forallb p a = true -> span p (a ++ b) = (a ++ fst (span p b), snd (span p b)).
Proof.
  induction a as [|c a IH]; cbn; [destruct (span p b); reflexivity|]. intros H. apply andb_true_iff in H as [H1 H2].
  rewrite H1, (IH H2). reflexivity.
Qed.

Lemma star_span p s : exists l,
  star p s = (fst (span p s), [], snd (span p s)) :: l /\
  Forall (fun w : way => exists c r, snd w = c :: r /\ p c = true) l.
Proof.
  induction s as [|c s IH]; cbn; [exists []; auto|]. destruct (p c) eqn:E.
  - destruct IH as (l & E' & H). rewrite E'. cbn. eexists. split; [reflexivity|]. apply Forall_app. split.
    + rewrite Forall_map. eapply Forall_impl; [|exact H]. intros w Hw. exact Hw.
    + constructor; [|constructor]. cbn. eauto.
  - exists []. auto.
Qed.

Definition digits_dot (s : list ascii) : list way :=
  match snd (span is_digit s) with
  | c :: r => if Ascii.eqb c "."%char then [(fst (span is_digit s) ++ ["."%char], [], r)] else []
  | [] => []
  end.

Lemma ms_digits_dot s : ms (RSeq (RStar is_digit) (RChar (is_char "."%char))) s = digits_dot s.
Proof.
  change (ms (RSeq (RStar is_digit) (RChar (is_char "."%char))) s) with
    (flat_map (fun w : way => map (fun w' : way => (fst (fst w) ++ fst (fst w'), snd (fst w) ++ snd (fst w'), snd w'))
       (ms (RChar (is_char "."%char)) (snd w))) (star is_digit s)).
  destruct (star_span is_digit s) as (l & E & H). rewrite E.
  assert (Hl : flat_map (fun w : way => map (fun w' : way => (fst (fst w) ++ fst (fst w'), snd (fst w) ++ snd (fst w'), snd w'))
     (ms (RChar (is_char "."%char)) (snd w))) l = []).
  { clear E. induction H as [|w l (c & r & Ew & Hc) Hl IH]; [reflexivity|]. cbn [flat_map]. rewrite IH, Ew.
    assert (E : is_char "."%char c = false).
    { unfold is_char. apply Ascii.eqb_neq. intros <-. discriminate. }
    cbn [ms]. rewrite E. reflexivity. }
  match goal with |- flat_map ?f (?a :: l) = _ => change (f a ++ flat_map f l = digits_dot s) end.
  rewrite Hl, app_nil_r. cbn [fst snd ms]. unfold digits_dot. destruct (snd (span is_digit s)) as [|c r]; [reflexivity|].
  unfold is_char. rewrite Ascii.eqb_sym. destruct (Ascii.eqb c "."%char) eqn:Ec; [|reflexivity].
  apply Ascii.eqb_eq in Ec as ->. reflexivity.
Qed.

Lemma hd_flat_map {A B} (f : A -> list B) x l :
  hd_error (flat_map f (x :: l)) = match hd_error (f x) with Some y => Some y | None => hd_error (flat_map f l) end.
Proof. cbn. destruct (f x); reflexivity. Qed.
Lemma hd_map {A B} (f : A -> B) l : hd_error (map f l) = option_map f (hd_error l).
Proof. destruct l; reflexivity. Qed.

(** digits, at least one *)
Definition digits1 (s : list ascii) : option (list ascii * list ascii) :=
  match fst (span is_digit s) with [] => None | ds => Some (ds, snd (span is_digit s)) end.

Lemma ms_plus s : hd_error (ms (RPlus is_digit) s) = option_map (fun nr => (fst nr, [], snd nr)) (digits1 s).
Proof.
  unfold digits1. destruct s as [|c s]; [reflexivity|]. cbn. destruct (is_digit c); [|reflexivity].
  cbn. destruct (star_span is_digit s) as (l & E & _). rewrite E. reflexivity.
Qed.

(** The body of a numeral, in closed form *)
Definition body (s : list ascii) : option (list ascii * list ascii) :=
  let plain := digits1 s in
  match snd (span is_digit s) with
  | c :: r =>
      if Ascii.eqb c "."%char then
        match digits1 r with
        | Some (fs, r') => Some (fst (span is_digit s) ++ "."%char :: fs, r')
        | None => plain
        end
      else plain
  | [] => plain
  end.

Definition as_way (o : option (list ascii * list ascii)) : option way :=
  option_map (fun nr => (fst nr, [], snd nr)) o.

Lemma ms_body s :
  hd_error (ms (RSeq (ROpt (RSeq (RStar is_digit) (RChar (is_char "."%char)))) (RPlus is_digit)) s) = as_way (body s).
Proof.
  change (ms (RSeq (ROpt (RSeq (RStar is_digit) (RChar (is_char "."%char)))) (RPlus is_digit)) s)
    with (flat_map (fun w : way => map (fun w' : way => (fst (fst w) ++ fst (fst w'), snd (fst w) ++ snd (fst w'), snd w'))
           (ms (RPlus is_digit) (snd w)))
           (ms (RSeq (RStar is_digit) (RChar (is_char "."%char))) s ++ [([], [], s)])).
  rewrite ms_digits_dot. unfold body, digits_dot.
  assert (Hp : hd_error (flat_map (fun w : way => map (fun w' : way => (fst (fst w) ++ fst (fst w'), snd (fst w) ++ snd (fst w'), snd w'))
           (ms (RPlus is_digit) (snd w))) [([], [], s)]) = as_way (digits1 s)).
  { rewrite hd_flat_map, hd_map. cbn [fst snd app]. rewrite ms_plus. destruct (digits1 s) as [[a b]|]; reflexivity. }
  destruct (snd (span is_digit s)) as [|c r]; [exact Hp|].
  destruct (Ascii.eqb c "."%char); [|exact Hp].
  cbn [app]. rewrite hd_flat_map, hd_map. cbn [fst snd]. rewrite ms_plus.
  destruct (digits1 r) as [[a b]|]; [|exact Hp]. cbn. rewrite <- app_assoc. reflexivity.
Qed.

Definition number_at (s : list ascii) : option (list ascii * list ascii) :=
  match s with
  | c :: r => if is_sign c then option_map (fun nr => (c :: fst nr, snd nr)) (body r) else body s
  | [] => body s
  end.

Lemma sign_not_digit c : is_sign c = true -> is_digit c = false /\ Ascii.eqb c "."%char = false.
Proof. unfold is_sign. intros H. apply orb_true_iff in H as [H|H]; apply Ascii.eqb_eq in H as ->; auto. Qed.

Lemma body_sign c r : is_sign c = true -> body (c :: r) = None.
Proof.
  intros H. apply sign_not_digit in H as [H1 H2]. unfold body, digits1. cbn [span]. rewrite H1. cbn [fst snd]. rewrite H2. reflexivity.
Qed.

Lemma ms_number s : hd_error (ms number_re s) = as_way (number_at s).
Proof.
  unfold number_re.
  set (b := RSeq (ROpt (RSeq (RStar is_digit) (RChar (is_char "."%char)))) (RPlus is_digit)).
  change (ms (RSeq (ROpt (RChar is_sign)) b) s)
    with (flat_map (fun w : way => map (fun w' : way => (fst (fst w) ++ fst (fst w'), snd (fst w) ++ snd (fst w'), snd w')) (ms b (snd w)))
           (ms (RChar is_sign) s ++ [([], [], s)])).
  assert (Hp : forall s, hd_error (flat_map (fun w : way => map (fun w' : way => (fst (fst w) ++ fst (fst w'), snd (fst w) ++ snd (fst w'), snd w')) (ms b (snd w)))
           [([], [], s)]) = as_way (body s)).
  { intros s0. rewrite hd_flat_map, hd_map. cbn [fst snd app]. unfold b. rewrite ms_body. destruct (body s0) as [[x y]|]; reflexivity. }
  destruct s as [|c r]; [apply Hp|]. unfold number_at. cbn [ms]. destruct (is_sign c) eqn:E; [|apply Hp].
  cbn [app]. rewrite hd_flat_map, hd_map. cbn [fst snd]. unfold b at 1. rewrite ms_body.
  destruct (body r) as [[x y]|]; [reflexivity|]. cbn [option_map as_way]. rewrite Hp, body_sign by exact E. reflexivity.
Qed.

Definition unit_at (s : list ascii) : option way := hd_error (ms unit_re s).

Lemma hd_app {A} (l m : list A) : hd_error (l ++ m) = match hd_error l with Some x => Some x | None => hd_error m end.
Proof. destruct l; reflexivity. Qed.

Lemma ms_lit s : forall t w, In w (ms (RLit s) t) <-> (t = list_ascii_of_string s ++ snd w /\ fst w = (list_ascii_of_string s, [])).
Proof.
  unfold RLit. induction (list_ascii_of_string s) as [|c l IH]; intros t w; cbn [fold_right].
  - cbn. split.
    + intros [<-|[]]. auto.
    + intros [-> E]. left. destruct w as [[a b] r]. cbn in *. congruence.
  - cbn [ms]. destruct t as [|d t]; cbn.
    + split; [intros []|]. intros [E _]. discriminate.
    + unfold is_char. destruct (Ascii.eqb c d) eqn:E.
      * apply Ascii.eqb_eq in E as ->. cbn. rewrite app_nil_r, in_map_iff. split.
        -- intros (w' & <- & Hw). apply IH in Hw as [-> Ew]. cbn. rewrite Ew. auto.
        -- intros [Et Ew]. injection Et as ->. exists (l, [], snd w). split.
           ++ cbn. destruct w as [[a b] r]. cbn in *. congruence.
           ++ apply IH. auto.
      * cbn. split; [intros []|]. intros [E' _]. injection E' as ->. rewrite Ascii.eqb_refl in E. discriminate.
Qed.

Lemma ms_unit t w : In w (ms unit_re t) <->
  exists u, In u unit_names /\ t = list_ascii_of_string u ++ snd w /\ fst w = (list_ascii_of_string u, []).
Proof.
  unfold unit_re. cbn [ms]. rewrite !in_app_iff, !ms_lit. unfold unit_names. cbn [In]. split.
  - intros H. repeat (destruct H as [H|H]; [eexists; split; [|exact H]; tauto|]). eexists; split; [|exact H]; tauto.
  - intros (u & H & Hw). repeat (destruct H as [<-|H]; [tauto|]). destruct H.
Qed.

Lemma unit_at_some t w : unit_at t = Some w ->
  longest is_unit (fst (fst w)) t /\ snd (fst w) = [].
Proof.
  intros H. assert (Hw : In w (ms unit_re t)).
  { unfold unit_at in H. destruct (ms unit_re t); [discriminate|]. injection H as ->. left. reflexivity. }
  pose proof Hw as Hw0. apply ms_unit in Hw as (u & Hu & Et & Ew). rewrite Ew. cbn [fst snd]. split; [|reflexivity]. split; [|split].
  - unfold is_unit. rewrite string_of_list_ascii_of_string. exact Hu.
  - exists (snd w). exact Et.
  - intros q Hq (r & Er). unfold is_unit in Hq.
    assert (Eq : q = list_ascii_of_string (string_of_list_ascii q)) by (symmetry; apply list_ascii_of_string_of_list_ascii).
    rewrite Eq. revert Er. rewrite Eq at 1. intros Er. clear Eq. revert Hq Er. generalize (string_of_list_ascii q). intros v Hv Er.
    (* the only unit which is a strict prefix of another one is m *)
    destruct (Nat.le_gt_cases (List.length (list_ascii_of_string v)) (List.length (list_ascii_of_string u))) as [L|L]; [exact L|exfalso].
    assert (Hmm : v = "mm"%string).
    { rewrite Er in Et. clear - Hv Hu Et L. unfold unit_names in *. cbn [In] in Hu, Hv.
      repeat (destruct Hu as [<-|Hu]; [cbn in L;
        repeat (destruct Hv as [<-|Hv]; [cbn in L, Et; first [lia | discriminate | reflexivity]|]); destruct Hv|]). destruct Hu. }
    subst v. rewrite Er in H. cbn in H. injection H as <-. cbn in Ew.
    injection Ew as Ew. apply (f_equal (@List.length ascii)) in Ew. cbn in Ew, L. rewrite <- Ew in L. cbn in L. lia.
Qed.

Lemma unit_at_none t : unit_at t = None -> forall v, is_unit v -> ~ prefix_of v t.
Proof.
  intros H v Hv (r & Er). unfold unit_at in H. destruct (ms unit_re t) as [|w l] eqn:E; [|discriminate].
  assert (Hin : In (v, [], r) (ms unit_re t)).
  { apply ms_unit. exists (string_of_list_ascii v). rewrite list_ascii_of_string_of_list_ascii. auto. }
  rewrite E in Hin. destruct Hin.
Qed.

(** The whole expression *)
Definition width_at (s : list ascii) : option (list ascii * list ascii * list ascii) :=
  match number_at s with
  | None => None
  | Some (n, r) => match unit_at r with
                   | Some w => Some (n, fst (fst w), snd w)
                   | None => Some (n, [], r)
                   end
  end.

Lemma ms_width s :
  re_match width_re s =
  match number_at s with
  | None => None
  | Some (n, r) => match unit_at r with
                   | Some w => Some (n ++ fst (fst w), [(1%nat, n); (2%nat, fst (fst w))], snd w)
                   | None => Some (n ++ [], [(1%nat, n)], r)
                   end
  end.
Proof.
  unfold re_match, width_re. 
  change (ms (RSeq (RGroup 1 number_re) (ROpt (RGroup 2 unit_re))) s)
    with (flat_map (fun w : way => map (fun w' : way => (fst (fst w) ++ fst (fst w'), snd (fst w) ++ snd (fst w'), snd w'))
            (map (fun w : way => (fst (fst w), (2%nat, fst (fst w)) :: snd (fst w), snd w)) (ms unit_re (snd w)) ++ [([], [], snd w)]))
            (map (fun w : way => (fst (fst w), (1%nat, fst (fst w)) :: snd (fst w), snd w)) (ms number_re s))).
  pose proof (ms_number s) as Hn. destruct (ms number_re s) as [|w l].
  - cbn in Hn. destruct (number_at s) as [[n r]|]; [discriminate|]. reflexivity.
  - cbn in Hn. destruct (number_at s) as [[n r]|]; [|discriminate]. injection Hn as ->.
    cbn [map fst snd]. rewrite hd_flat_map, hd_map, hd_app, hd_map. cbn [fst snd].
    change (hd_error (ms unit_re r)) with (unit_at r). destruct (unit_at r) as [w|] eqn:E; [|reflexivity].
    cbn. apply unit_at_some in E as [_ E]. rewrite E. reflexivity.
Qed.

Lemma re_first_cons r c s : re_first r (c :: s) = match re_match r (c :: s) with Some w => Some w | None => re_first r s end.
Proof. reflexivity. Qed.

(** ** Numerals *)

Lemma span_longest p a b : forallb p a = true -> (List.length a <= List.length (fst (span p (a ++ b))))%nat.
Proof. intros H. rewrite (span_app p a b H). cbn. rewrite app_length. lia. Qed.

Lemma digits1_some s a b : digits1 s = Some (a, b) -> s = a ++ b /\ a <> [] /\ forallb is_digit a = true /\ fst (span is_digit s) = a.
Proof.
  unfold digits1. pose proof (span_split is_digit s) as H1. pose proof (span_all is_digit s) as H2.
  destruct (fst (span is_digit s)) as [|c l] eqn:E; [discriminate|]. intros [= <- <-]. split; [exact H1|]. split; [discriminate|]. auto.
Qed.
Lemma digits1_none s : digits1 s = None -> fst (span is_digit s) = [].
Proof. unfold digits1. destruct (fst (span is_digit s)); [reflexivity|discriminate]. Qed.

(** the unsigned numerals *)
Definition unsigned (s : list ascii) : Prop :=
  (s <> [] /\ forallb is_digit s = true) \/
  (exists ip fp, s = ip ++ "."%char :: fp /\ fp <> [] /\ forallb is_digit ip = true /\ forallb is_digit fp = true).

Lemma unsigned_prefix q r :
  unsigned q -> exists n r', body (q ++ r) = Some (n, r') /\ (List.length q <= List.length n)%nat.
Proof.
  intros [[Hne Hd]|(ip & fp & -> & Hne & Hi & Hf)].
  - assert (L := span_longest is_digit q r Hd).
    assert (Hs : exists d r0, digits1 (q ++ r) = Some (d, r0) /\ d = fst (span is_digit (q ++ r))).
    { unfold digits1. destruct (fst (span is_digit (q ++ r))); [destruct q; [congruence|cbn in L; lia]|]. eauto. }
    destruct Hs as (d & r0 & Hs & ->). unfold body.
    destruct (snd (span is_digit (q ++ r))) as [|c r1].
    + rewrite Hs. eauto.
    + destruct (Ascii.eqb c "."%char).
      * destruct (digits1 r1) as [[fs r2]|].
        -- eexists _, _. split; [reflexivity|]. rewrite app_length. lia.
        -- rewrite Hs. eauto.
      * rewrite Hs. eauto.
  - unfold body. rewrite <- app_assoc. rewrite span_app by exact Hi. cbn [span app fst snd].
    change (is_digit "."%char) with false. cbn [fst snd]. cbn [Ascii.eqb Bool.eqb]. rewrite app_nil_r.
    assert (L := span_longest is_digit fp r Hf). unfold digits1.
    destruct (fst (span is_digit (fp ++ r))) as [|c l] eqn:E; [destruct fp; [congruence|cbn in L; lia]|].
    eexists _, _. split; [reflexivity|]. rewrite !app_length. cbn [List.length] in *. lia.
Qed.

Lemma body_unsigned s n r : body s = Some (n, r) -> s = n ++ r /\ unsigned n.
Proof.
  unfold body. pose proof (span_split is_digit s) as H1. pose proof (span_all is_digit s) as H2.
  assert (Hp : digits1 s = Some (n, r) -> s = n ++ r /\ unsigned n).
  { intros H. apply digits1_some in H as (A & B & C & _). split; [exact A|]. left. auto. }
  destruct (snd (span is_digit s)) as [|c r1]; [exact Hp|]. destruct (Ascii.eqb c "."%char) eqn:E; [|exact Hp].
  apply Ascii.eqb_eq in E as ->. destruct (digits1 r1) as [[fs r2]|] eqn:E; [|exact Hp].
  intros [= <- <-]. apply digits1_some in E as (A & B & C & _). split.
  - rewrite <- app_assoc. cbn. rewrite <- A. exact H1.
  - right. eexists _, fs. auto.
Qed.

(** the value of an unsigned numeral *)
Lemma split_dot_digits a : forallb is_digit a = true -> split_dot a = (a, []).
Proof.
  induction a as [|c a IH]; cbn; [reflexivity|]. intros H. apply andb_true_iff in H as [H1 H2].
  assert (E : Ascii.eqb c "."%char = false) by (apply Ascii.eqb_neq; intros ->; discriminate).
  rewrite E, (IH H2). reflexivity.
Qed.
Lemma split_dot_point a b : forallb is_digit a = true -> split_dot (a ++ "."%char :: b) = (a, b).
Proof.
  induction a as [|c a IH]; cbn; [reflexivity|]. intros H. apply andb_true_iff in H as [H1 H2].
  assert (E : Ascii.eqb c "."%char = false) by (apply Ascii.eqb_neq; intros ->; discriminate).
  rewrite E, (IH H2). reflexivity.
Qed.

Lemma digit_not_sign c : is_digit c = true -> is_sign c = false.
Proof. intros H. destruct (is_sign c) eqn:E; [|reflexivity]. apply sign_not_digit in E as [E _]. congruence. Qed.

Lemma unsigned_first q c r : unsigned q -> q = c :: r -> is_sign c = false.
Proof.
  intros [[_ H]|(ip & fp & E & _ & H & _)] ->.
  - cbn in H. apply andb_true_iff in H as [H _]. apply digit_not_sign, H.
  - destruct ip as [|d ip]; cbn in E; injection E as -> ->; [reflexivity|]. cbn in H. apply andb_true_iff in H as [H _].
    apply digit_not_sign, H.
Qed.

Lemma unsigned_no_sign q : unsigned q -> not_sign q = q /\ negative q = false.
Proof.
  intros H. destruct q as [|c r]; [auto|]. pose proof (unsigned_first _ _ _ H eq_refl) as E. cbn. rewrite E.
  split; [reflexivity|]. unfold is_sign in E. apply orb_false_iff in E as [_ E]. exact E.
Qed.

Lemma pow10_pos n : 0 < 10 ^ Z.of_nat n.
Proof. apply Z.pow_pos_nonneg; lia. Qed.

Lemma signed_float sg s u :
  sign_of sg s -> unsigned u -> not_sign (sg ++ u) = u /\ (if negative (sg ++ u) then -1 else 1) = s.
Proof.
  intros H Hu. destruct H; cbn [app].
  - destruct (unsigned_no_sign u Hu) as [-> ->]. auto.
  - auto.
  - auto.
Qed.

Lemma numeral_float n q : numeral n q -> (py_float n == q)%Q.
Proof.
  intros H. destruct H as [sg s ds n Hs Hne Hd|sg s ip fp m n Hs Hne Hi Hf].
  - apply digits_value_spec in Hd as [Hd <-].
    destruct (signed_float sg s ds Hs (or_introl (conj Hne Hd))) as [E1 E2].
    unfold py_float. rewrite E1, (split_dot_digits ds Hd), app_nil_r. cbn [List.length Z.of_nat].
    unfold Qeq. cbn. rewrite <- E2. destruct (negative (sg ++ ds)); lia.
  - apply digits_value_spec in Hi as [Hi <-]. apply digits_value_spec in Hf as [Hf <-].
    assert (Hu : unsigned (ip ++ "."%char :: fp)) by (right; exists ip, fp; auto).
    destruct (signed_float sg s _ Hs Hu) as [E1 E2].
    unfold py_float. rewrite E1, (split_dot_point ip fp Hi), int_of_digits_app. rewrite <- E2.
    set (P := 10 ^ Z.of_nat (List.length fp)). assert (HP : 0 < P) by apply pow10_pos.
    rewrite (Qmake_Qdiv _ (Z.to_pos P)). rewrite Z2Pos.id by exact HP.
    assert (HQ : ~ (inject_Z P == 0)%Q) by (unfold Qeq; cbn; lia).
    destruct (negative _).
    + rewrite inject_Z_opp, inject_Z_plus, inject_Z_mult. change (inject_Z (-1)) with (- (1))%Q. field. exact HQ.
    + rewrite inject_Z_plus, inject_Z_mult. change (inject_Z 1) with 1%Q. field. exact HQ.
Qed.

Lemma unsigned_numeral sg s u : sign_of sg s -> unsigned u -> is_numeral (sg ++ u).
Proof.
  intros Hs [[Hne Hd]|(ip & fp & -> & Hne & Hi & Hf)].
  - exists (inject_Z (s * int_of_digits u)). constructor; auto. apply digits_value_spec. auto.
  - eexists. apply (num_dec sg s ip fp (int_of_digits ip) (int_of_digits fp)); auto; apply digits_value_spec; auto.
Qed.
Lemma numeral_unsigned n : is_numeral n -> exists sg s u, n = sg ++ u /\ sign_of sg s /\ unsigned u.
Proof.
  intros [q H]. destruct H as [sg s ds n Hs Hne Hd|sg s ip fp m n Hs Hne Hi Hf].
  - apply digits_value_spec in Hd as [Hd _]. exists sg, s, ds. split; [reflexivity|]. split; [exact Hs|]. left. auto.
  - apply digits_value_spec in Hi as [Hi _]. apply digits_value_spec in Hf as [Hf _].
    exists sg, s, (ip ++ "."%char :: fp). split; [reflexivity|]. split; [exact Hs|]. right. exists ip, fp. auto.
Qed.

Lemma sign_char c : is_sign c = true -> exists s, sign_of [c] s.
Proof. unfold is_sign. intros H. apply orb_true_iff in H as [H|H]; apply Ascii.eqb_eq in H as ->; eexists; constructor. Qed.

Lemma number_at_some s n r : number_at s = Some (n, r) -> s = n ++ r /\ is_numeral n.
Proof.
  unfold number_at. destruct s as [|c t]; [discriminate|]. destruct (is_sign c) eqn:E.
  - destruct (body t) as [[u r']|] eqn:Eb; [|discriminate]. cbn. intros [= <- <-].
    apply body_unsigned in Eb as [-> Hu]. split; [reflexivity|]. destruct (sign_char c E) as [z Hz].
    apply (unsigned_numeral [c] z u Hz Hu).
  - intros Eb. apply body_unsigned in Eb as [-> Hu]. split; [reflexivity|]. apply (unsigned_numeral [] 1 n sg_none Hu).
Qed.

Lemma number_at_longest s q : is_numeral q -> prefix_of q s ->
  exists n r, number_at s = Some (n, r) /\ (List.length q <= List.length n)%nat.
Proof.
  intros Hq (r & ->). apply numeral_unsigned in Hq as (sg & z & u & -> & Hs & Hu).
  destruct (unsigned_prefix u r Hu) as (n & r' & Eb & L).
  assert (Hnil : sg = [] -> exists n r', number_at (u ++ r) = Some (n, r') /\ (List.length u <= List.length n)%nat).
  { intros _. unfold number_at. destruct u as [|c u].
    - exfalso. destruct Hu as [[Hu _]|(ip & fp & E & _)]; [congruence|]. destruct ip; discriminate.
    - cbn [app]. rewrite (unsigned_first _ _ _ Hu eq_refl). exists n, r'. auto. }
  destruct Hs; cbn [app].
  - apply Hnil. reflexivity.
  - unfold number_at. change (is_sign "+"%char) with true. cbv beta iota. rewrite Eb. cbn. eexists _, _. split; [reflexivity|]. cbn. lia.
  - unfold number_at. change (is_sign "-"%char) with true. cbv beta iota. rewrite Eb. cbn. eexists _, _. split; [reflexivity|]. cbn. lia.
Qed.

Lemma number_at_spec s :
  match number_at s with
  | Some (n, r) => s = n ++ r /\ longest is_numeral n s
  | None => forall q, is_numeral q -> ~ prefix_of q s
  end.
Proof.
  destruct (number_at s) as [[n r]|] eqn:E.
  - destruct (number_at_some s n r E) as [E1 E2]. split; [exact E1|]. split; [exact E2|]. split; [exists r; exact E1|].
    intros q Hq Hp. destruct (number_at_longest s q Hq Hp) as (n' & r' & E' & L). rewrite E in E'. injection E' as <- <-. exact L.
  - intros q Hq Hp. destruct (number_at_longest s q Hq Hp) as (n' & r' & E' & L). congruence.
Qed.

(** ** The first place *)

Lemma re_first_spec s :
  match re_first width_re s with
  | Some w => exists pre b, s = pre ++ b /\ re_match width_re b = Some w /\
                forall a b', s = a ++ b' -> number_at b' <> None -> (List.length pre <= List.length a)%nat
  | None => forall a b, s = a ++ b -> number_at b = None
  end.
Proof.
  assert (Hm : forall t, re_match width_re t = None <-> number_at t = None).
  { intros t. rewrite ms_width. destruct (number_at t) as [[n r]|]; [|tauto]. destruct (unit_at r); split; discriminate. }
  induction s as [|c s IH].
  - cbn [re_first]. destruct (re_match width_re []) as [w|] eqn:E.
    + exists [], []. split; [reflexivity|]. split; [exact E|]. cbn. intros; lia.
    + intros a b H. symmetry in H. apply app_eq_nil in H as [-> ->]. apply Hm, E.
  - rewrite re_first_cons. destruct (re_match width_re (c :: s)) as [w|] eqn:E.
    + exists [], (c :: s). split; [reflexivity|]. split; [exact E|]. cbn. intros; lia.
    + destruct (re_first width_re s) as [w|].
      * destruct IH as (pre & b & -> & Eb & Hf). exists (c :: pre), b. split; [reflexivity|]. split; [exact Eb|].
        intros a b' Ea Hn. destruct a as [|d a]; [exfalso; cbn in Ea; subst b'; apply Hn, Hm, E|].
        injection Ea as -> Ea. cbn. apply le_n_S, (Hf a b' Ea Hn).
      * intros a b Ea. destruct a as [|d a]; [cbn in Ea; subst b; apply Hm, E|].
        injection Ea as -> Ea. apply (IH a b Ea).
Qed.

Lemma longest_unique P p q s : longest P p s -> longest P q s -> p = q.
Proof.
  intros (Hp & (r & Ep) & Lp) (Hq & (t & Eq) & Lq).
  assert (L : List.length p = List.length q).
  { apply Nat.le_antisymm; [apply Lq; [exact Hp|exists r; exact Ep] | apply Lp; [exact Hq|exists t; exact Eq]]. }
  rewrite Ep in Eq. assert (E := f_equal (firstn (List.length p)) Eq).
  rewrite firstn_app, firstn_all, Nat.sub_diag in E. cbn in E. rewrite app_nil_r in E. rewrite L, firstn_app, firstn_all, Nat.sub_diag in E.
  cbn in E. rewrite app_nil_r in E. exact E.
Qed.

Lemma reads_width_unique s n u n' u' : reads_width s n u -> reads_width s n' u' -> n = n' /\ u = u'.
Proof.
  intros (pre & rest & E & L & F & U) (pre' & rest' & E' & L' & F' & U').
  assert (Lp : List.length pre = List.length pre').
  { apply Nat.le_antisymm.
    - apply (F pre' (n' ++ rest') E'). exists n'. split; [apply L'|]. exists rest'. reflexivity.
    - apply (F' pre (n ++ rest) E). exists n. split; [apply L|]. exists rest. reflexivity. }
  assert (Es : n ++ rest = n' ++ rest').
  { rewrite E in E'. assert (Ek := f_equal (skipn (List.length pre)) E').
    rewrite skipn_app, skipn_all, Nat.sub_diag in Ek. cbn in Ek.
    rewrite Lp, skipn_app, skipn_all, Nat.sub_diag in Ek. exact Ek. }
  rewrite Es in L. pose proof (longest_unique _ _ _ _ L L') as ->. apply app_inv_head in Es as <-. split; [reflexivity|].
  destruct U as [U|[-> U]], U' as [U'|[-> U']].
  - apply (longest_unique _ _ _ _ U U').
  - exfalso. apply (U' u); apply U.
  - exfalso. apply (U u'); apply U'.
  - reflexivity.
Qed.

Lemma unit_not_empty u : is_unit u -> u <> [].
Proof. intros H ->. cbv in H. repeat (destruct H as [H|H]; [discriminate|]). exact H. Qed.

Definition unit_or (u : list ascii) (d : string) : string :=
  match u with [] => d | _ => string_of_list_ascii u end.

Lemma string_list_nonempty u : u <> [] -> String.eqb (string_of_list_ascii u) "" = false.
Proof. destruct u; [congruence|reflexivity]. Qed.

Lemma parse_width_spec s d :
  match parse_width s d with
  | Ok (v, unit) => exists num u, reads_width (list_ascii_of_string s) num u /\
       (forall q, numeral num q -> (v == q)%Q) /\ unit = unit_or u d
  | Err e => e = EIndexError /\ forall c, In c (list_ascii_of_string s) -> ~ digit c
  end.
Proof.
  unfold parse_width. pose proof (re_first_spec (list_ascii_of_string s)) as H.
  destruct (re_first width_re (list_ascii_of_string s)) as [w|].
  - destruct H as (pre & b & E & Em & F). rewrite ms_width in Em.
    pose proof (number_at_spec b) as Hn. destruct (number_at b) as [[num r]|]; [|discriminate].
    destruct Hn as [Eb Hl].
    assert (HF : forall a b', list_ascii_of_string s = a ++ b' -> (exists q, is_numeral q /\ prefix_of q b') ->
      (List.length pre <= List.length a)%nat).
    { intros a b' Ea (q & Hq & Hp). apply (F a b' Ea). pose proof (number_at_spec b') as Hb.
      destruct (number_at b'); [discriminate|]. exfalso. apply (Hb q Hq Hp). }
    rewrite Eb in E. rewrite Eb in Hl.
    destruct (unit_at r) as [w'|] eqn:Eu; injection Em as <-; cbn [group find fst snd Nat.eqb].
    + apply unit_at_some in Eu as [Hu _]. exists num, (fst (fst w')). split; [|split].
      * exists pre, r. split; [exact E|]. split; [exact Hl|]. split; [exact HF|]. left. exact Hu.
      * intros q Hq. apply numeral_float, Hq.
      * assert (Hne := unit_not_empty _ (proj1 Hu)). rewrite string_list_nonempty by exact Hne.
        unfold unit_or. destruct (fst (fst w')); [congruence|reflexivity].
    + pose proof (unit_at_none r Eu) as Hu. exists num, []. split; [|split].
      * exists pre, r. split; [exact E|]. split; [exact Hl|]. split; [exact HF|]. right. auto.
      * intros q Hq. apply numeral_float, Hq.
      * reflexivity.
  - split; [reflexivity|]. intros c Hc Hd. apply in_split in Hc as (a & b & E).
    pose proof (number_at_spec (c :: b)) as Hn. rewrite (H a (c :: b) E) in Hn.
    apply (Hn [c]).
    + apply (unsigned_numeral [] 1 [c] sg_none). left. split; [discriminate|]. cbn. apply digit_spec in Hd. rewrite Hd. reflexivity.
    + exists b. reflexivity.
Qed.

Lemma numeral_has_digit n : is_numeral n -> exists c, In c n /\ digit c.
Proof.
  intros H. apply numeral_unsigned in H as (sg & s & u & -> & _ & Hu).
  assert (G : forall l, l <> [] -> forallb is_digit l = true -> exists c, In c l /\ digit c).
  { intros [|c l] Hne Hd; [congruence|]. exists c. split; [left; reflexivity|]. cbn in Hd. apply andb_true_iff in Hd as [Hd _].
    apply digit_spec, Hd. }
  destruct Hu as [[Hne Hd]|(ip & fp & -> & Hne & _ & Hf)].
  - destruct (G u Hne Hd) as (c & Hc & Hd'). exists c. split; [apply in_app_iff; auto|exact Hd'].
  - destruct (G fp Hne Hf) as (c & Hc & Hd'). exists c. split; [|exact Hd']. rewrite !in_app_iff. cbn. auto.
Qed.

(** ** Rounding *)

Lemma round_even_near q : (Qabs (inject_Z (round_even q) - q) <= 1 # 2)%Q.
Proof.
  unfold round_even. cbv zeta. pose proof (Qfloor_le q) as H1. pose proof (Qlt_floor q) as H2.
  rewrite inject_Z_plus in H2. change (inject_Z 1) with 1%Q in H2. apply Qabs_Qle_condition.
  destruct (Qcompare (q - inject_Z (Qfloor q)) (1 # 2)) eqn:E.
  - apply Qeq_alt in E. destruct (Z.even (Qfloor q)); rewrite ?inject_Z_plus; change (inject_Z 1) with 1%Q; split; lra.
  - apply Qlt_alt in E. split; lra.
  - apply Qgt_alt in E. rewrite inject_Z_plus. change (inject_Z 1) with 1%Q. split; lra.
Qed.

Lemma round_even_int q n : (q == inject_Z n)%Q -> round_even q = n.
Proof.
  intros H. unfold round_even. cbv zeta. rewrite (Qfloor_comp _ _ H), Qfloor_Z.
  assert (E : Qcompare (q - inject_Z n) (1 # 2) = Lt).
  { apply -> Qlt_alt. rewrite H. apply (Qle_lt_trans _ 0); [|reflexivity]. apply Qle_minus_iff. ring_simplify. discriminate. }
  rewrite E. reflexivity.
Qed.

(** ties go to the even neighbour *)
Lemma round_even_tie q : (Qabs (inject_Z (round_even q) - q) == 1 # 2)%Q -> Z.even (round_even q) = true.
Proof.
  unfold round_even. cbv zeta. pose proof (Qfloor_le q) as H1. pose proof (Qlt_floor q) as H2.
  rewrite inject_Z_plus in H2. change (inject_Z 1) with 1%Q in H2.
  destruct (Qcompare (q - inject_Z (Qfloor q)) (1 # 2)) eqn:E.
  - intros _. destruct (Z.even (Qfloor q)) eqn:Ee; [exact Ee|]. rewrite Z.even_add, Ee. reflexivity.
  - apply Qlt_alt in E. intros H. exfalso. rewrite Qabs_neg in H by lra. lra.
  - apply Qgt_alt in E. intros H. exfalso. rewrite inject_Z_plus in H. change (inject_Z 1) with 1%Q in H. rewrite Qabs_pos in H by lra. lra.
Qed.

Lemma round3_near q : (Qabs (round3 q - q) <= 1 # 2000)%Q.
Proof.
  unfold round3. pose proof (round_even_near (q * (1000 # 1))) as H. apply Qabs_Qle_condition in H.
  apply Qabs_Qle_condition. rewrite (Qmake_Qdiv _ 1000). change (inject_Z 1000) with (1000 # 1)%Q.
  set (r := inject_Z (round_even (q * (1000 # 1)))) in *.
  assert (E : (r / (1000 # 1) == r * (1 # 1000))%Q) by reflexivity. rewrite E. split; lra.
Qed.

Lemma round3_milli q n : (q == Qmake n 1000)%Q -> (round3 q == q)%Q.
Proof.
  intros H. unfold round3. rewrite (round_even_int _ n); [symmetry; exact H|].
  rewrite H. unfold Qeq. cbn. lia.
Qed.
Lemma round3_idem q : (round3 (round3 q) == round3 q)%Q.
Proof. apply (round3_milli _ (round_even (q * (1000 # 1)))). reflexivity. Qed.

Lemma units_positive u q : unit_length u = Ok q -> (0 < q)%Q.
Proof.
  unfold unit_length. destruct (dget UNITS u) as [v|] eqn:E; [|discriminate]. intros [= <-].
  cbn in E. repeat (destruct (String.eqb u _); [injection E as <-; reflexivity|]). discriminate.
Qed.

Lemma round_even_comp p q : (p == q)%Q -> round_even p = round_even q.
Proof.
  intros H. unfold round_even. cbv zeta. rewrite (Qfloor_comp _ _ H).
  assert (E : (p - inject_Z (Qfloor q) ?= 1 # 2)%Q = (q - inject_Z (Qfloor q) ?= 1 # 2)%Q) by (rewrite H; reflexivity).
  rewrite E. reflexivity.
Qed.
Lemma round3_comp p q : (p == q)%Q -> round3 p = round3 q.
Proof. intros H. unfold round3. f_equal. apply round_even_comp. rewrite H. reflexivity. Qed.

Lemma round_even_mono p q : (p <= q)%Q -> round_even p <= round_even q.
Proof.
  intros H. destruct (Z.le_gt_cases (round_even p) (round_even q)) as [L|L]; [exact L|exfalso].
  pose proof (round_even_near p) as Hp. pose proof (round_even_near q) as Hq.
  apply Qabs_Qle_condition in Hp. apply Qabs_Qle_condition in Hq.
  assert (H1 : (inject_Z (round_even q) + 1 <= inject_Z (round_even p))%Q).
  { change 1%Q with (inject_Z 1). rewrite <- inject_Z_plus, <- Zle_Qle. lia. }
  assert (E : (p == q)%Q) by lra. apply round_even_comp in E. lia.
Qed.

Lemma milli_scale n q : (Qabs ((n # 1000) - q) == Qabs (inject_Z n - q * (1000 # 1)) * (1 # 1000))%Q.
Proof.
  assert (E : ((n # 1000) - q == (inject_Z n - q * (1000 # 1)) * (1 # 1000))%Q).
  { rewrite (Qmake_Qdiv n 1000). change (inject_Z (Z.pos 1000)) with (1000 # 1)%Q. field. }
  rewrite E, Qabs_Qmult. reflexivity.
Qed.

Lemma half_apart a b (q : Q) : a <> b -> (Qabs (inject_Z a - q) <= 1 # 2)%Q -> ((1 # 2) <= Qabs (inject_Z b - q))%Q.
Proof.
  intros Hn H. apply Qabs_Qle_condition in H.
  destruct (Z.lt_total a b) as [L|[L|L]]; [|congruence|].
  - assert (H1 : (inject_Z a + 1 <= inject_Z b)%Q). { change 1%Q with (inject_Z 1). rewrite <- inject_Z_plus, <- Zle_Qle. lia. }
    eapply Qle_trans; [|apply Qle_Qabs]. lra.
  - assert (H1 : (inject_Z b + 1 <= inject_Z a)%Q). { change 1%Q with (inject_Z 1). rewrite <- inject_Z_plus, <- Zle_Qle. lia. }
    rewrite Qabs_Qminus. eapply Qle_trans; [|apply Qle_Qabs]. lra.
Qed.

Lemma round3_nearest q : nearest_milli q (round3 q).
Proof.
  exists (round_even (q * (1000 # 1))). split; [reflexivity|].
  set (p := (q * (1000 # 1))%Q). pose proof (round_even_near p) as Hn. split.
  - intros m. rewrite !milli_scale. fold p. apply Qmult_le_compat_r; [|discriminate].
    destruct (Z.eq_dec (round_even p) m) as [->|D]; [apply Qle_refl|].
    eapply Qle_trans; [exact Hn|]. apply (half_apart _ _ _ D Hn).
  - intros m D. rewrite !milli_scale. fold p. intros E. apply round_even_tie. fold p.
    assert (E' : (Qabs (inject_Z (round_even p) - p) == Qabs (inject_Z m - p))%Q).
    { apply (Qmult_inj_r _ _ (1 # 1000)); [discriminate|exact E]. }
    apply Qle_antisym; [exact Hn|]. rewrite E'. apply (half_apart (round_even p)); [congruence|exact Hn].
Qed.

Lemma millimetres_table u q : millimetres u q -> exists m, unit_length u = Ok m /\ (m == q / 1000)%Q /\ (0 < q)%Q.
Proof.
  assert (Hin : forall q, millimetres "in" q -> q = (254 # 10)%Q) by (intros p H; inversion H; reflexivity).
  assert (Hpt : forall q, millimetres "pt" q -> q = ((254 # 10) / 72)%Q)
    by (intros p H; inversion H as [| | | | | |r Hr| |]; subst; rewrite (Hin r Hr); reflexivity).
  intros H; destruct H as [| | | | |r Hr|r Hr|r Hr|r Hr];
    try (rewrite (Hin r Hr)); try (rewrite (Hpt r Hr)); eexists; (split; [reflexivity|split; reflexivity]).
Qed.

Lemma millimetres_names u : In u unit_names <-> exists q, millimetres u q.
Proof.
  split.
  - unfold unit_names. cbn [In]. intros H.
    repeat (destruct H as [<-|H]; [eexists; repeat (first [apply mm_mm|apply mm_cm|apply mm_dm|apply mm_m|apply mm_in|apply mm_ft|apply mm_pt|apply mm_px|apply mm_pc])|]). destruct H.
  - intros [q H]. destruct H; vm_compute; tauto.
Qed.

Lemma unit_length_unknown u : ~ In u unit_names -> unit_length u = Err EKeyError.
Proof.
  intros H. unfold unit_length, UNITS. cbn [dget].
  repeat match goal with |- context [String.eqb u ?n] =>
    destruct (String.eqb_spec u n) as [->|_]; [exfalso; apply H; vm_compute; tauto|] end.
  reflexivity.
Qed.

Lemma convert_spec v a b p q : millimetres a p -> millimetres b q ->
  exists r, convert_value v a b = Ok r /\ nearest_milli (v * p / q)%Q r /\ (Qabs (r - v * p / q) <= 1 # 2000)%Q.
Proof.
  intros Ha Hb. destruct (millimetres_table a p Ha) as (x & Ex & Hx & Hp). destruct (millimetres_table b q Hb) as (y & Ey & Hy & Hq).
  unfold convert_value. rewrite Ex, Ey. cbn [rbind].
  assert (E : (v * x / y == v * p / q)%Q). { rewrite Hx, Hy. field. intros E. rewrite E in Hq. discriminate. }
  rewrite (round3_comp _ _ E). eexists. split; [reflexivity|]. split; [apply round3_nearest|apply round3_near].
Qed.

Lemma convert_same v a : In a unit_names -> exists r, convert_value v a a = Ok r /\ nearest_milli v r.
Proof.
  intros Ha. apply millimetres_names in Ha as [p Hp]. destruct (convert_spec v a a p p Hp Hp) as (r & E & N & _).
  exists r. split; [exact E|]. destruct (millimetres_table a p Hp) as (_ & _ & _ & Hpos).
  assert (Ev : (v * p / p == v)%Q). { field. intros E0. rewrite E0 in Hpos. discriminate. }
  destruct N as (n & Er & Hn & Ht). exists n. split; [exact Er|]. split.
  - intros m. specialize (Hn m). rewrite Ev in Hn. exact Hn.
  - intros m D Em. apply (Ht m D). rewrite Ev. exact Em.
Qed.

Lemma convert_idem v a b r : convert_value v a b = Ok r -> exists r', convert_value r b b = Ok r' /\ (r' == r)%Q.
Proof.
  unfold convert_value. destruct (unit_length a) as [x|]; [|discriminate]. cbn [rbind].
  destruct (unit_length b) as [y|] eqn:Ey; [|discriminate]. cbn [rbind]. intros [= <-]. eexists. split; [reflexivity|].
  apply units_positive in Ey. set (r := round3 (v * x / y)).
  assert (E : (r * y / y == r)%Q). { field. intros E. rewrite E in Ey. discriminate. }
  rewrite (round3_comp _ _ E). apply round3_idem.
Qed.

Lemma convert_mono v w a b r s :
  (v <= w)%Q -> convert_value v a b = Ok r -> convert_value w a b = Ok s -> (r <= s)%Q.
Proof.
  intros H. unfold convert_value. destruct (unit_length a) as [x|] eqn:Ex; [|discriminate]. cbn [rbind].
  destruct (unit_length b) as [y|] eqn:Ey; [|discriminate]. cbn [rbind]. intros [= <-] [= <-].
  apply units_positive in Ex. apply units_positive in Ey. unfold round3.
  assert (L : (v * x / y * (1000 # 1) <= w * x / y * (1000 # 1))%Q).
  { apply Qmult_le_compat_r; [|discriminate]. unfold Qdiv. apply Qmult_le_compat_r.
    - apply Qmult_le_compat_r; [exact H|lra].
    - apply Qlt_le_weak, Qinv_lt_0_compat, Ey. }
  apply round_even_mono in L. unfold Qle. cbn. lia.
Qed.

Lemma convert_back v a b p q r :
  millimetres a p -> millimetres b q -> convert_value v a b = Ok r ->
  exists s, convert_value r b a = Ok s /\ (Qabs (s - v) <= (1 # 2000) * (1 + q / p))%Q.
Proof.
  intros Ha Hb E. destruct (convert_spec v a b p q Ha Hb) as (r' & E' & _ & N). rewrite E in E'. injection E' as <-.
  destruct (convert_spec r b a q p Hb Ha) as (s & Es & _ & Ns). exists s. split; [exact Es|].
  destruct (millimetres_table a p Ha) as (_ & _ & _ & Hp). destruct (millimetres_table b q Hb) as (_ & _ & _ & Hq).
  assert (Ev : (s - v == (s - r * q / p) + (r - v * p / q) * (q / p))%Q).
  { field. split; intros E0; [rewrite E0 in Hp|rewrite E0 in Hq]; discriminate. }
  rewrite Ev. eapply Qle_trans; [apply Qabs_triangle|]. rewrite Qabs_Qmult.
  assert (Hqp : (0 <= q / p)%Q). { unfold Qdiv. apply Qmult_le_0_compat; [lra|]. apply Qlt_le_weak, Qinv_lt_0_compat, Hp. }
  rewrite (Qabs_pos (q / p)) by exact Hqp.
  assert (H2 : (Qabs (r - v * p / q) * (q / p) <= (1 # 2000) * (q / p))%Q) by (apply Qmult_le_compat_r; assumption).
  lra.
Qed.
