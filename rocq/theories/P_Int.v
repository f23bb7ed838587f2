(** * Numbers in texts *)
From Coq Require Import DecimalString DecimalFacts DecimalPos DecimalZ.
From Verif Require Import Base M_Regex M_Str M_Units S_Units S_Int P_Units.

Lemma is_space_spec c : is_space c = true <-> blank c.
Proof. destruct c as [[] [] [] [] [] [] [] []]; vm_compute; split; intros H; try reflexivity; try discriminate; tauto || (decompose [or] H; try discriminate; try contradiction). Qed.

Lemma digit_not_blank c : is_digit c = true -> ~ blank c.
Proof.
  intros H B. apply is_space_spec in B. destruct c as [[] [] [] [] [] [] [] []]; vm_compute in H, B; congruence.
Qed.

(** ** strip *)

Lemma lstrip_split s : exists b, s = b ++ lstrip s /\ Forall blank b /\ (forall c r, lstrip s = c :: r -> ~ blank c).
Proof.
  induction s as [|c s (b & E & Hb & Hr)]; cbn [lstrip].
  - exists []. split; [reflexivity|]. split; [constructor|discriminate].
  - destruct (is_space c) eqn:Ec.
    + exists (c :: b). split; [cbn; congruence|]. split; [constructor; [apply is_space_spec, Ec|exact Hb]|exact Hr].
    + exists []. split; [reflexivity|]. split; [constructor|]. intros c' r [= <- <-] B. apply is_space_spec in B. congruence.
Qed.
Lemma lstrip_app b s : Forall blank b -> lstrip (b ++ s) = lstrip s.
Proof.
  induction 1 as [|c b Hc Hb IH]; [reflexivity|]. cbn [app lstrip]. apply is_space_spec in Hc. rewrite Hc. exact IH.
Qed.
Lemma lstrip_stop c s : ~ blank c -> lstrip (c :: s) = c :: s.
Proof. intros H. cbn. destruct (is_space c) eqn:E; [|reflexivity]. apply is_space_spec in E. contradiction. Qed.

Lemma strip_split s : exists b1 b2, s = b1 ++ strip s ++ b2 /\ Forall blank b1 /\ Forall blank b2.
Proof.
  unfold strip. destruct (lstrip_split s) as (b1 & E1 & H1 & _).
  destruct (lstrip_split (rev (lstrip s))) as (b2 & E2 & H2 & _).
  exists b1, (rev b2). split; [|split; [exact H1|apply Forall_rev, H2]].
  rewrite E1 at 1. f_equal. rewrite <- (rev_involutive (lstrip s)) at 1. rewrite E2 at 1. rewrite rev_app_distr. reflexivity.
Qed.

Lemma strip_eq b1 b2 c m d : Forall blank b1 -> Forall blank b2 -> ~ blank c -> ~ blank d ->
  (exists m', c :: m = m' ++ [d]) -> strip (b1 ++ (c :: m) ++ b2) = c :: m.
Proof.
  intros H1 H2 Hc Hd (m' & E). unfold strip. rewrite lstrip_app by exact H1.
  cbn [app]. rewrite lstrip_stop by exact Hc. rewrite (app_comm_cons m b2 c), E, rev_app_distr.
  rewrite lstrip_app by (apply Forall_rev, H2). rewrite rev_app_distr. cbn [rev app].
  rewrite lstrip_stop by exact Hd. cbn [rev]. rewrite rev_involutive. reflexivity.
Qed.

(** ** digits with underscores *)

Definition value_from (acc : Z) (l : list ascii) : Z := fold_left (fun n c => 10 * n + digit_value c) l acc.

Lemma int_digits_cons c s acc :
  int_digits (c :: s) acc =
  if is_digit c then
    match s with
    | [] => Ok (10 * acc + digit_value c)
    | d :: s' => if Ascii.eqb d "_"%char then int_digits s' (10 * acc + digit_value c)
                 else int_digits s (10 * acc + digit_value c)
    end
  else Err EValueError.
Proof.
  destruct s as [|d s]; [reflexivity|].
  destruct d as [[] [] [] [] [] [] [] []]; cbn -[Z.mul Z.add digit_value is_digit]; destruct (is_digit c); reflexivity.
Qed.

Lemma int_digits_sound n : forall s acc v, (List.length s <= n)%nat -> int_digits s acc = Ok v ->
  exists gs, gs <> [] /\ grouped gs s /\ Forall (fun g => g <> []) gs /\ forallb is_digit (List.concat gs) = true /\
             v = value_from acc (List.concat gs).
Proof.
  induction n as [|n IH]; intros s acc v HL H; [destruct s; [discriminate|cbn in HL; lia]|].
  destruct s as [|c s]; [discriminate|]. rewrite int_digits_cons in H. destruct (is_digit c) eqn:Ec; [|discriminate].
  destruct s as [|d s].
  - injection H as <-. exists [[c]]. split; [discriminate|]. split; [constructor|]. split; [repeat constructor; discriminate|].
    cbn. rewrite Ec. auto.
  - destruct (Ascii.eqb_spec d "_"%char) as [->|Nd].
    + destruct (IH s _ _ ltac:(cbn in HL |- *; lia) H) as (gs & HN & HG & HF & HD & ->).
      exists ([c] :: gs). split; [discriminate|]. split; [apply (gr_more [c]); exact HG|]. split; [constructor; [discriminate|exact HF]|].
      cbn. rewrite Ec. auto.
    + destruct (IH (d :: s) _ _ ltac:(cbn in HL |- *; lia) H) as (gs & HN & HG & HF & HD & ->).
      destruct gs as [|g gs]; [congruence|]. exists ((c :: g) :: gs). split; [discriminate|].
      split; [inversion HG; subst; [constructor|apply (gr_more (c :: g)); assumption]|].
      inversion HF; subst. split; [constructor; [discriminate|assumption]|].
      cbn. rewrite Ec. auto.
Qed.

Lemma digit_not_underscore c : is_digit c = true -> c <> "_"%char.
Proof. intros H ->. discriminate H. Qed.

Lemma grouped_cons_digit c g gs s : grouped (g :: gs) s -> grouped ((c :: g) :: gs) (c :: s).
Proof. intros H. inversion H; subst; [constructor|apply (gr_more (c :: g)); assumption]. Qed.

Lemma int_digits_complete n : forall gs s acc, (List.length s <= n)%nat -> grouped gs s -> Forall (fun g => g <> []) gs ->
  forallb is_digit (List.concat gs) = true -> int_digits s acc = Ok (value_from acc (List.concat gs)).
Proof.
  induction n as [|n IH]; intros gs s acc HL HG HF HD.
  - destruct s; [|cbn in HL; lia]. inversion HG; subst; inversion HF; subst; [congruence|].
    destruct g; discriminate.
  - inversion HG as [g|g gs' s' HG']; subst.
    + inversion HF; subst. destruct s as [|c s]; [congruence|]. cbn [List.concat] in *. rewrite app_nil_r in *.
      cbn [forallb] in HD. apply andb_true_iff in HD as [Hc Hs]. rewrite int_digits_cons, Hc. destruct s as [|d s]; [reflexivity|].
      destruct (Ascii.eqb_spec d "_"%char) as [->|Nd]; [discriminate|].
      rewrite (IH [d :: s] (d :: s)); [|cbn in HL |- *; lia|constructor|repeat constructor; discriminate|cbn [List.concat]; rewrite app_nil_r; exact Hs].
      cbn [List.concat]. rewrite app_nil_r. reflexivity.
    + inversion HF as [|? ? HF1 HF2]; subst. destruct g as [|c g]; [congruence|]. cbn [app List.concat forallb] in *.
      apply andb_true_iff in HD as [Hc HD]. rewrite int_digits_cons, Hc. destruct g as [|d g].
      * cbn [app]. rewrite Ascii.eqb_refl. rewrite (IH gs' s'); [reflexivity|cbn in HL |- *; lia|exact HG'|exact HF2|exact HD].
      * cbn [app] in *. cbn [forallb] in HD. apply andb_true_iff in HD as [Hd HD].
        destruct (Ascii.eqb_spec d "_"%char) as [->|Nd]; [discriminate|].
        rewrite (IH ((d :: g) :: gs') (d :: g ++ "_"%char :: s')); [reflexivity| | | |].
        -- cbn in HL |- *. lia.
        -- apply (gr_more (d :: g)). exact HG'.
        -- constructor; [discriminate|exact HF2].
        -- cbn. rewrite Hd. exact HD.
Qed.

Lemma grouped_first gs s : grouped gs s -> Forall (fun g => g <> []) gs -> forallb is_digit (List.concat gs) = true ->
  exists c s' d s'', s = c :: s' /\ is_digit c = true /\ s = s'' ++ [d] /\ is_digit d = true.
Proof.
  induction 1 as [g|g gs s HG IH]; intros HF HD.
  - inversion HF; subst. destruct g as [|c g]; [congruence|]. cbn in HD. rewrite app_nil_r in HD.
    destruct (exists_last (l := c :: g)) as (s'' & d & E); [discriminate|].
    exists c, g, d, s''. split; [reflexivity|]. assert (HD' : forallb is_digit (c :: g) = true) by exact HD.
    split; [cbn in HD; apply andb_true_iff in HD; apply HD|]. split; [exact E|].
    rewrite E, forallb_app in HD'. cbn in HD'. destruct (is_digit d); [reflexivity|]. rewrite andb_false_r in HD'. discriminate.
  - inversion HF as [|? ? HF1 HF2]; subst. cbn [List.concat] in HD. rewrite forallb_app in HD. apply andb_true_iff in HD as [HD1 HD2].
    destruct (IH HF2 HD2) as (c & s' & d & s'' & _ & _ & E & Hd).
    destruct g as [|x g]; [congruence|]. cbn in HD1. apply andb_true_iff in HD1 as [Hx _].
    exists x, (g ++ "_"%char :: s), d, ((x :: g) ++ "_"%char :: s''). split; [reflexivity|]. split; [exact Hx|].
    split; [|exact Hd]. rewrite E at 1. rewrite <- app_assoc. reflexivity.
Qed.

Lemma blank_minus : ~ blank "-"%char.
Proof. intros H. apply is_space_spec in H. discriminate. Qed.
Lemma blank_plus : ~ blank "+"%char.
Proof. intros H. apply is_space_spec in H. discriminate. Qed.

Lemma py_int_cases s : py_int s =
  match strip (list_ascii_of_string s) with
  | [] => Err EValueError
  | c :: s' => if Ascii.eqb c "-"%char then (n <-? int_digits s' 0 ;; Ok (- n))
               else if Ascii.eqb c "+"%char then int_digits s' 0
               else int_digits (c :: s') 0
  end.
Proof.
  unfold py_int. destruct (strip _) as [|c s']; [reflexivity|].
  destruct c as [[] [] [] [] [] [] [] []]; reflexivity.
Qed.

Lemma py_int_spec s n : py_int s = Ok n <-> int_text s n.
Proof.
  rewrite py_int_cases. destruct (strip_split (list_ascii_of_string s)) as (b1 & b2 & E & H1 & H2). split.
  - destruct (strip (list_ascii_of_string s)) as [|c s'] eqn:Es; [discriminate|]. intros H.
    assert (K : forall sg k body v, c :: s' = sg ++ body -> sign_of sg k -> int_digits body 0 = Ok v -> n = k * v -> int_text s n).
    { intros sg k body v Eb Hs Hv Hn. destruct (int_digits_sound _ _ _ _ (le_n _) Hv) as (gs & HN & HG & HF & HD & ->).
      exists b1, b2, sg, k, gs, body, (value_from 0 (List.concat gs)).
      split; [rewrite E at 1; rewrite Eb, <- app_assoc; reflexivity|]. split; [exact H1|]. split; [exact H2|]. split; [exact Hs|].
      split; [exact HG|]. split; [exact HF|]. split; [apply digits_value_spec; split; [exact HD|reflexivity]|exact Hn]. }
    destruct (Ascii.eqb_spec c "-"%char) as [->|N1].
    + destruct (int_digits s' 0) as [v|] eqn:Ev; [|discriminate]. cbn in H. injection H as <-.
      eapply (K ["-"%char]); [reflexivity|constructor|exact Ev|lia].
    + destruct (Ascii.eqb_spec c "+"%char) as [->|N2].
      * eapply (K ["+"%char]); [reflexivity|constructor|exact H|lia].
      * eapply (K []); [reflexivity|constructor|exact H|lia].
  - clear E H1 H2 b1 b2. intros (b1 & b2 & sg & k & gs & body & m & E & H1 & H2 & Hs & HG & HF & HV & ->).
    apply digits_value_spec in HV as [HD <-].
    assert (HN : forall l : list ascii, grouped gs l -> gs <> []) by (intros l H; inversion H; discriminate).
    pose proof (int_digits_complete _ gs body 0 (le_n _) HG HF HD) as C. fold (value_from 0 (List.concat gs)).
    destruct (grouped_first gs body HG HF HD) as (c & s' & d & s'' & E1 & Hc & E2 & Hd).
    assert (HB : exists m', c :: s' = m' ++ [d]) by (exists s''; congruence).
    assert (Hc' := digit_not_blank c Hc). assert (Hd' := digit_not_blank d Hd).
    rewrite E. inversion Hs; subst; cbn [app] in *.
    + replace (strip (b1 ++ c :: s' ++ b2)) with (c :: s') by (symmetry; eapply (strip_eq b1 b2 c s' d); eauto).
      destruct (Ascii.eqb_spec c "-"%char) as [->|N1]; [discriminate|].
      destruct (Ascii.eqb_spec c "+"%char) as [->|N2]; [discriminate|]. rewrite C. f_equal. unfold int_of_digits, value_from. lia.
    + replace (strip (b1 ++ "+"%char :: c :: s' ++ b2)) with ("+"%char :: c :: s').
      2: { symmetry. eapply (strip_eq b1 b2 "+"%char (c :: s') d); eauto using blank_plus.
           destruct HB as (m' & ->). exists ("+"%char :: m'). reflexivity. }
      change (("+" =? "-")%char) with false. change (("+" =? "+")%char) with true. cbv iota. rewrite C. f_equal. unfold int_of_digits, value_from. lia.
    + replace (strip (b1 ++ "-"%char :: c :: s' ++ b2)) with ("-"%char :: c :: s').
      2: { symmetry. eapply (strip_eq b1 b2 "-"%char (c :: s') d); eauto using blank_minus.
           destruct HB as (m' & ->). exists ("-"%char :: m'). reflexivity. }
      change (("-" =? "-")%char) with true. cbv iota. rewrite C. reflexivity.
Qed.

(** ** [str(int)] *)

Fixpoint uint_value (acc : Z) (d : Decimal.uint) : Z :=
  match d with
  | Decimal.Nil => acc
  | Decimal.D0 d => uint_value (10 * acc) d
  | Decimal.D1 d => uint_value (10 * acc + 1) d
  | Decimal.D2 d => uint_value (10 * acc + 2) d
  | Decimal.D3 d => uint_value (10 * acc + 3) d
  | Decimal.D4 d => uint_value (10 * acc + 4) d
  | Decimal.D5 d => uint_value (10 * acc + 5) d
  | Decimal.D6 d => uint_value (10 * acc + 6) d
  | Decimal.D7 d => uint_value (10 * acc + 7) d
  | Decimal.D8 d => uint_value (10 * acc + 8) d
  | Decimal.D9 d => uint_value (10 * acc + 9) d
  end.
Lemma uint_value_acc d : forall p, Z.pos (Pos.of_uint_acc d p) = uint_value (Z.pos p) d.
Proof. induction d; intros p; cbn [Pos.of_uint_acc uint_value]; rewrite ?IHd; try reflexivity; f_equal; lia. Qed.
Lemma uint_value_of d : Z.of_uint d = uint_value 0 d.
Proof.
  unfold Z.of_uint. induction d; cbn [Pos.of_uint uint_value]; [reflexivity|exact IHd|..];
    cbn [Z.of_N]; rewrite uint_value_acc; reflexivity.
Qed.
Lemma string_of_uint_value d : forall acc,
  value_from acc (list_ascii_of_string (NilEmpty.string_of_uint d)) = uint_value acc d.
Proof.
  unfold value_from. induction d; intros acc; cbn [NilEmpty.string_of_uint list_ascii_of_string fold_left uint_value];
    [reflexivity|..]; rewrite IHd; f_equal; change (digit_value _) with 0 || idtac;
    unfold digit_value; cbn [nat_of_ascii]; vm_compute (Z.of_nat _); lia.
Qed.
Lemma string_of_uint_digits d : forallb is_digit (list_ascii_of_string (NilEmpty.string_of_uint d)) = true.
Proof. induction d; cbn [NilEmpty.string_of_uint list_ascii_of_string forallb]; [reflexivity|..]; rewrite IHd; reflexivity. Qed.

Definition digits_of (z : Z) : list ascii := list_ascii_of_string (py_str_int z).

Lemma nilzero_facts d : exists c l, list_ascii_of_string (NilZero.string_of_uint d) = c :: l /\
  forallb is_digit (c :: l) = true /\ value_from 0 (c :: l) = Z.of_uint d.
Proof.
  rewrite uint_value_of. pose proof (string_of_uint_value d 0) as V. pose proof (string_of_uint_digits d) as D.
  destruct d; unfold NilZero.string_of_uint; [exists "0"%char, []; split; [reflexivity|split; reflexivity]|..];
    cbn [NilEmpty.string_of_uint list_ascii_of_string] in *; eexists; eexists; (split; [reflexivity|]); (split; [exact D|exact V]).
Qed.

Lemma py_str_nonneg z : 0 <= z -> exists c l, list_ascii_of_string (py_str_int z) = c :: l /\
  forallb is_digit (c :: l) = true /\ int_of_digits (c :: l) = z.
Proof.
  intros H. unfold py_str_int. destruct (Z.to_int z) as [d|d] eqn:E.
  - destruct (nilzero_facts d) as (c & l & E1 & E2 & E3). exists c, l. split; [exact E1|]. split; [exact E2|].
    unfold int_of_digits. fold (value_from 0 (c :: l)). rewrite E3. pose proof (DecimalZ.of_to z) as T. rewrite E in T. exact T.
  - exfalso. destruct z; cbn in E; try discriminate. lia.
Qed.
Lemma py_str_neg z : z < 0 -> exists l, list_ascii_of_string (py_str_int z) = "-"%char :: l /\
  forallb is_digit l = true /\ l <> [] /\ int_of_digits l = - z.
Proof.
  intros H. unfold py_str_int. destruct (Z.to_int z) as [d|d] eqn:E.
  - exfalso. destruct z; cbn in E; try discriminate; lia.
  - destruct (nilzero_facts d) as (c & l & E1 & E2 & E3). exists (c :: l). cbn [NilZero.string_of_int list_ascii_of_string].
    split; [f_equal; exact E1|]. split; [exact E2|]. split; [discriminate|].
    unfold int_of_digits. fold (value_from 0 (c :: l)). rewrite E3. pose proof (DecimalZ.of_to z) as T. rewrite E in T. cbn in T. lia.
Qed.

Lemma int_text_str z : int_text (py_str_int z) z.
Proof.
  assert (D : {0 <= z} + {z < 0}) by (destruct (Z_lt_dec z 0); [right|left]; lia). destruct D as [H|H].
  - destruct (py_str_nonneg z H) as (c & l & E1 & E2 & E3).
    exists [], [], [], 1, [c :: l], (c :: l), z. rewrite E1. cbn [app List.concat]. rewrite !app_nil_r.
    split; [reflexivity|]. split; [constructor|]. split; [constructor|]. split; [constructor|]. split; [constructor|].
    split; [repeat constructor; discriminate|]. split; [apply digits_value_spec; auto|lia].
  - destruct (py_str_neg z H) as (l & E1 & E2 & E3 & E4).
    exists [], [], ["-"%char], (-1), [l], l, (- z). rewrite E1. cbn [app List.concat]. rewrite !app_nil_r.
    split; [reflexivity|]. split; [constructor|]. split; [constructor|]. split; [constructor|]. split; [constructor|].
    split; [repeat constructor; assumption|]. split; [apply digits_value_spec; auto|lia].
Qed.
Lemma py_int_str z : py_int (py_str_int z) = Ok z.
Proof. apply py_int_spec, int_text_str. Qed.

(** ** The first number *)

Lemma first_int_list l : 
  match re_first (RPlus is_digit) l with
  | Some w => exists p ds q, l = p ++ ds ++ q /\ forallb (fun c => negb (is_digit c)) p = true /\ ds <> [] /\
                forallb is_digit ds = true /\ (forall c q', q = c :: q' -> is_digit c = false) /\ fst (fst w) = ds
  | None => forallb (fun c => negb (is_digit c)) l = true
  end.
Proof.
  induction l as [|c l IH]; [reflexivity|]. rewrite re_first_cons. unfold re_match. rewrite ms_plus. unfold digits1.
  cbn [span]. destruct (is_digit c) eqn:Ec.
  - cbn [fst snd option_map]. exists [], (c :: fst (span is_digit l)), (snd (span is_digit l)).
    split; [cbn; f_equal; apply span_split|]. split; [reflexivity|]. split; [discriminate|].
    split; [cbn; rewrite Ec; apply span_all|]. split; [|reflexivity]. intros c' q' E. eapply span_stop, E.
  - cbn [fst snd option_map]. destruct (re_first (RPlus is_digit) l) as [w|].
    + destruct IH as (p & ds & q & -> & Hp & H). exists (c :: p), ds, q. split; [reflexivity|]. split; [cbn; rewrite Ec; exact Hp|exact H].
    + cbn. rewrite Ec. exact IH.
Qed.

Lemma forallb_In {A} (f : A -> bool) l : forallb f l = true <-> forall x, In x l -> f x = true.
Proof. apply forallb_forall. Qed.

Lemma run_unique p ds q p' ds' q' :
  p ++ ds ++ q = p' ++ ds' ++ q' ->
  (forall c, In c p -> is_digit c = false) -> (forall c, In c p' -> is_digit c = false) ->
  ds <> [] -> ds' <> [] -> forallb is_digit ds = true -> forallb is_digit ds' = true ->
  (forall c r, q = c :: r -> is_digit c = false) -> (forall c r, q' = c :: r -> is_digit c = false) -> ds = ds'.
Proof.
  revert p'. induction p as [|c p IH]; intros [|c' p'] E Hp Hp' N N' D D' Q Q'; cbn [app] in E.
  - clear Hp Hp' N N'. revert ds' E D'. induction ds as [|x ds IHd]; intros [|y ds'] E D'; [reflexivity|..].
    + exfalso. cbn in E. specialize (Q y (ds' ++ q') E). cbn in D'. rewrite Q in D'. discriminate.
    + exfalso. cbn in E. symmetry in E. specialize (Q' x (ds ++ q) E). cbn in D. rewrite Q' in D. discriminate.
    + cbn in E, D, D'. injection E as -> E. apply andb_true_iff in D as [_ D]. apply andb_true_iff in D' as [_ D'].
      f_equal. apply IHd; assumption.
  - exfalso. destruct ds as [|x ds]; [congruence|]. cbn in E. injection E as -> _. cbn in D.
    rewrite (Hp' c' (or_introl eq_refl)) in D. discriminate.
  - exfalso. destruct ds' as [|x ds']; [congruence|]. cbn in E. injection E as -> _. cbn in D'.
    rewrite (Hp x (or_introl eq_refl)) in D'. discriminate.
  - injection E as -> E. apply (IH p'); auto; intros x Hx; [apply Hp|apply Hp']; right; exact Hx.
Qed.

Lemma not_digit c : ~ digit c <-> is_digit c = false.
Proof. rewrite digit_spec. destruct (is_digit c); split; congruence. Qed.

Lemma first_int_spec s n : first_int s = Ok n <-> first_number s n.
Proof.
  unfold first_int. pose proof (first_int_list (list_ascii_of_string s)) as H. split.
  - intros E. destruct (re_first _ _) as [w|]; [|discriminate]. injection E as <-.
    destruct H as (p & ds & q & E & Hp & HN & HD & HQ & ->). exists p, ds, q. split; [exact E|].
    split; [intros c Hc; apply not_digit; rewrite forallb_In in Hp; apply negb_true_iff, Hp, Hc|]. split; [exact HN|].
    split; [apply digits_value_spec; auto|]. intros c q' Eq. apply not_digit. eapply HQ, Eq.
  - intros (p & ds & q & E & Hp & HN & HV & HQ). apply digits_value_spec in HV as [HD HV]. destruct (re_first _ _) as [w|].
    + destruct H as (p' & ds' & q' & E' & Hp' & HN' & HD' & HQ' & ->). rewrite E in E'.
      assert (ds = ds').
      { eapply run_unique; [exact E'|..]; auto.
        - intros c Hc. apply not_digit, Hp, Hc.
        - intros c Hc. rewrite forallb_In in Hp'. apply negb_true_iff, Hp', Hc.
        - intros c r Eq. apply not_digit. eapply HQ, Eq. }
      subst. reflexivity.
    + exfalso. rewrite E, !forallb_app in H. destruct ds as [|c ds]; [congruence|]. cbn in HD, H. apply andb_true_iff in HD as [HD _].
      rewrite HD in H. cbn in H. rewrite andb_false_r in H. discriminate.
Qed.

(** A column name *)
Lemma first_number_column s z : (forall c, In c (list_ascii_of_string s) -> ~ digit c) -> 0 <= z ->
  first_number (String.append s (py_str_int z)) z.
Proof.
  intros Hs Hz. destruct (py_str_nonneg z Hz) as (c & l & E1 & E2 & E3).
  exists (list_ascii_of_string s), (c :: l), []. split.
  - rewrite app_nil_r, <- E1. clear. induction s as [|a s IH]; cbn; congruence.
  - split; [exact Hs|]. split; [discriminate|]. split; [apply digits_value_spec; auto|]. discriminate.
Qed.

Lemma int_text_fun s n m : int_text s n -> int_text s m -> n = m.
Proof. rewrite <- !py_int_spec. congruence. Qed.
Lemma first_number_fun s n m : first_number s n -> first_number s m -> n = m.
Proof. rewrite <- !first_int_spec. congruence. Qed.
