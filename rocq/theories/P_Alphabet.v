(** * Proofs about the alphabetic numbering and the spreadsheet notation *)
From Coq Require Import DecimalString DecimalFacts DecimalZ DecimalPos DecimalN Decimal.
From Verif Require Import Base M_Alphabet M_Geometry S_Alphabet S_Geometry P_Geometry.

Local Notation len al := (Z.of_nat (List.length al)).

Lemma index_of_some al c i : index_of c al = Some i -> 0 <= i < len al /\ letter_at al c (Z.to_nat i).
Proof.
  unfold letter_at. revert i. induction al as [|a al IH]; intros i; cbn [index_of]; [discriminate|].
  destruct (Ascii.eqb_spec c a) as [->|Hn].
  - intros H; inversion H; subst. cbn. split; [lia|reflexivity].
  - destruct (index_of c al) as [j|]; [|discriminate]. intros H; inversion H; subst.
    destruct (IH j eq_refl) as [H1 H2]. cbn [List.length]. split; [lia|].
    replace (Z.to_nat (j + 1)) with (S (Z.to_nat j)) by lia. exact H2.
Qed.

Lemma index_of_none al c : index_of c al = None -> ~ In c al.
Proof.
  induction al as [|a al IH]; cbn [index_of]; [intros _ []|].
  destruct (Ascii.eqb_spec c a) as [->|Hn]; [discriminate|].
  destruct (index_of c al); [discriminate|]. intros _ [->|H]; [congruence|]. apply IH; auto.
Qed.

Lemma index_of_letter_at al c i :
  NoDup al -> letter_at al c i -> index_of c al = Some (Z.of_nat i).
Proof.
  unfold letter_at. revert i. induction al as [|a al IH]; intros i Hd H.
  - destruct i; discriminate.
  - inversion Hd; subst. cbn [index_of]. destruct i as [|i]; cbn in H.
    + inversion H; subst. rewrite Ascii.eqb_refl. reflexivity.
    + destruct (Ascii.eqb_spec c a) as [->|Hn].
      * exfalso. apply nth_error_In in H. contradiction.
      * rewrite (IH i) by assumption. f_equal. lia.
Qed.

Lemma index_of_In al c : In c al -> exists i, index_of c al = Some i.
Proof.
  intros H. destruct (index_of c al) as [i|] eqn:E; [eauto|].
  exfalso; eapply index_of_none; eassumption.
Qed.

Lemma a2i_app al w1 w2 s :
  alphabet_to_int_loop (w1 ++ w2) al s =
  (v <-? alphabet_to_int_loop w1 al s ;; alphabet_to_int_loop w2 al v).
Proof.
  revert s. induction w1 as [|c w1 IH]; intros s; cbn; [reflexivity|].
  destruct (index_of c al); [apply IH | reflexivity].
Qed.

Lemma a2i_total al w s :
  word_over al w -> 0 <= s -> exists v, alphabet_to_int_loop w al s = Ok v /\ s <= v.
Proof.
  intros H. revert s. induction H as [|c w Hc Hw IH]; intros s Hs; cbn.
  - eexists; split; [reflexivity | lia].
  - destruct (index_of_In _ _ Hc) as [i Hi]. rewrite Hi. apply index_of_some in Hi as [Hi _].
    destruct (IH (s * len al + (i + 1))) as (v & Ev & Hv); [nia|]. exists v. split; [exact Ev|nia].
Qed.

Lemma a2i_word al w s v : alphabet_to_int_loop w al s = Ok v -> word_over al w.
Proof.
  revert s. induction w as [|c w IH]; intros s; cbn; [constructor|].
  destruct (index_of c al) as [i|] eqn:E; [|discriminate].
  intros H. constructor; [|eapply IH; eassumption].
  apply index_of_some in E as [_ E]. eapply nth_error_In; exact E.
Qed.

Lemma a2i_error al w : ~ word_over al w -> alphabet_to_int w al = Err EValueError.
Proof.
  unfold alphabet_to_int. generalize 0. induction w as [|c w IH]; intros s H; cbn.
  - exfalso; apply H; constructor.
  - destruct (index_of c al) as [i|] eqn:E; [|reflexivity].
    apply IH. intros Hw. apply H. constructor; [|exact Hw].
    apply index_of_some in E as [_ E]. eapply nth_error_In; exact E.
Qed.

(** The loop of int_to_alphabet writes, in front of the accumulator, a word of value [q]. *)
Lemma i2a_loop al fuel q acc :
  al <> [] -> NoDup al -> 0 <= q -> q <= Z.of_nat fuel ->
  exists w, int_to_alphabet_loop fuel al q acc = Ok (w ++ acc) /\ alphabet_to_int w al = Ok q.
Proof.
  intros Hne Hd. revert q acc. induction fuel as [|fuel IH]; intros q acc Hq Hf.
  - assert (q = 0) by lia. subst. exists []. split; reflexivity.
  - cbn [int_to_alphabet_loop]. destruct (Z.eqb_spec q 0) as [->|Hq0].
    + exists []. split; reflexivity.
    + assert (Hl : 0 < len al) by (destruct al; [congruence | cbn; lia]).
      unfold py_divmod. destruct (Z.eqb_spec (len al) 0); [lia|]. cbn [rbind snd fst].
      pose proof (Z.mod_pos_bound (q - 1) (len al) Hl) as Hm.
      pose proof (Z.div_mod (q - 1) (len al) ltac:(lia)) as Hdm.
      assert (Hdp : 0 <= (q - 1) / len al) by (apply Z.div_pos; lia).
      assert (Hdle : (q - 1) / len al <= q - 1) by nia.
      set (r := (q - 1) mod len al) in *.
      destruct (nth_error al (Z.to_nat r)) as [c|] eqn:Ec.
      2:{ apply nth_error_None in Ec. lia. }
      unfold py_nth, py_index.
      replace ((0 <=? r) && (r <? len al)) with true by lia. rewrite Ec. cbn [rbind].
      destruct (IH ((q - 1) / len al) (c :: acc)) as (w & Ew & Hw); [lia|lia|].
      exists (w ++ [c]). split.
      * rewrite Ew. rewrite <- app_assoc. reflexivity.
      * unfold alphabet_to_int in *. rewrite a2i_app, Hw. cbn [rbind alphabet_to_int_loop].
        rewrite (index_of_letter_at al c (Z.to_nat r)) by assumption.
        f_equal. lia.
Qed.

Lemma i2a_total al v :
  al <> [] -> NoDup al -> 0 <= v ->
  exists w, int_to_alphabet v al = Ok w /\ alphabet_to_int w al = Ok v.
Proof.
  intros Hne Hd Hv. unfold int_to_alphabet.
  destruct (Z.eqb_spec v 0) as [->|Hv0]; [exists []; split; reflexivity|].
  replace (v <? 0) with false by lia.
  destruct (i2a_loop al (S (Z.to_nat v)) v [] Hne Hd Hv ltac:(lia)) as (w & Ew & Hw).
  cbn [int_to_alphabet_loop] in Ew. replace (v =? 0) with false in Ew by lia.
  exists w. rewrite app_nil_r in Ew. split; [exact Ew | exact Hw].
Qed.

Lemma i2a_negative al v : v < 0 -> int_to_alphabet v al = Err EValueError.
Proof.
  intros. unfold int_to_alphabet. replace (v =? 0) with false by lia.
  replace (v <? 0) with true by lia. reflexivity.
Qed.

Lemma a2i_injective al w1 w2 v :
  NoDup al -> alphabet_to_int w1 al = Ok v -> alphabet_to_int w2 al = Ok v -> w1 = w2.
Proof.
  intros Hd. revert w2 v. induction w1 as [|c1 w1 IH] using rev_ind; intros w2 v H1 H2.
  - cbn in H1. inversion H1; subst. destruct w2 as [|c2 w2 _] using rev_ind; [reflexivity|].
    unfold alphabet_to_int in H2. rewrite a2i_app in H2.
    pose proof (a2i_word al (w2 ++ [c2]) 0 0) as Hw. rewrite a2i_app in Hw. specialize (Hw H2).
    apply Forall_app in Hw as [Hw _].
    destruct (a2i_total al w2 0 Hw ltac:(lia)) as (v2 & E2 & Hv2).
    rewrite E2 in H2. cbn [rbind alphabet_to_int_loop] in H2.
    destruct (index_of c2 al) as [i|] eqn:Ei; [|discriminate].
    apply index_of_some in Ei as [Ei _]. inversion H2. nia.
  - unfold alphabet_to_int in H1.
    pose proof (a2i_word _ _ _ _ H1) as Hw1. apply Forall_app in Hw1 as [Hw1 _].
    rewrite a2i_app in H1.
    destruct (a2i_total al w1 0 Hw1 ltac:(lia)) as (v1 & E1 & Hv1).
    rewrite E1 in H1. cbn [rbind alphabet_to_int_loop] in H1.
    destruct (index_of c1 al) as [i1|] eqn:Ei1; [|discriminate].
    pose proof (index_of_some _ _ _ Ei1) as [Hi1 Hl1].
    destruct w2 as [|c2 w2 _] using rev_ind.
    + cbn in H2. inversion H2; subst. inversion H1. nia.
    + unfold alphabet_to_int in H2.
      pose proof (a2i_word _ _ _ _ H2) as Hw2. apply Forall_app in Hw2 as [Hw2 _].
      rewrite a2i_app in H2.
      destruct (a2i_total al w2 0 Hw2 ltac:(lia)) as (v2 & E2 & Hv2).
      rewrite E2 in H2. cbn [rbind alphabet_to_int_loop] in H2.
      destruct (index_of c2 al) as [i2|] eqn:Ei2; [|discriminate].
      pose proof (index_of_some _ _ _ Ei2) as [Hi2 Hl2].
      inversion H1 as [H1']. inversion H2 as [H2'].
      assert (v1 = v2) by nia. assert (i1 = i2) by nia. subst v2 i2.
      f_equal.
      * eapply IH; [exact E1 | exact E2].
      * unfold letter_at in *. congruence.
Qed.

Lemma i2a_a2i al w :
  al <> [] -> NoDup al -> word_over al w ->
  exists v, alphabet_to_int w al = Ok v /\ 0 <= v /\ int_to_alphabet v al = Ok w.
Proof.
  intros Hne Hd Hw. destruct (a2i_total al w 0 Hw ltac:(lia)) as (v & Ev & Hv).
  exists v. split; [exact Ev|]. split; [exact Hv|].
  destruct (i2a_total al v Hne Hd Hv) as (w' & Ew' & Hw'). rewrite Ew'. f_equal.
  eapply a2i_injective; [exact Hd | exact Hw' | exact Ev].
Qed.

Lemma a2i_mono_same al w1 w2 s1 s2 v1 v2 :
  List.length w1 = List.length w2 -> s1 < s2 ->
  alphabet_to_int_loop w1 al s1 = Ok v1 -> alphabet_to_int_loop w2 al s2 = Ok v2 -> v1 < v2.
Proof.
  revert w2 s1 s2. induction w1 as [|c1 w1 IH]; intros [|c2 w2] s1 s2 Hl Hs H1 H2;
    try discriminate Hl.
  - cbn in *. inversion H1; inversion H2; subst; lia.
  - cbn in H1, H2.
    destruct (index_of c1 al) as [i1|] eqn:E1; [|discriminate].
    destruct (index_of c2 al) as [i2|] eqn:E2; [|discriminate].
    apply index_of_some in E1 as [E1 _]. apply index_of_some in E2 as [E2 _].
    eapply (IH w2); [cbn in Hl; lia | | exact H1 | exact H2]. nia.
Qed.

Lemma a2i_mono al w1 w2 v1 v2 :
  NoDup al -> alphabet_to_int w1 al = Ok v1 -> alphabet_to_int w2 al = Ok v2 ->
  shortlex al w1 w2 -> v1 < v2.
Proof.
  unfold alphabet_to_int. intros Hd H1 H2 [Hl | (Hl & p & c1 & r1 & c2 & r2 & i & j & -> & -> & L1 & L2 & Hij)].
  - rewrite <- (firstn_skipn (List.length w2 - List.length w1) w2) in H2.
    rewrite a2i_app in H2.
    set (pre := firstn (List.length w2 - List.length w1) w2) in *.
    destruct (alphabet_to_int_loop pre al 0) as [s|] eqn:Es; [|discriminate]. cbn [rbind] in H2.
    assert (Hpre : (0 < List.length pre)%nat) by (unfold pre; rewrite firstn_length; lia).
    assert (0 < s).
    { destruct pre as [|c pre]; [cbn in Hpre; lia|]. cbn [alphabet_to_int_loop] in Es.
      destruct (index_of c al) as [k|] eqn:Ek; [|discriminate].
      apply index_of_some in Ek as [Ek _].
      pose proof (a2i_word _ _ _ _ Es) as Hw.
      destruct (a2i_total al pre (0 * len al + (k + 1)) Hw ltac:(nia)) as (v & Ev & Hv).
      assert (v = s) by congruence. lia. }
    eapply (a2i_mono_same al w1 _ 0 s); [| |exact H1|exact H2]; [|assumption].
    rewrite skipn_length. lia.
  - rewrite a2i_app in H1, H2.
    destruct (alphabet_to_int_loop p al 0) as [s|]; [|discriminate]. cbn [rbind] in H1, H2.
    cbn [alphabet_to_int_loop] in H1, H2.
    rewrite (index_of_letter_at _ _ _ Hd L1) in H1. rewrite (index_of_letter_at _ _ _ Hd L2) in H2.
    eapply a2i_mono_same; [| |exact H1|exact H2]; [|lia].
    rewrite !app_length in Hl. cbn in Hl. lia.
Qed.

Lemma shortlex_total al w1 w2 :
  NoDup al -> word_over al w1 -> word_over al w2 ->
  shortlex al w1 w2 \/ w1 = w2 \/ shortlex al w2 w1.
Proof.
  intros Hd H1 H2. unfold shortlex.
  destruct (Nat.lt_trichotomy (List.length w1) (List.length w2)) as [?|[Hl|?]]; [tauto| |tauto].
  assert (D : w1 = w2 \/ exists p c1 r1 c2 r2, w1 = p ++ c1 :: r1 /\ w2 = p ++ c2 :: r2 /\ c1 <> c2).
  { clear H1 H2. revert w2 Hl. induction w1 as [|c1 w1 IH]; intros [|c2 w2] Hl; try discriminate Hl.
    - left; reflexivity.
    - destruct (Ascii.ascii_dec c1 c2) as [->|Hn].
      + destruct (IH w2 ltac:(cbn in Hl; lia)) as [->|(p & d1 & r1 & d2 & r2 & -> & -> & Hd')].
        * left; reflexivity.
        * right. exists (c2 :: p), d1, r1, d2, r2. auto.
      + right. exists [], c1, w1, c2, w2. auto. }
  destruct D as [->|(p & c1 & r1 & c2 & r2 & -> & -> & Hn)]; [tauto|].
  unfold word_over in *. rewrite Forall_app in H1, H2. destruct H1 as [_ H1], H2 as [_ H2].
  inversion H1 as [|? ? I1 _]; inversion H2 as [|? ? I2 _]; subst.
  apply In_nth_error in I1 as [i Li]. apply In_nth_error in I2 as [j Lj].
  destruct (Nat.lt_trichotomy i j) as [?|[->|?]].
  - left; right. split; [exact Hl|]. exists p, c1, r1, c2, r2, i, j. auto 6.
  - congruence.
  - right; right; right. split; [symmetry; exact Hl|]. exists p, c2, r2, c1, r1, j, i. auto 6.
Qed.

Lemma i2a_order al v1 v2 w1 w2 :
  al <> [] -> NoDup al -> int_to_alphabet v1 al = Ok w1 -> int_to_alphabet v2 al = Ok w2 ->
  (v1 < v2 <-> shortlex al w1 w2).
Proof.
  intros Hne Hd H1 H2.
  assert (0 <= v1) by (destruct (Z.neg_nonneg_cases v1); [rewrite i2a_negative in H1 by assumption; discriminate | assumption]).
  assert (0 <= v2) by (destruct (Z.neg_nonneg_cases v2); [rewrite i2a_negative in H2 by assumption; discriminate | assumption]).
  destruct (i2a_total al v1 Hne Hd) as (w1' & E1 & A1); [assumption|].
  destruct (i2a_total al v2 Hne Hd) as (w2' & E2 & A2); [assumption|].
  assert (w1' = w1) by congruence. assert (w2' = w2) by congruence. subst.
  split.
  - intros Hv. destruct (shortlex_total al w1 w2 Hd) as [?|[->|Hs]].
    + eapply a2i_word; exact A1.
    + eapply a2i_word; exact A2.
    + assumption.
    + assert (v1 = v2) by congruence. lia.
    + pose proof (a2i_mono al w2 w1 v2 v1 Hd A2 A1 Hs). lia.
  - apply a2i_mono; assumption.
Qed.

(** ** The spreadsheet notation *)

Lemma ascii_uppercase_nodup : NoDup ascii_uppercase.
Proof.
  unfold ascii_uppercase. cbn.
  repeat (constructor; [cbn; intuition discriminate|]). constructor.
Qed.

Lemma string_of_list_app l s :
  String.append (string_of_list_ascii l) s = string_of_list_ascii (l ++ list_ascii_of_string s).
Proof.
  induction l as [|a l IH]; cbn; [symmetry; apply string_of_list_ascii_of_string|].
  rewrite IH. reflexivity.
Qed.

Lemma list_ascii_append s t :
  list_ascii_of_string (String.append s t) = list_ascii_of_string s ++ list_ascii_of_string t.
Proof. induction s as [|a s IH]; cbn; [reflexivity|]. rewrite IH. reflexivity. Qed.

Lemma list_ascii_inj s t : list_ascii_of_string s = list_ascii_of_string t -> s = t.
Proof.
  intros H. rewrite <- (string_of_list_ascii_of_string s), <- (string_of_list_ascii_of_string t).
  congruence.
Qed.

Lemma to_int_not_nil z : Z.to_int z <> Pos Nil /\ Z.to_int z <> Neg Nil.
Proof.
  destruct z; cbn; split; try discriminate; intros H; inversion H.
  - pose proof (DecimalPos.Unsigned.to_uint_nonnil p). contradiction.
  - pose proof (DecimalPos.Unsigned.to_uint_nonnil p). contradiction.
Qed.

Lemma py_str_int_inj a b : py_str_int a = py_str_int b -> a = b.
Proof.
  unfold py_str_int. intros H.
  assert (E : NilZero.int_of_string (NilZero.string_of_int (Z.to_int a))
              = NilZero.int_of_string (NilZero.string_of_int (Z.to_int b))) by congruence.
  destruct (to_int_not_nil a) as [A1 A2]. destruct (to_int_not_nil b) as [B1 B2].
  rewrite !NilZero.isi in E by assumption. inversion E as [E'].
  rewrite <- (DecimalZ.of_to a), <- (DecimalZ.of_to b). congruence.
Qed.

(** Characters of a decimal integer *)
Definition num_char (c : ascii) : Prop := In c (list_ascii_of_string "-0123456789").

Lemma string_of_uint_chars d : Forall num_char (list_ascii_of_string (NilEmpty.string_of_uint d)).
Proof. induction d; cbn; [constructor|..]; constructor; auto; unfold num_char; cbn; auto 20. Qed.

Lemma py_str_int_chars z : Forall num_char (list_ascii_of_string (py_str_int z)).
Proof.
  unfold py_str_int, NilZero.string_of_int.
  assert (H : forall d, Forall num_char (list_ascii_of_string (NilZero.string_of_uint d))).
  { intros d. unfold NilZero.string_of_uint. destruct d; try apply string_of_uint_chars.
    cbn. constructor; [|constructor]. unfold num_char; cbn; auto 20. }
  destruct (Z.to_int z); cbn; [apply H|]. constructor; [|apply H]. unfold num_char; cbn; auto.
Qed.

Lemma split_classes {A} (P Q : A -> Prop) l1 l2 m1 m2 :
  (forall a, P a -> Q a -> False) ->
  Forall P l1 -> Forall P l2 -> Forall Q m1 -> Forall Q m2 ->
  l1 ++ m1 = l2 ++ m2 -> l1 = l2 /\ m1 = m2.
Proof.
  intros HPQ. revert l2. induction l1 as [|a l1 IH]; intros [|b l2] H1 H2 H3 H4 E; cbn in E.
  - auto.
  - exfalso. subst m1. inversion H2; inversion H3; subst. eapply HPQ; eassumption.
  - exfalso. subst m2. inversion H1; inversion H4; subst. eapply HPQ; eassumption.
  - inversion E; subst. inversion H1; inversion H2; subst.
    destruct (IH l2) as [-> ->]; auto.
Qed.

Lemma uppercase_not_num c : In c ascii_uppercase -> num_char c -> False.
Proof.
  unfold num_char. cbn. intros H.
  repeat (destruct H as [<-|H]; [intuition discriminate|]). contradiction.
Qed.

Lemma coord_str_ok c :
  0 <= cx c -> exists w, coord_str c = Ok (String.append (string_of_list_ascii w) (py_str_int (cy c)))
                         /\ int_to_alphabet (cx c) ascii_uppercase = Ok w
                         /\ alphabet_to_int w ascii_uppercase = Ok (cx c).
Proof.
  intros H. destruct (i2a_total ascii_uppercase (cx c)) as (w & Ew & Aw);
    [discriminate | apply ascii_uppercase_nodup | exact H |].
  exists w. unfold coord_str. rewrite Ew. cbn. auto.
Qed.

Lemma list_of_string_of_list l : list_ascii_of_string (string_of_list_ascii l) = l.
Proof. apply list_ascii_of_string_of_list_ascii. Qed.

Lemma coord_str_inj c d s :
  0 <= cx c -> 0 <= cx d -> coord_str c = Ok s -> coord_str d = Ok s -> c = d.
Proof.
  intros Hc Hd E1 E2.
  destruct (coord_str_ok c Hc) as (w1 & S1 & I1 & A1).
  destruct (coord_str_ok d Hd) as (w2 & S2 & I2 & A2).
  assert (E : String.append (string_of_list_ascii w1) (py_str_int (cy c))
              = String.append (string_of_list_ascii w2) (py_str_int (cy d))) by congruence.
  apply (f_equal list_ascii_of_string) in E. rewrite !list_ascii_append, !list_of_string_of_list in E.
  apply (split_classes (fun a => In a ascii_uppercase) num_char) in E.
  - destruct E as [-> E]. apply list_ascii_inj, py_str_int_inj in E.
    apply coord_ext; congruence.
  - apply uppercase_not_num.
  - eapply a2i_word; exact A1.
  - eapply a2i_word; exact A2.
  - apply py_str_int_chars.
  - apply py_str_int_chars.
Qed.

Definition coord_char (c : ascii) : Prop := In c ascii_uppercase \/ num_char c.

Lemma coord_str_chars c s :
  0 <= cx c -> coord_str c = Ok s -> Forall coord_char (list_ascii_of_string s).
Proof.
  intros Hc E. destruct (coord_str_ok c Hc) as (w1 & S1 & I1 & A1).
  assert (s = String.append (string_of_list_ascii w1) (py_str_int (cy c))) by congruence. subst s.
  rewrite list_ascii_append, list_of_string_of_list. apply Forall_app. split.
  - apply a2i_word in A1. eapply Forall_impl; [|exact A1]. unfold coord_char; auto.
  - eapply Forall_impl; [|apply py_str_int_chars]. unfold coord_char; auto.
Qed.

Lemma colon_not_coord_char : ~ coord_char ":".
Proof.
  intros [H|H].
  - cbn in H. intuition discriminate.
  - unfold num_char in H. cbn in H. intuition discriminate.
Qed.

Lemma box_str_ok b : valid b -> exists s, box_str b = Ok s.
Proof.
  intros V. unfold box_str.
  destruct (coord_str_ok (bmin b)) as (w1 & S1 & _); [unfold valid in V; lia|].
  destruct (coord_str_ok (bmax b)) as (w2 & S2 & _); [unfold valid in V; lia|].
  destruct ((box_width b =? 1) && (box_height b =? 1)).
  - eauto.
  - rewrite S1, S2. cbn. eauto.
Qed.

Lemma box_str_inj a b s : valid a -> valid b -> box_str a = Ok s -> box_str b = Ok s -> a = b.
Proof.
  intros Va Vb Ha Hb.
  assert (A1 : 0 <= cx (bmin a)) by (unfold valid in Va; lia).
  assert (A2 : 0 <= cx (bmax a)) by (unfold valid in Va; lia).
  assert (B1 : 0 <= cx (bmin b)) by (unfold valid in Vb; lia).
  assert (B2 : 0 <= cx (bmax b)) by (unfold valid in Vb; lia).
  unfold box_str in *.
  destruct (coord_str_ok (bmin a) A1) as (wa1 & Sa1 & _).
  destruct (coord_str_ok (bmax a) A2) as (wa2 & Sa2 & _).
  destruct (coord_str_ok (bmin b) B1) as (wb1 & Sb1 & _).
  destruct (coord_str_ok (bmax b) B2) as (wb2 & Sb2 & _).
  rewrite Sa1, Sa2 in Ha. rewrite Sb1, Sb2 in Hb. cbn [rbind] in Ha, Hb.
  set (sa1 := String.append (string_of_list_ascii wa1) _) in *.
  set (sa2 := String.append (string_of_list_ascii wa2) _) in *.
  set (sb1 := String.append (string_of_list_ascii wb1) _) in *.
  set (sb2 := String.append (string_of_list_ascii wb2) _) in *.
  pose proof (coord_str_chars _ _ A1 Sa1) as Ca1. pose proof (coord_str_chars _ _ B1 Sb1) as Cb1.
  destruct ((box_width a =? 1) && (box_height a =? 1)) eqn:Ea;
    destruct ((box_width b =? 1) && (box_height b =? 1)) eqn:Eb.
  - assert (bmin a = bmin b) by (eapply coord_str_inj; eauto; congruence).
    unfold box_width, box_height in *.
    apply box_ext; try congruence;
      (replace (bmin b) with (bmin a) in Eb by assumption); lia.
  - exfalso. inversion Ha; inversion Hb; subst s.
    match goal with H : String.append _ _ = _ |- _ => rewrite <- H in Ca1 end.
    rewrite list_ascii_append in Ca1. apply Forall_app in Ca1 as [_ Ca1].
    inversion Ca1. apply colon_not_coord_char; assumption.
  - exfalso. inversion Ha; inversion Hb; subst s.
    match goal with H : _ = String.append _ _ |- _ => rewrite H in Cb1 end.
    rewrite list_ascii_append in Cb1. apply Forall_app in Cb1 as [_ Cb1].
    inversion Cb1. apply colon_not_coord_char; assumption.
  - assert (E : String.append sa1 (String.append ":" sa2) = String.append sb1 (String.append ":" sb2))
      by congruence.
    apply (f_equal list_ascii_of_string) in E. rewrite !list_ascii_append in E.
    assert (S : list_ascii_of_string sa1 = list_ascii_of_string sb1 /\
                list_ascii_of_string sa2 = list_ascii_of_string sb2).
    { clear - E Ca1 Cb1. revert Ca1 Cb1 E.
      generalize (list_ascii_of_string sa1) (list_ascii_of_string sb1).
      intros l1. induction l1 as [|x l1 IH]; intros [|y l2] H1 H2 E; cbn in E.
      - inversion E; auto.
      - exfalso. inversion E; subst. inversion H2. apply colon_not_coord_char; assumption.
      - exfalso. inversion E; subst. inversion H1. apply colon_not_coord_char; assumption.
      - inversion E; subst. inversion H1; inversion H2; subst.
        destruct (IH l2) as [-> ?]; auto. }
    destruct S as [S1 S2]. apply list_ascii_inj in S1. apply list_ascii_inj in S2.
    assert (bmin a = bmin b) by (eapply coord_str_inj; eauto; congruence).
    assert (bmax a = bmax b) by (eapply coord_str_inj; eauto; congruence).
    destruct a, b; cbn in *; congruence.
Qed.
