(** * Theorems about units (C35, C36) *)
From Coq Require Import QArith Qabs.
From Verif Require Import Base M_Regex M_Units S_Units P_Units.
Open Scope Z_scope.

(** ** C35 *)

(** What the string reads is what parse_width returns... *)
Theorem C35_value_and_unit : forall s d num u q,
    reads_width (list_ascii_of_string s) num u -> numeral num q ->
    exists v, parse_width s d = Ok (v, match u with [] => d | _ => string_of_list_ascii u end) /\ (v == q)%Q.
Proof.
  intros s d num u q HR Hq. pose proof (parse_width_spec s d) as H.
  destruct (parse_width s d) as [[v unit]|e].
  - destruct H as (num' & u' & HR' & Hv & ->). destruct (reads_width_unique _ _ _ _ _ HR HR') as [<- <-].
    exists v. split; [reflexivity|]. apply Hv, Hq.
  - exfalso. destruct H as [_ H]. destruct (numeral_has_digit num (ex_intro _ q Hq)) as (c & Hc & Hd).
    apply (H c); [|exact Hd]. destruct HR as (pre & rest & E & _). rewrite E, !in_app_iff. auto.
Qed.

(** ... every string with a digit reads something, in one way... *)
Theorem C35_reads_something : forall s c, In c (list_ascii_of_string s) -> digit c ->
    exists num u, reads_width (list_ascii_of_string s) num u.
Proof.
  intros s c Hc Hd. pose proof (parse_width_spec s "") as H. destruct (parse_width s "") as [[v unit]|e].
  - destruct H as (num & u & HR & _). eauto.
  - exfalso. destruct H as [_ H]. apply (H c Hc Hd).
Qed.
Theorem C35_reads_one_way : forall s num u num' u', reads_width s num u -> reads_width s num' u' -> num = num' /\ u = u'.
Proof. exact reads_width_unique. Qed.

(** ... and IndexError is raised exactly when there is no digit. *)
Theorem C35_index_error : forall s d e,
    parse_width s d = Err e <-> e = EIndexError /\ forall c, In c (list_ascii_of_string s) -> ~ digit c.
Proof.
  intros s d e. pose proof (parse_width_spec s d) as H. destruct (parse_width s d) as [[v unit]|e'].
  - split; [discriminate|]. intros [_ Hn]. exfalso. destruct H as (num & u & (pre & rest & E & L & _) & _).
    destruct (numeral_has_digit num (proj1 L)) as (c & Hc & Hd). apply (Hn c); [|exact Hd].
    rewrite E, !in_app_iff. auto.
  - destruct H as [-> H]. split.
    + intros [= <-]. auto.
    + intros [-> _]. reflexivity.
Qed.

Example C35_ex : exists num u q,
    reads_width (list_ascii_of_string "w: -.25mmx 3") num u /\ numeral num q /\ (q == - (1 # 4))%Q /\
    u = ["m"; "m"]%char.
Proof.
  destruct (C35_reads_something "w: -.25mmx 3" "2"%char) as (num & u & H); [vm_compute; tauto|vm_compute; tauto|].
  exists num, u. assert (Hn : exists q, numeral num q) by (destruct H as (pre & rest & _ & L & _); apply L).
  destruct Hn as [q Hq]. exists q. split; [exact H|]. split; [exact Hq|].
  destruct (C35_value_and_unit _ "zz" num u q H Hq) as (v & E & Ev). vm_compute in E.
  injection E as E1 E2. rewrite <- Ev, <- E1. split; [reflexivity|].
  destruct u as [|c1 [|c2 [|c3 u]]]; cbn in E2; [discriminate|discriminate|injection E2 as <- <-; reflexivity|discriminate].
Qed.

(** ** C36 *)

Theorem C36_convert : forall v a b p q, millimetres a p -> millimetres b q ->
    exists r, convert_value v a b = Ok r /\ nearest_milli (v * p / q) r /\ (Qabs (r - v * p / q) <= 1 # 2000)%Q.
Proof. exact convert_spec. Qed.

Theorem C36_same_unit : forall v a, In a unit_names -> exists r, convert_value v a a = Ok r /\ nearest_milli v r.
Proof. exact convert_same. Qed.

Theorem C36_idempotent : forall v a b r, convert_value v a b = Ok r ->
    exists r', convert_value r b b = Ok r' /\ (r' == r)%Q.
Proof. exact convert_idem. Qed.

Theorem C36_monotone : forall v w a b r s,
    (v <= w)%Q -> convert_value v a b = Ok r -> convert_value w a b = Ok s -> (r <= s)%Q.
Proof. exact convert_mono. Qed.

(** There and back: the error of one rounding, scaled, plus the one of the other. *)
Theorem C36_there_and_back : forall v a b p q r,
    millimetres a p -> millimetres b q -> convert_value v a b = Ok r ->
    exists s, convert_value r b a = Ok s /\ (Qabs (s - v) <= (1 # 2000) * (1 + q / p))%Q.
Proof. exact convert_back. Qed.

Theorem C36_key_error : forall v a b e,
    convert_value v a b = Err e <-> e = EKeyError /\ (~ In a unit_names \/ ~ In b unit_names).
Proof.
  intros v a b e. assert (HD : forall u, {In u unit_names} + {~ In u unit_names}) by (intros u; apply in_dec, string_dec).
  destruct (HD a) as [Ha|Ha]; [destruct (HD b) as [Hb|Hb]|].
  - split; [|tauto]. apply millimetres_names in Ha as [p Hp]. apply millimetres_names in Hb as [q Hq].
    destruct (convert_spec v a b p q Hp Hq) as (r & E & _). rewrite E. discriminate.
  - unfold convert_value. rewrite (unit_length_unknown b Hb).
    assert (Ea : exists x, unit_length a = Ok x).
    { apply millimetres_names in Ha as [p Hp]. destruct (millimetres_table a p Hp) as (m & E & _). eauto. }
    destruct Ea as [x ->]. cbn. split; [intros [= <-]; auto|]. intros [-> _]. reflexivity.
  - unfold convert_value. rewrite (unit_length_unknown a Ha). cbn. split; [intros [= <-]; auto|]. intros [-> _]. reflexivity.
Qed.

Example C36_ex : convert_value (1 # 1) "pt" "mm" = Ok (353 # 1000)%Q /\ convert_value (-5 # 2) "in" "cm" = Ok (-6350 # 1000)%Q /\
  millimetres "ft" (12 * (254 # 10)) /\ convert_value (1 # 1) "em" "mm" = Err EKeyError.
Proof. repeat split; try (vm_compute; reflexivity). repeat constructor. Qed.

(** A pica has 12 points, and there are 6 in an inch; not here. *)
Theorem C36_pica_refuted :
  exists v r, convert_value v "pc" "pt" = Ok r /\ ~ (Qabs (r - 12 * v) <= 1 # 2000)%Q.
Proof. exists (1 # 1)%Q, (6000 # 1000)%Q. split; [vm_compute; reflexivity|]. vm_compute. intros H. apply H. reflexivity. Qed.

Print Assumptions C35_value_and_unit.
Print Assumptions C35_reads_something.
Print Assumptions C35_reads_one_way.
Print Assumptions C35_index_error.
Print Assumptions C36_convert.
Print Assumptions C36_same_unit.
Print Assumptions C36_idempotent.
Print Assumptions C36_monotone.
Print Assumptions C36_there_and_back.
Print Assumptions C36_key_error.
Print Assumptions C36_pica_refuted.
