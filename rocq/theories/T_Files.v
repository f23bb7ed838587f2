(** * Theorems about the conversion of files (C83) and of several files (C84) *)
From Coq Require Import Permutation.
From Verif Require Import Base M_Xml M_Geometry M_Cell M_Grid M_Table M_Cals M_CalsParser M_Formex M_FormexParser M_FormexRead M_FormexFinal M_FormexFinish M_Ooxml M_Transform M_Convert M_ConvertDoc M_Nested M_NestedFormex M_Files.
From Verif Require Import S_Transform S_Files P_Cals P_Files.
From Verif Require Import T_CalsParser T_FormexRead T_ConvertBack T_Options T_ConvertDoc T_Nested.
From Verif Require T_Ooxml.
Open Scope string_scope.
Open Scope list_scope.
Open Scope Z_scope.

(** ** C83: the effect of a conversion on the files *)

Lemma converted_options c s sheet doc doc' : converted c s sheet doc = Ok doc' -> make_parser c s = Ok tt.
Proof.
  unfold converted, make_parser. intros H. destruct c; try reflexivity.
  - unfold nested_formex2cals in H. bind H as o E. reflexivity.
  - unfold nested_ooxml2cals in H. bind H as o E. reflexivity.
Qed.

(** A conversion which succeeds writes the converted document in the destination file, and changes no other file. *)
Theorem C83_written : forall lib c s src dst fs fs', convert_file lib c s src dst fs = (fs', Ok tt) ->
  exists out, to_write lib fs c s src out /\ only_written fs fs' dst out.
Proof.
  intros lib c s src dst fs fs' H. rewrite convert_effect in H. destruct (make_parser c s); [|discriminate H]. unfold effect in H.
  destruct (result_of lib c s fs src) as [out|x] eqn:E; [|discriminate H]. destruct (l_writable lib dst); [|discriminate H]. injection H as <-.
  exists out. split; [apply result_write, E|apply put_only].
Qed.
(** When the documents can be read, converted and written, the conversion succeeds. *)
Theorem C83_complete : forall lib c s src dst fs out, to_write lib fs c s src out -> l_writable lib dst = true ->
  exists fs', convert_file lib c s src dst fs = (fs', Ok tt) /\ only_written fs fs' dst out.
Proof.
  intros lib c s src dst fs out H Hw. pose proof H as (around & doc & sheet & doc' & _ & _ & HC & _). rewrite convert_effect, (converted_options _ _ _ _ _ HC).
  apply result_write in H. unfold effect. rewrite H, Hw. eexists. split; [reflexivity|apply put_only].
Qed.
(** A conversion which fails changes no file: the destination is as it was. *)
Theorem C83_failure : forall lib c s src dst fs fs' x, convert_file lib c s src dst fs = (fs', Err x) -> forall p, fs' p = fs p.
Proof.
  intros lib c s src dst fs fs' x H p. rewrite convert_effect in H. destruct (make_parser c s); [|injection H as <- _; reflexivity]. unfold effect in H.
  destruct (result_of lib c s fs src) as [out|y]; [|injection H as <- _; reflexivity]. destruct (l_writable lib dst); [discriminate H|injection H as <- _; reflexivity].
Qed.
(** The reasons of a failure: the options, a file which is not there, a file which is not XML, the conversion itself, the encoding, a
    destination which cannot be written *)
Theorem C83_causes : forall lib c s src dst fs fs' x, convert_file lib c s src dst fs = (fs', Err x) ->
  (forall sheet doc, exists y, converted c s sheet doc = Err y) \/
  (exists p, (p = src \/ sheet_path c s = Some p) /\ (fs p = None /\ x = l_io lib \/ exists bytes, fs p = Some bytes /\ l_read lib bytes = Err x)) \/
  (exists around doc sheet, has_document lib fs src (around, doc) /\ has_sheet lib fs c s sheet /\
     (converted c s sheet doc = Err x \/ exists doc', converted c s sheet doc = Ok doc' /\ l_write lib (s_encoding s) (around, doc') = Err x)) \/
  (l_writable lib dst = false /\ x = l_io lib).
Proof.
  intros lib c s src dst fs fs' x H. rewrite convert_effect in H. destruct (make_parser c s) as [[]|y] eqn:EM.
  2:{ left. intros sheet doc. destruct (converted c s sheet doc) as [doc'|z] eqn:E; [|eauto]. apply converted_options in E. congruence. }
  right. unfold effect in H. assert (RD : forall p, read_tree lib fs p = Err x -> fs p = None /\ x = l_io lib \/ exists bytes, fs p = Some bytes /\ l_read lib bytes = Err x).
  { intros p Hp. unfold read_tree in Hp. destruct (fs p) as [bytes|]; [right; eauto|left; split; congruence]. }
  destruct (result_of lib c s fs src) as [out|y] eqn:E.
  - right. right. destruct (l_writable lib dst); [discriminate H|]. split; congruence.
  - assert (y = x) by congruence. subst y. clear H. unfold result_of in E. destruct (read_tree lib fs src) as [[around doc]|y] eqn:E1; cbn [rbind fst snd] in E.
    2:{ left. exists src. split; [auto|]. apply RD. congruence. }
    destruct (sheet_of lib c s fs) as [sheet|y] eqn:E2; cbn [rbind] in E.
    2:{ left. injection E as ->. unfold sheet_of in E2. destruct (sheet_path c s) as [p|]; [|discriminate]. exists p. split; [auto|]. apply RD. destruct (read_tree lib fs p); [discriminate|cbn in E2; congruence]. }
    right. left. exists around, doc, sheet. split; [apply read_has, E1|]. split; [apply sheet_has, E2|].
    destruct (converted c s sheet doc) as [doc'|y]; cbn [rbind] in E; [right; eauto|left; congruence].
Qed.
(** Without its source, or its style sheet, a conversion fails. *)
Theorem C83_missing : forall lib c s src dst fs, (fs src = None \/ exists p, sheet_path c s = Some p /\ fs p = None) ->
  exists x, snd (convert_file lib c s src dst fs) = Err x.
Proof.
  intros lib c s src dst fs H. destruct (convert_file lib c s src dst fs) as [fs' [[]|x]] eqn:E; [|exists x; reflexivity]. exfalso.
  apply C83_written in E as (out & (around & doc & sheet & doc' & (b & H1 & _) & H2 & _) & _). destruct H as [H|(p & Hp & H)]; [congruence|].
  unfold has_sheet in H2. rewrite Hp in H2. destruct H2 as (a & r & (b' & H2 & _) & _). congruence.
Qed.
(** Only the source and the style sheet are read: what the destination had does not matter. *)
Theorem C83_reads : forall lib c s src dst fs1 fs2, fs1 src = fs2 src -> (forall p, sheet_path c s = Some p -> fs1 p = fs2 p) ->
  snd (convert_file lib c s src dst fs1) = snd (convert_file lib c s src dst fs2) /\
  (snd (convert_file lib c s src dst fs1) = Ok tt -> fst (convert_file lib c s src dst fs1) dst = fst (convert_file lib c s src dst fs2) dst).
Proof.
  intros lib c s src dst fs1 fs2 H1 H2. rewrite !convert_effect. destruct (make_parser c s); [|split; [reflexivity|discriminate]]. unfold effect.
  rewrite (result_same lib c s fs1 fs2 src H1 H2). destruct (result_of lib c s fs2 src) as [out|x]; [|split; [reflexivity|discriminate]].
  destruct (l_writable lib dst); [|split; [reflexivity|discriminate]]. split; [reflexivity|]. intros _. cbn [fst]. unfold put_file. rewrite String.eqb_refl. reflexivity.
Qed.
(** A file can be converted in place, and it is as if the conversion was written elsewhere. *)
Theorem C83_in_place : forall lib c s src dst fs fs1, convert_file lib c s src dst fs = (fs1, Ok tt) -> l_writable lib src = true ->
  exists fs2, convert_file lib c s src src fs = (fs2, Ok tt) /\ fs2 src = fs1 dst /\ forall p, p <> src -> fs2 p = fs p.
Proof.
  intros lib c s src dst fs fs1 H1 Hw. pose proof H1 as H. apply C83_written in H as (out & H & [H' _]). destruct (C83_complete lib c s src src fs out H Hw) as (fs2 & E & E1 & E2).
  exists fs2. split; [exact E|]. split; [congruence|exact E2].
Qed.

(** ** C84: several files *)

(** One parser for several files does what a parser for each file does, whatever it has converted before, with or without
    success. *)
Theorem C84_same_parser : forall lib c s jobs n fs, make_parser c s = Ok tt -> parse_files lib c s jobs n fs = convert_files lib c s jobs fs.
Proof.
  intros lib c s jobs n fs HM. revert n fs. induction jobs as [|[src dst] jobs IH]; intros n fs; [reflexivity|]. cbn [parse_files convert_files].
  pose proof (parse_effect lib c s src dst n fs HM) as E. destruct (parse_file lib c s src dst n fs) as [n' r]. cbn [snd] in E. subst r.
  rewrite convert_effect, HM. rewrite IH. reflexivity.
Qed.
Theorem C84_one_file : forall lib c s src dst n fs, make_parser c s = Ok tt -> snd (parse_file lib c s src dst n fs) = convert_file lib c s src dst fs.
Proof. intros lib c s src dst n fs HM. rewrite convert_effect, HM. apply parse_effect, HM. Qed.

(** Conversions which do not read what the others write: each one does what it does alone. *)
Theorem C84_each : forall lib c s jobs fs, independent c s jobs ->
  snd (convert_files lib c s jobs fs) = map (fun j => snd (convert_file lib c s (fst j) (snd j) fs)) jobs /\
  (forall j, In j jobs -> fst (convert_files lib c s jobs fs) (snd j) = fst (convert_file lib c s (fst j) (snd j) fs) (snd j)) /\
  (forall p, ~ In p (map snd jobs) -> fst (convert_files lib c s jobs fs) p = fs p).
Proof.
  intros lib c s jobs. induction jobs as [|[src dst] jobs IH]; intros fs (HN & HS & HP); [split; [reflexivity|]; split; [intros j []|reflexivity]|].
  cbn [convert_files]. destruct (convert_file lib c s src dst fs) as [fs1 r] eqn:E. cbn [fst snd].
  assert (HO : forall p, p <> dst -> fs1 p = fs p).
  { intros p Hp. destruct r as [[]|x]; [apply C83_written in E as (out & _ & _ & E); apply E, Hp|exact (C83_failure _ _ _ _ _ _ _ _ E p)]. }
  inversion HN as [|? ? HN1 HN2]; subst. destruct (IH fs1) as (I1 & I2 & I3).
  { split; [exact HN2|]. split; [intros j j' Hj Hj'; apply HS; right; assumption|intros j p Hj; apply HP; right; exact Hj]. }
  assert (HJ : forall j, In j jobs -> snd (convert_file lib c s (fst j) (snd j) fs1) = snd (convert_file lib c s (fst j) (snd j) fs) /\
    fst (convert_file lib c s (fst j) (snd j) fs1) (snd j) = fst (convert_file lib c s (fst j) (snd j) fs) (snd j)).
  { intros j Hj. assert (Hd : snd j <> dst) by (intros Hd; apply HN1; rewrite <- Hd; apply in_map, Hj).
    destruct (C83_reads lib c s (fst j) (snd j) fs1 fs) as [R1 R2].
    - apply HO. intros Hs. pose proof (HS j (src, dst) (or_intror Hj) (or_introl eq_refl) Hs) as ->. apply Hd. reflexivity.
    - intros p Hp. apply HO. exact (HP (src, dst) p (or_introl eq_refl) Hp).
    - split; [exact R1|]. destruct (convert_file lib c s (fst j) (snd j) fs1) as [g1 r1] eqn:G1. destruct (convert_file lib c s (fst j) (snd j) fs) as [g2 r2] eqn:G2. cbn [fst snd] in *. subst r2.
      destruct r1 as [[]|x]; [apply R2; reflexivity|]. rewrite (C83_failure _ _ _ _ _ _ _ _ G1), (C83_failure _ _ _ _ _ _ _ _ G2). apply HO, Hd. }
  destruct (convert_files lib c s jobs fs1) as [fs' rs] eqn:EF. cbn [fst snd map] in *. rewrite E. cbn [snd]. split; [|split].
  - f_equal. rewrite I1. apply map_ext_in. intros j Hj. apply (proj1 (HJ j Hj)).
  - intros j [<-|Hj]; [cbn [fst snd]; rewrite E; apply I3, HN1|]. rewrite (I2 j Hj). apply (proj2 (HJ j Hj)).
  - intros p Hp. rewrite I3 by (intros K; apply Hp; right; exact K). apply HO. intros ->. apply Hp. left. reflexivity.
Qed.
(** The order does not matter. *)
Theorem C84_order : forall lib c s jobs jobs' fs, independent c s jobs -> Permutation jobs jobs' ->
  forall p, fst (convert_files lib c s jobs fs) p = fst (convert_files lib c s jobs' fs) p.
Proof.
  intros lib c s jobs jobs' fs HI HPm p. assert (HI' : independent c s jobs').
  { destruct HI as (H1 & H2 & H3). split; [apply (Permutation_NoDup (Permutation_map snd HPm) H1)|]. apply Permutation_sym in HPm.
    split; [intros j j' Hj Hj'; apply H2; eapply Permutation_in; eassumption|intros j q Hj; apply H3; eapply Permutation_in; eassumption]. }
  destruct (C84_each lib c s jobs fs HI) as (_ & A2 & A3). destruct (C84_each lib c s jobs' fs HI') as (_ & B2 & B3).
  destruct (in_dec string_dec p (map snd jobs)) as [Hp|Hp].
  - apply in_map_iff in Hp as (j & <- & Hj). rewrite (A2 j Hj). symmetry. apply B2. exact (Permutation_in _ HPm Hj).
  - rewrite (A3 p Hp). symmetry. apply B3. intros K. apply Hp. refine (Permutation_in _ _ K). apply Permutation_map, Permutation_sym, HPm.
Qed.

(** ** Examples *)

(** a library which knows some documents, and writes the numbers of the tables and the text of a document; "/locked" cannot be written *)
Definition lib_ex : library :=
  MkLibrary string
    (fun bytes => if String.eqb bytes "<cals>" then Ok ("<!-- cals -->", nested_doc) else if String.eqb bytes "<word>" then Ok ("", word_nested)
                  else if String.eqb bytes "<styles>" then Ok ("", T_Ooxml.ex_sheet) else if String.eqb bytes "<bad>" then Ok ("", small []) else Err (EUser 1))
    (fun encoding tree => if String.eqb encoding "utf-8" then Ok (fst tree ++ String.concat " " (map (ostr) (numbers_of (snd tree))) ++ ":" ++ string_value (snd tree))%string else Err (EUser 2))
    (fun p => negb (String.eqb p "/locked")) (EUser 3).
Definition disk (l : list (string * string)) : files := dget l.
Definition disk_ex : files := disk [("a.xml", "<cals>"); ("b.xml", "junk"); ("w.xml", "<word>"); ("styles.xml", "<styles>"); ("root.xml", "<bad>"); ("old.xml", "old")].
Definition settings_ex (path : option string) (encoding : string) : settings := MkSettings kw_conv ox_pt path encoding.
Definition sure : settings := settings_ex None "utf-8".
Definition a_text : string := "<!-- cals -->0001 0001.0001 0001.0001.0001:beginxbeforexxyyafterybetweenend".

Example C83_ex :
  (let r := convert_file lib_ex Cals2Formex sure "a.xml" "old.xml" disk_ex in snd r = Ok tt /\ fst r "old.xml" = Some a_text /\ fst r "a.xml" = Some "<cals>") /\
  (let r := convert_file lib_ex Cals2Formex sure "a.xml" "a.xml" disk_ex in snd r = Ok tt /\ fst r "a.xml" = Some a_text) /\
  (let r := convert_file lib_ex Ooxml2Formex (settings_ex (Some "styles.xml") "utf-8") "w.xml" "new.xml" disk_ex in
     snd r = Ok tt /\ fst r "new.xml" = Some "0001 0001.0001 0001.0001.0001:xxxybetweenend" /\ sheet_path Ooxml2Formex (settings_ex (Some "styles.xml") "utf-8") = Some "styles.xml").
Proof. vm_compute. repeat (split; [repeat (split; [reflexivity|]); reflexivity|]). repeat (split; [reflexivity|]). reflexivity. Qed.
Example C83_complete_ex : to_write lib_ex disk_ex Cals2Formex sure "a.xml" a_text /\ l_writable lib_ex "old.xml" = true.
Proof.
  split; [|reflexivity]. apply result_write. vm_compute. reflexivity.
Qed.
(** each way to fail *)
Example C83_failure_ex :
  snd (convert_file lib_ex Cals2Formex sure "none.xml" "old.xml" disk_ex) = Err (EUser 3) /\
  snd (convert_file lib_ex Cals2Formex sure "b.xml" "old.xml" disk_ex) = Err (EUser 1) /\
  snd (convert_file lib_ex Cals2Formex sure "root.xml" "old.xml" disk_ex) = Err EAttributeError /\
  snd (convert_file lib_ex Cals2Formex (settings_ex None "klingon") "a.xml" "old.xml" disk_ex) = Err (EUser 2) /\
  snd (convert_file lib_ex Cals2Formex sure "a.xml" "/locked" disk_ex) = Err (EUser 3) /\
  snd (convert_file lib_ex Ooxml2Cals (settings_ex (Some "none.xml") "utf-8") "w.xml" "old.xml" disk_ex) = Err (EUser 3) /\
  snd (convert_file lib_ex Ooxml2Cals (MkSettings (MkKwargs None (Some "c") None false [] true false None false (fun _ => "0")) ox_pt None "utf-8") "w.xml" "old.xml" disk_ex) = Err EValueError.
Proof. vm_compute. repeat (split; [reflexivity|]). reflexivity. Qed.

Definition jobs_ex : list (string * string) := [("a.xml", "1.xml"); ("b.xml", "2.xml"); ("root.xml", "3.xml"); ("a.xml", "4.xml")].
(** one parser, a counter which goes on, and the same numbers in the files *)
Example C84_ex : make_parser Cals2Formex sure = Ok tt /\ independent Cals2Formex sure jobs_ex /\
  fst (parse_file lib_ex Cals2Formex sure "a.xml" "1.xml" 41 disk_ex) = 44 /\
  (let r := parse_files lib_ex Cals2Formex sure jobs_ex 41 disk_ex in
     snd r = [Ok tt; Err (EUser 1); Err EAttributeError; Ok tt] /\ fst r "1.xml" = Some a_text /\ fst r "4.xml" = Some a_text /\ fst r "2.xml" = None).
Proof.
  split; [reflexivity|]. split.
  { split; [repeat (apply NoDup_cons; [cbn; intuition discriminate|]); apply NoDup_nil|]. split.
    - intros j j' Hj Hj'. cbn in Hj, Hj'. intuition (subst; discriminate).
    - intros j p _ H. discriminate H. }
  vm_compute. repeat (split; [reflexivity|]). reflexivity.
Qed.

Print Assumptions C83_written.
Print Assumptions C83_complete.
Print Assumptions C83_failure.
Print Assumptions C83_causes.
Print Assumptions C83_missing.
Print Assumptions C83_reads.
Print Assumptions C83_in_place.
Print Assumptions C84_same_parser.
Print Assumptions C84_one_file.
Print Assumptions C84_each.
Print Assumptions C84_order.
