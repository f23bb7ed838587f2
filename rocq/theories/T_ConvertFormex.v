(** * Theorems about Formex documents, and about the tables which are left (C78, C79) *)
From Coq Require Import QArith.
From Verif Require Import Base M_Geometry M_Xml M_Cell M_Grid M_Table M_Str M_Builder M_Cals M_CalsParser M_Formex M_FormexParser M_FormexRead M_FormexFinal M_FormexFinish M_Ooxml M_Transform M_Convert M_ConvertDoc.
From Verif Require Import S_Geometry S_Grid S_Table S_Builder S_Cals S_Int S_CalsParser S_Formex S_FormexFinal S_Transform S_FormexFinished S_Convert S_ConvertDoc.
From Verif Require Import P_Table P_Cals P_Formex P_FormexFinished P_Transform P_Source P_ConvertDoc P_ConvertFinish P_ConvertFormex P_NoneLeft.
From Verif Require Import T_CalsParser T_Convert T_FormexRead T_ConvertBack T_Options T_ConvertDoc.
From Verif Require T_Ooxml.
Open Scope string_scope.
Open Scope list_scope.
Open Scope Z_scope.

(** the names of Formex *)
Definition formex (kw : kwargs) (name : string) (n : xnode) : bool := has_name (formex_space kw) name n.

Lemma formex_name kw name n : x_has_tag n (fmx (formex_parser kw) name) = formex kw name n.
Proof. unfold formex, has_name, fmx. rewrite formex_parser_space. destruct (formex_space kw); reflexivity. Qed.
Lemma formex_parent kw tag attrs text ch ch' tail k bef n :
  formex2cals kw (Some (XElem tag attrs text ch tail)) k bef n = formex2cals kw (Some (XElem tag attrs text ch' tail)) k bef n.
Proof. unfold formex2cals. rewrite (parse_parent _ (Some (XElem tag attrs text ch tail)) (Some (XElem tag attrs text ch' tail))) by reflexivity. reflexivity. Qed.

(** ** C78: Formex documents *)

(** The converted document is the source in which each CORPUS is replaced by the table which is made from it, with
    the notes before it in the same parent, followed by the text which followed it; these notes are taken away. *)
Theorem C78_formex_to_cals : forall kw doc o doc',
  cals_builder kw = Ok o -> formex kw "CORPUS" doc = false -> not_nested (formex kw "CORPUS") doc ->
  (convert_formex2cals kw doc = Ok doc' <->
   fconverted (formex kw "CORPUS") (formex kw "GR.NOTES") (formex kw "BLK")
     (fun parent blks before n e => exists t,
        parse_formex (formex_parser kw) (Some parent) blks before n = Ok t /\ generate_table_tree o t = Ok e) 0 doc doc').
Proof.
  intros kw doc o doc' Ho Hr Hn. unfold convert_formex2cals. rewrite Ho. cbn [rbind].
  unfold formex in *. rewrite <- formex_parser_space in *. change (has_name (pf_ns (formex_parser kw)) "CORPUS") with (is_corpus (formex_parser kw)) in *.
  change (has_name (pf_ns (formex_parser kw)) "GR.NOTES") with (is_notes (formex_parser kw)).
  change (has_name (pf_ns (formex_parser kw)) "BLK") with (fun n => x_has_tag n (fmx (formex_parser kw) "BLK")).
  apply formex_converted; [apply formex_parent| |exact Hr|exact Hn].
  intros parent k bef n e. unfold formex2cals. rewrite Ho. cbn [rbind]. destruct (parse_formex _ _ _ _ _) as [t|]; cbn [rbind].
  - split; [intros H; exists t; split; [reflexivity|exact H]|]. intros (t' & [= <-] & H). exact H.
  - split; [discriminate|]. intros (t' & H & _). discriminate H.
Qed.

(** The conversion fails with an error of the options, or with the one of a table. *)
Theorem C78_failure : forall kw doc x, formex kw "CORPUS" doc = false -> not_nested (formex kw "CORPUS") doc ->
  convert_formex2cals kw doc = Err x ->
  cals_builder kw = Err x \/
  exists o parent blks before n, cals_builder kw = Ok o /\ inside doc n /\ formex kw "CORPUS" n = true /\
    (parse_formex (formex_parser kw) (Some parent) blks before n = Err x \/
     exists t, parse_formex (formex_parser kw) (Some parent) blks before n = Ok t /\ generate_table_tree o t = Err x).
Proof.
  intros kw doc x Hr Hn. unfold convert_formex2cals. destruct (cals_builder kw) as [o|y] eqn:Ho; cbn [rbind]; [|intros [= ->]; left; reflexivity].
  unfold formex in *. rewrite <- formex_parser_space in *. change (has_name (pf_ns (formex_parser kw)) "CORPUS") with (is_corpus (formex_parser kw)) in *.
  intros H. right. apply formex_error in H as (p & k & bef & m & H1 & H2 & H3); [|exact Hr|exact Hn].
  unfold formex2cals in H3. rewrite Ho in H3. cbn [rbind] in H3. exists o, p, k, bef, m. split; [reflexivity|]. split; [exact H1|]. split; [exact H2|].
  destruct (parse_formex _ _ _ _ _) as [t|y] eqn:E; cbn [rbind] in H3; [right; exists t; split; [reflexivity|exact H3]|left; injection H3 as ->; reflexivity].
Qed.
(** A CORPUS cannot be the root of a document. *)
Theorem C78_root : forall kw doc, formex kw "CORPUS" doc = true -> exists x, convert_formex2cals kw doc = Err x.
Proof.
  intros kw doc H. unfold convert_formex2cals. destruct (cals_builder kw); cbn [rbind]; [|eauto].
  unfold formex in *. rewrite <- formex_parser_space in *. change (has_name (pf_ns (formex_parser kw)) "CORPUS") with (is_corpus (formex_parser kw)) in *.
  unfold formex_tables. assert (E : exists l, find_all (is_corpus (formex_parser kw)) doc = [] :: l) by (destruct doc; cbn [find_all]; rewrite H; eexists; reflexivity).
  destruct E as (l & ->). cbn [formex_all formex_one node_at]. unfold formex_one. cbn [node_at]. destruct (formex2cals _ _ _ _ _); cbn; eauto.
Qed.

(** ** C79: no table is left *)

Lemma name_apart_cals ns o name : In name ["CORPUS"; "tbl"] -> forall s, In s CALS_NAMES -> ~ In (cals o s) [expanded ns name].
Proof.
  intros Hn s Hs [E|[]]. change (expanded ns name) with (qname ns name) in E. unfold cals in E. revert E. apply names_apart.
  - cbn in Hn. destruct Hn as [<-|[<-|[]]]; discriminate.
  - cbn in Hs. repeat destruct Hs as [<-|Hs]; try discriminate. destruct Hs.
  - cbn in Hn, Hs. destruct Hn as [<-|[<-|[]]]; repeat destruct Hs as [<-|Hs]; try discriminate; destruct Hs.
Qed.
Lemma name_tag ns name n : has_name ns name n = false <-> (forall s, x_tag n = Some s -> ~ In s [expanded ns name]).
Proof.
  unfold has_name. destruct n as [tag ? ? ? ?| |]; cbn [x_tag x_has_tag]; [|split; [discriminate|reflexivity]..]. split.
  - intros H s [= <-] [E|[]]. rewrite E, String.eqb_refl in H. discriminate H.
  - intros H. destruct (String.eqb_spec (expanded ns name) tag) as [E|E]; [|reflexivity]. exfalso. apply (H _ eq_refl). left. exact E.
Qed.
Lemma two_names ns a b n : has_name ns a n = true -> a <> b -> has_name ns b n = false.
Proof.
  unfold has_name. destruct n as [tag ? ? ? ?| |]; cbn [x_has_tag]; [|discriminate..]. intros H Hd. apply String.eqb_eq in H. subst tag.
  apply String.eqb_neq. intros E. apply Hd. unfold expanded in E. destruct ns as [u|]; [|congruence].
  clear -E. assert (G : forall v x y, (v ++ x)%string = (v ++ y)%string -> x = y) by (induction v as [|? v IH]; intros x y H; [exact H|injection H as H; exact (IH _ _ H)]).
  cbn in E. injection E as E. apply G in E. injection E as E. congruence.
Qed.

(** After the conversion of a Formex document there is no CORPUS in it. *)
Theorem C79_no_corpus : forall kw doc doc' n,
  formex kw "CORPUS" doc = false -> not_nested (formex kw "CORPUS") doc -> convert_formex2cals kw doc = Ok doc' ->
  within doc' n -> formex kw "CORPUS" n = false.
Proof.
  intros kw doc doc' n Hr Hn H Hi. destruct (cals_builder kw) as [o|] eqn:Ho; [|unfold convert_formex2cals in H; rewrite Ho in H; discriminate H].
  apply (C78_formex_to_cals kw doc o doc' Ho Hr Hn) in H.
  assert (L : lacks [expanded (formex_space kw) "CORPUS"] doc').
  { refine (fconverted_lacks _ _ (name_tag _ _) _ _ _ _ doc 0 doc' _ H); [|split; [intros K; exfalso; unfold formex in Hr; rewrite Hr in K; discriminate K|exact Hn]].
    intros parent k bef m e Hm Hc Hb (t & Et & Eg). destruct (C70_formex _ _ _ _ _ _ Et) as (HR & HX & _).
    refine (cals_bare o _ _ t e HR HX _ Eg); [apply name_apart_cals; cbn; tauto|]. intros c Hcell. apply Forall_forall. intros p Hp.
    destruct (C77_formex _ _ _ _ _ _ _ _ Et Hcell Hp) as [(x & name & Hx & Hname & Hnx & Hpx)|(x & Hx & Hnx & Hpx)].
    - apply (pieces_bare _ x); [|exact Hpx]. destruct Hx as [->|Hx]; [exact Hc|]. apply lacks_children. inversion Hx as [? y Hy|? y ? Hy Hy']; subst; rewrite Forall_forall in Hc; [apply Hc, Hy|].
      apply (lacks_inside _ y); [exact Hy'|apply Hc, Hy].
    - assert (Lx : lacks [expanded (formex_space kw) "CORPUS"] x).
      { destruct Hx as [Hx|[->|Hx]]; [rewrite Forall_forall in Hb; apply Hb, Hx| |].
        - exfalso. rewrite formex_parser_space in Hnx. apply two_names with (b := "CORPUS") in Hnx; [|discriminate]. unfold formex in Hm. congruence.
        - inversion Hx as [? y Hy|? y ? Hy Hy']; subst; rewrite Forall_forall in Hc; [apply Hc, Hy|]. apply (lacks_inside _ y); [exact Hy'|apply Hc, Hy]. }
      destruct (pf_embed _); [apply (node_pieces_bare _ x Lx p Hpx)|apply (pieces_bare _ x); [apply lacks_children, Lx|exact Hpx]]. }
  apply lacks_has in L as [L1 L2]. destruct Hi as [->|Hi]; [exact L1|apply L2, Hi].
Qed.
(** After the conversion of a Word document to CALS there is no Word table in it. *)
Theorem C79_no_word_table : forall kw ox doc doc' n,
  word "tbl" doc = false -> not_nested (word "tbl") doc -> convert_ooxml2cals kw ox doc = Ok doc' ->
  within doc' n -> word "tbl" n = false.
Proof.
  intros kw ox doc doc' n Hr Hn H Hi. destruct (cals_builder kw) as [o|] eqn:Ho; [|unfold convert_ooxml2cals in H; rewrite Ho in H; discriminate H].
  assert (Hs : exists used, styles_used (word "styles") (ox_styles ox) doc used).
  { unfold styles_used. destruct (ox_styles ox) as [s|]; [exists (Some s); reflexivity|]. eexists. apply first_of_find. reflexivity. }
  destruct Hs as (used & Hs). apply (C75_word_to_cals kw ox doc used o doc' Ho Hs Hr Hn) in H.
  assert (L : lacks [expanded (Some WNS) "tbl"] doc').
  { refine (converted_lacks _ _ (name_tag _ _) _ _ doc [] [] doc' _ H); [|split; [intros K; exfalso; unfold word in Hr; rewrite Hr in K; discriminate K|exact Hn]].
    intros b a m e Hm Hc (sect & t & _ & Et & Eg). destruct (C70_word _ _ _ _ Et) as (HR & HX & _).
    refine (cals_bare o _ _ t e HR HX _ Eg); [apply name_apart_cals; cbn; tauto|]. intros c Hcell. apply Forall_forall. intros p Hp.
    destruct (C77_word _ _ _ _ _ _ Et Hcell Hp) as (x & y & Hx & _ & Hy & _ & ->). apply lacks_set_tail.
    assert (Hxy : inside m y) by (destruct Hx as [->|Hx]; [apply in_child, Hy|clear -Hx Hy; induction Hx as [n c Hc|n c m0 Hc _ IH]; [apply (in_deep _ c); [exact Hc|apply in_child, Hy]|apply (in_deep _ c); [exact Hc|apply IH, Hy]]]).
    inversion Hxy as [? z Hz|? z ? Hz Hz']; subst; rewrite Forall_forall in Hc; [apply Hc, Hz|]. apply (lacks_inside _ z); [exact Hz'|apply Hc, Hz]. }
  apply lacks_has in L as [L1 L2]. destruct Hi as [->|Hi]; [exact L1|apply L2, Hi].
Qed.

(** ** Examples *)

(** two CORPUS in an element with notes before each of them, the second one is in a BLK; the text around *)
Definition corpus_small : xnode := el "CORPUS" [] [el "ROW" [] [say "CELL" [("COL", "1")] "a"]].
Definition formex_doc : xnode :=
  XElem "DOC" [("id", "x")] (Some "begin")
    [say "P" [] "text"; say "GR.NOTES" [] "first"; after "between" corpus_small; say "GR.NOTES" [] "second"; XComment "keep" None;
     el "BLK" [] [after "end" corpus_small]; XElem "TBL" [("CLASS", "c")] None [say "GR.NOTES" [] "third"; corpus_small] None; corpus_small] None.
Example C78_ex : exists o e1 e2 e3 e4, cals_builder kw_conv = Ok o /\
  formex kw_conv "CORPUS" formex_doc = false /\ not_nested (formex kw_conv "CORPUS") formex_doc /\
  convert_formex2cals kw_conv formex_doc =
    Ok (XElem "DOC" [("id", "x")] (Some "begin")
          [say "P" [] "text"; e1; XComment "keep" None; el "BLK" [] [e2]; XElem "TBL" [("CLASS", "c")] None [e3] None; e4] None) /\
  map (fun n => map x_text (entries (cals_space kw_conv) n)) [e1; e2; e3; e4] =
    [[Some "first"; Some "a"]; [Some "a"]; [Some "third"; Some "a"]; [Some "second"; Some "a"]] /\
  map x_tail [e1; e2; e3; e4] = [Some "between"; Some "end"; None; None] /\
  map (fun n => x_get n "tabstyle") [e1; e2; e3; e4] = [None; None; Some "c"; None].
Proof.
  assert (B : exists o, cals_builder kw_conv = Ok o) by (eexists; vm_compute; reflexivity). destruct B as (o & B). exists o.
  assert (E : exists d, convert_formex2cals kw_conv formex_doc = Ok d) by (eexists; vm_compute; reflexivity). destruct E as (d & E). vm_compute in E. injection E as <-.
  do 4 eexists. split; [exact B|]. split; [reflexivity|]. split; [apply apart_not_nested; vm_compute; reflexivity|].
  split; [vm_compute; reflexivity|]. split; [vm_compute; reflexivity|]. split; vm_compute; reflexivity.
Qed.
Example C78_failure_ex : exists x, let bad := el "CORPUS" [] [el "ROW" [] [say "CELL" [("COLSPAN", "x")] "a"]] in
  formex kw_conv "CORPUS" (el "DOC" [] [bad]) = false /\ not_nested (formex kw_conv "CORPUS") (el "DOC" [] [bad]) /\
  convert_formex2cals kw_conv (el "DOC" [] [bad]) = Err x.
Proof. eexists. cbn zeta. split; [reflexivity|]. split; [apply apart_not_nested; vm_compute; reflexivity|]. vm_compute. reflexivity. Qed.
Example C78_root_ex : formex kw_conv "CORPUS" corpus_small = true.
Proof. reflexivity. Qed.
Example C79_no_corpus_ex : exists d n, convert_formex2cals kw_conv formex_doc = Ok d /\ formex kw_conv "CORPUS" n = true /\ within formex_doc n.
Proof.
  exists (match convert_formex2cals kw_conv formex_doc with Ok d => d | _ => formex_doc end), corpus_small. split; [vm_compute; reflexivity|]. split; [reflexivity|].
  right. apply in_child. do 7 right. left. reflexivity.
Qed.
Example C79_no_word_table_ex : exists d, convert_ooxml2cals kw_conv ox_none word_doc = Ok d /\ exists n, within word_doc n /\ word "tbl" n = true.
Proof.
  exists (match convert_ooxml2cals kw_conv ox_none word_doc with Ok d => d | _ => word_doc end). split; [vm_compute; reflexivity|].
  eexists. split; [right; eapply in_deep; [right; left; reflexivity|apply in_child; left; reflexivity]|reflexivity].
Qed.

(** The text which comes after notes is lost: the notes are taken away with it. *)
Inductive text_in : xnode -> string -> Prop :=
| text_own n s : x_text n = Some s -> text_in n s
| text_after n c s : In c (x_children n) -> x_tail c = Some s -> text_in n s
| text_deep n c s : In c (x_children n) -> text_in c s -> text_in n s.
Theorem C78_text_refuted : exists kw doc doc' s, formex kw "CORPUS" doc = false /\ not_nested (formex kw "CORPUS") doc /\
  convert_formex2cals kw doc = Ok doc' /\ text_in doc s /\ ~ text_in doc' s.
Proof.
  exists kw_conv, (el "DOC" [] [after "lost" (say "GR.NOTES" [] "note"); corpus_small]),
    (match convert_formex2cals kw_conv (el "DOC" [] [after "lost" (say "GR.NOTES" [] "note"); corpus_small]) with Ok d => d | _ => corpus_small end), "lost".
  split; [reflexivity|]. split; [apply apart_not_nested; vm_compute; reflexivity|]. split; [vm_compute; reflexivity|]. split.
  - eapply text_after; [left; reflexivity|reflexivity].
  - vm_compute. intros H.
    repeat match goal with
    | H : False |- _ => destruct H
    | H : _ \/ _ |- _ => destruct H as [<-|H]
    | H : In _ _ |- _ => cbn in H
    | H : x_text _ = Some _ |- _ => cbn in H; discriminate H
    | H : x_tail _ = Some _ |- _ => cbn in H; discriminate H
    | H : text_in _ _ |- _ => inversion H; clear H; subst
    end.
Qed.

Print Assumptions C78_formex_to_cals.
Print Assumptions C78_failure.
Print Assumptions C78_root.
Print Assumptions C78_text_refuted.
Print Assumptions C79_no_corpus.
Print Assumptions C79_no_word_table.
