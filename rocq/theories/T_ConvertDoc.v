(** * Theorems about the conversion of documents (C75, C76, C77) *)
From Coq Require Import QArith.
From Verif Require Import Base M_Geometry M_Xml M_Cell M_Grid M_Table M_Str M_Builder M_Cals M_CalsParser M_Formex M_FormexParser M_FormexRead M_FormexFinal M_FormexFinish M_Ooxml M_Transform M_Convert M_ConvertDoc.
From Verif Require Import S_Geometry S_Grid S_Table S_Builder S_Cals S_Int S_CalsParser S_Formex S_FormexFinal S_Transform S_FormexFinished S_Convert S_ConvertDoc.
From Verif Require Import P_Table P_Cals P_Formex P_FormexNumber P_FormexFinished P_Transform P_Source P_ConvertDoc P_ConvertFinish.
From Verif Require Import T_CalsParser T_Convert T_FormexRead T_ConvertBack T_Options.
From Verif Require T_Ooxml.
Open Scope string_scope.
Open Scope list_scope.
Open Scope Z_scope.

(** the names of Word *)
Definition word (name : string) (n : xnode) : bool := has_name (Some WNS) name n.
(** the options, with another style sheet *)
Definition with_sheet (ox : ooxml_opts) (used : option xnode) : ooxml_opts :=
  MkOoxmlOpts used (ox_float ox) (ox_repr ox) (ox_fixed ox) (ox_page ox) (ox_limit ox).

Lemma styles_used_with ox doc used : styles_used (word "styles") (ox_styles ox) doc used -> with_styles ox doc = with_sheet ox used.
Proof.
  unfold styles_used, with_styles, with_sheet. destruct (ox_styles ox) as [s|] eqn:E.
  - intros ->. destruct ox. cbn in *. rewrite E. reflexivity.
  - intros H. apply first_of_find in H. change (word "styles") with (fun n => x_has_tag n (wq "styles")) in H. rewrite H. reflexivity.
Qed.
Lemma sect_found after sect : first_of (word "sectPr") after sect <-> sect_after after = sect.
Proof. apply first_of_find. Qed.
Lemma converted_iff is_table (R R' : list xnode -> list xnode -> xnode -> xnode -> Prop) names n b a d :
  (forall b a n e, lacks names n -> (R b a n e <-> R' b a n e)) -> lacks names n ->
  (converted is_table R b a n d <-> converted is_table R' b a n d).
Proof.
  intros H HL. split; (apply (converted_impl _ _ _ names); [|exact HL]); intros b0 a0 n0 e0 L0; apply (H b0 a0 n0 e0 L0).
Qed.
Lemma lacks_nothing n : lacks [] n.
Proof.
  induction n as [tag attrs text children tail IH| |] using xnode_ind'; [apply lacks_elem; [intros []|exact IH]|apply lacks_pi|].
  constructor; [discriminate|intros x []].
Qed.

(** ** C75: documents converted to CALS *)

(** The converted document is the source in which each Word table is replaced by the table which is made
    from it, followed by the text which followed it.  The section of a table is the first one which comes
    after it; the style sheet is the one which is given or the first one of the document. *)
Theorem C75_word_to_cals : forall kw ox doc used o doc',
  cals_builder kw = Ok o -> styles_used (word "styles") (ox_styles ox) doc used ->
  word "tbl" doc = false -> not_nested (word "tbl") doc ->
  (convert_ooxml2cals kw ox doc = Ok doc' <->
   converted (word "tbl")
     (fun _ after n e => exists sect t, first_of (word "sectPr") after sect /\
        ox_parse_table (with_sheet ox used) sect n = Ok t /\ generate_table_tree o t = Ok e) [] [] doc doc').
Proof.
  intros kw ox doc used o doc' Ho Hs Hr Hn. unfold convert_ooxml2cals. rewrite Ho. cbn [rbind]. rewrite (styles_used_with _ _ _ Hs).
  rewrite doc_converted by assumption. apply (converted_iff _ _ _ []); [|apply lacks_nothing].
  intros b a n e _. unfold by_number, ooxml2cals. rewrite Ho. cbn [rbind]. split.
  - intros (k & _ & H). destruct (ox_parse_table _ _ n) as [t|] eqn:E; cbn [rbind] in H; [|discriminate].
    exists (sect_after a), t. split; [apply sect_found; reflexivity|]. split; assumption.
  - intros (sect & t & H1 & H2 & H3). apply sect_found in H1. eexists. split; [apply counted_total|]. rewrite H1, H2. exact H3.
Qed.
(** The conversion fails with an error of the options, or with the one of a table. *)
Theorem C75_word_to_cals_failure : forall kw ox doc used x,
  styles_used (word "styles") (ox_styles ox) doc used -> word "tbl" doc = false -> not_nested (word "tbl") doc ->
  convert_ooxml2cals kw ox doc = Err x ->
  cals_builder kw = Err x \/
  exists o before after n sect, cals_builder kw = Ok o /\ place [] [] doc before after n /\ word "tbl" n = true /\
    first_of (word "sectPr") after sect /\
    (ox_parse_table (with_sheet ox used) sect n = Err x \/
     exists t, ox_parse_table (with_sheet ox used) sect n = Ok t /\ generate_table_tree o t = Err x).
Proof.
  intros kw ox doc used x Hs Hr Hn. unfold convert_ooxml2cals. destruct (cals_builder kw) as [o|y] eqn:Ho; cbn [rbind]; [|intros [= ->]; left; reflexivity].
  rewrite (styles_used_with _ _ _ Hs), doc_rk by assumption. intros H. right.
  destruct (rk_err _ _ doc x [] [] H) as (b' & a' & m & Hp & Hm & Hc). unfold ooxml2cals in Hc. rewrite Ho in Hc. cbn [rbind] in Hc.
  exists o, b', a', m, (sect_after a'). split; [reflexivity|]. split; [exact Hp|]. split; [exact Hm|]. split; [apply sect_found; reflexivity|].
  destruct (ox_parse_table _ _ m) as [t|y] eqn:E; cbn [rbind] in Hc; [right; exists t; split; [reflexivity|exact Hc]|left; injection Hc as ->; reflexivity].
Qed.

(** ** C76: documents converted to Formex *)

Section Numbered.
  Variable is_table : xnode -> bool.
  Variable convert : list xnode -> Z -> xnode -> result xnode.
  Variable ns : option string.
  Hypothesis HT : forall a k n e, convert a k n = Ok e -> x_tag e = Some "TBL".
  Hypothesis HS : forall a k n e, lacks TAGS n -> convert a k n = Ok e -> shaped (k - 1) e.
  Hypothesis HK : forall a k n, convert a k n = (e <-? convert a 1 n ;; Ok (x_set e "NO.SEQ" (format04 k))).

  Definition finished_table (before after : list xnode) (n e : xnode) : Prop :=
    exists k s e0 e1, counted is_table before k /\ four_digits (k + 1) s /\ convert after 1 n = Ok e0 /\
      finalize_tree ns e0 = Ok e1 /\ e = x_set e1 "NO.SEQ" s.
  Lemma numbered_finished b a n e' : lacks TAGS n ->
    ((exists e, by_number is_table convert b a n e /\ later ns e = Ok e') <-> finished_table b a n e').
  Proof.
    intros HL. split.
    - intros (e & (k & Hk & He) & Hl). rewrite HK in He. destruct (convert a 1 n) as [e0|] eqn:E0; cbn [rbind] in He; [|discriminate]. injection He as <-.
      rewrite (later_number ns _ _ _ (HT _ _ _ _ E0)) in Hl. destruct (later ns e0) as [e1|] eqn:E1; cbn [rbind] in Hl; [|discriminate]. injection Hl as <-.
      exists k, (format04 (k + 1)), e0, e1. split; [exact Hk|]. split; [apply format04_spec; apply counted_numb in Hk; lia|]. split; [exact E0|]. split; [|reflexivity].
      rewrite <- E1. apply finalize_table. exact (HS _ _ _ _ HL E0).
    - intros (k & s & e0 & e1 & Hk & Hs & E0 & E1 & ->).
      assert (Es : s = format04 (k + 1)) by (apply (four_digits_unique (k + 1)); [exact Hs|apply format04_spec; apply counted_numb in Hk; lia]). subst s.
      exists (x_set e0 "NO.SEQ" (format04 (k + 1))). split.
      + exists k. split; [exact Hk|]. rewrite HK, E0. reflexivity.
      + rewrite (later_number ns _ _ _ (HT _ _ _ _ E0)). rewrite (finalize_table ns e0 (HS _ _ _ _ HL E0)) in E1. rewrite E1. reflexivity.
  Qed.
  Lemma document_finished doc doc' : is_table doc = false -> not_nested is_table doc -> lacks TAGS doc ->
    ((d <-? doc_tables is_table convert doc ;; finalize_tree ns d) = Ok doc' <-> converted is_table finished_table [] [] doc doc').
  Proof.
    intros Hr Hn HL. assert (HF : flat is_table doc) by (split; [congruence|exact Hn]).
    assert (HT' : forall b a n e, by_number is_table convert b a n e -> x_tag e = Some "TBL") by (intros b a n e (k & _ & H); exact (HT _ _ _ _ H)).
    assert (HR' : forall b a n e, lacks TAGS n -> by_number is_table convert b a n e -> shaped (Z.of_nat (numb is_table b)) e).
    { intros b a n e L (k & Hk & H). apply counted_numb in Hk. apply HS in H; [|exact L]. replace (k + 1 - 1) with k in H by lia. rewrite <- Hk. exact H. }
    rewrite <- (converted_iff is_table _ _ TAGS doc [] [] doc' numbered_finished HL).
    rewrite <- (finished is_table _ HT' HR' ns doc doc' HF HL). split.
    - destruct (doc_tables is_table convert doc) as [d|] eqn:E; cbn [rbind]; [|discriminate]. intros H. exists d. split; [|exact H]. apply doc_converted; assumption.
    - intros (d & H & E). apply doc_converted in H; [|assumption..]. rewrite H. exact E.
  Qed.
End Numbered.

Lemma generated_tag o k t e : generate_tbl o k t = Ok e -> x_tag e = Some "TBL".
Proof. unfold generate_tbl. intros H. bind H as c E1. bind H as a E2. bind H as b E3. bind H as d E4. injection H as <-. reflexivity. Qed.
Lemma generated_shaped o k t e : treachable t -> views_exact Rows t -> (forall c, In c (t_grid t) -> Forall clean (content_pieces (c_content c))) ->
  generate_tbl o k t = Ok e -> shaped (k - 1) e.
Proof.
  intros H1 H2 H3 H4. destruct (generated o k t e H1 H2 H3 H4) as (a & title & ca & kids & -> & HT & HK & HN & _). eexists a, _, _. split; [reflexivity|]. split.
  - assert (W : forall n, lacks NAMES n -> lacks ["TBL"] n) by (intros n H; apply (lacks_weaken _ _ _ H); intros x [<-|[]]; cbn; tauto).
    apply Forall_app. split; [apply (Forall_impl _ W HT)|]. constructor; [|constructor]. apply lacks_elem; [cbn; intuition discriminate|apply (Forall_impl _ W HK)].
  - replace (k - 1 + 1) with k by lia. exact HN.
Qed.
Lemma cals_table_name kw n : cals_is_table (cals_parser kw) n = has_name (cals_space kw) "table" n.
Proof. unfold cals_is_table, has_name, pcals. rewrite cals_parser_space. destruct (cals_space kw); reflexivity. Qed.

Lemma converted_ext is1 is2 R : (forall n, is1 n = is2 n) -> forall n b a d, converted is1 R b a n d -> converted is2 R b a n d.
Proof.
  intros E. induction n as [tag attrs text children tail IH| |] using xnode_ind'; intros b a d H.
  - inversion H as [? ? ? e Et Re|? ? ? ? ? ? ch' ? Et Hl| |]; subst;
      [apply (cv_table is2 R b a (XElem tag attrs text children tail)); [rewrite <- E|]; assumption|].
    constructor; [rewrite <- E; exact Et|]. clear H Et. revert b ch' Hl.
    induction children as [|c l IHl]; intros b ch' Hl; inversion Hl; subst; constructor; inversion IH; subst; auto.
  - inversion H as [? ? ? e Et Re| | |]; subst; [apply (cv_table is2 R b a (XPI target pitext tail)); [rewrite <- E|]; assumption|constructor; rewrite <- E; assumption].
  - inversion H as [? ? ? e Et Re| | |]; subst; [apply (cv_table is2 R b a (XComment ctext tail)); [rewrite <- E|]; assumption|constructor; rewrite <- E; assumption].
Qed.
Lemma counted_ext is1 is2 l k : (forall n, is1 n = is2 n) -> counted is1 l k -> counted is2 l k.
Proof. intros E. induction 1 as [|n l k H _ IH|n l k H _ IH]; [constructor|apply counted_here; [rewrite <- E; exact H|exact IH]|apply counted_next; [rewrite <- E; exact H|exact IH]]. Qed.

(** The document has no element named TBL, ROW or CORPUS.  The converted document is the source in which each
    table is replaced by the finished table which is made from it alone; only its number, one plus the number
    of the tables which come before it, depends on the others. *)
Theorem C76_cals_to_formex : forall kw doc doc', let table := has_name (cals_space kw) "table" in
  table doc = false -> not_nested table doc -> lacks ["TBL"; "ROW"; "CORPUS"] doc ->
  (convert_cals2formex kw doc = Ok doc' <->
   converted table
     (fun before _ n e => exists k s e0 e1, counted table before k /\ four_digits (k + 1) s /\
        cals2formex kw 1 n = Ok e0 /\ finalize_tree (formex_cals_space kw) e0 = Ok e1 /\ e = x_set e1 "NO.SEQ" s) [] [] doc doc').
Proof.
  intros kw doc doc' table Hr Hn HL. unfold convert_cals2formex. rewrite formex_builder_space.
  set (is_t := cals_is_table (cals_parser kw)). assert (E : forall n, is_t n = table n) by apply cals_table_name.
  rewrite (document_finished is_t (fun _ k n => cals2formex kw k n)).
  - unfold finished_table. split; intros H.
    + apply (converted_ext _ _ _ E) in H. revert H. apply (converted_impl _ _ _ TAGS); [|exact HL].
      intros b a n e _ (k & s & e0 & e1 & Hk & R). exists k, s, e0, e1. split; [apply (counted_ext is_t); assumption|exact R].
    + apply (converted_ext table is_t) in H; [|intros n; symmetry; apply E]. revert H. apply (converted_impl _ _ _ TAGS); [|exact HL].
      intros b a n e _ (k & s & e0 & e1 & Hk & R). exists k, s, e0, e1. split; [apply (counted_ext table); [intros m; symmetry; apply E|exact Hk]|exact R].
  - intros _ k n e H. unfold cals2formex in H. bind H as t Et. exact (generated_tag _ _ _ _ H).
  - intros _ k n e L H. unfold cals2formex in H. bind H as t Et. destruct (C70_cals _ _ _ Et) as (R & X & _).
    exact (generated_shaped _ _ _ _ R X (cals_clean _ _ _ L Et) H).
  - intros _ k n. unfold cals2formex. destruct (parse_table _ n) as [t|]; cbn [rbind]; [|reflexivity]. apply generate_number.
  - rewrite E. exact Hr.
  - intros n m [H1 H2] H3. rewrite E in *. apply (Hn n m); [split; assumption|exact H3].
  - exact HL.
Qed.
Theorem C76_word_to_formex : forall kw ox doc used doc',
  styles_used (word "styles") (ox_styles ox) doc used -> word "tbl" doc = false -> not_nested (word "tbl") doc -> lacks ["TBL"; "ROW"; "CORPUS"] doc ->
  (convert_ooxml2formex kw ox doc = Ok doc' <->
   converted (word "tbl")
     (fun before after n e => exists sect k s e0 e1, first_of (word "sectPr") after sect /\ counted (word "tbl") before k /\ four_digits (k + 1) s /\
        ooxml2formex kw (with_sheet ox used) sect 1 n = Ok e0 /\ finalize_tree (formex_cals_space kw) e0 = Ok e1 /\ e = x_set e1 "NO.SEQ" s) [] [] doc doc').
Proof.
  intros kw ox doc used doc' Hs Hr Hn HL. unfold convert_ooxml2formex. rewrite formex_builder_space, (styles_used_with _ _ _ Hs).
  rewrite (document_finished is_word_tbl (fun after k n => ooxml2formex kw (with_sheet ox used) (sect_after after) k n)).
  - unfold finished_table. apply (converted_iff _ _ _ TAGS); [|exact HL]. intros b a n e _. split.
    + intros (k & s & e0 & e1 & Hk & H4 & R). exists (sect_after a), k, s, e0, e1. split; [apply sect_found; reflexivity|]. split; [exact Hk|]. split; [exact H4|exact R].
    + intros (sect & k & s & e0 & e1 & H1 & Hk & H4 & R). apply sect_found in H1. subst sect. exists k, s, e0, e1. split; [exact Hk|]. split; [exact H4|exact R].
  - intros a k n e H. unfold ooxml2formex in H. bind H as t Et. exact (generated_tag _ _ _ _ H).
  - intros a k n e L H. unfold ooxml2formex in H. bind H as t Et. destruct (C70_word _ _ _ _ Et) as (R & X & _).
    exact (generated_shaped _ _ _ _ R X (word_clean _ _ _ _ L Et) H).
  - intros a k n. unfold ooxml2formex. destruct (ox_parse_table _ _ n) as [t|]; cbn [rbind]; [|reflexivity]. apply generate_number.
  - exact Hr.
  - exact Hn.
  - exact HL.
Qed.

(** A document whose root is a table is not converted. *)
Lemma doc_root is_table convert doc : is_table doc = true -> exists x, doc_tables is_table convert doc = Err x.
Proof.
  intros H. unfold doc_tables. assert (E : exists l, find_all is_table doc = [] :: l) by (destruct doc; cbn; rewrite H; eexists; reflexivity).
  destruct E as (l & ->). cbn [doc_all doc_one node_at]. destruct (convert _ _ _); cbn; eauto.
Qed.
Theorem C75_root : forall kw ox doc,
  (word "tbl" doc = true -> exists x, convert_ooxml2cals kw ox doc = Err x) /\
  (word "tbl" doc = true -> exists x, convert_ooxml2formex kw ox doc = Err x) /\
  (has_name (cals_space kw) "table" doc = true -> exists x, convert_cals2formex kw doc = Err x).
Proof.
  intros kw ox doc. split; [|split]; intros H.
  - unfold convert_ooxml2cals. destruct (cals_builder kw); cbn [rbind]; [|eauto]. apply doc_root, H.
  - unfold convert_ooxml2formex. match goal with |- context [doc_tables ?p ?c doc] => destruct (doc_root p c doc H) as (x & ->) end. cbn [rbind]. eauto.
  - unfold convert_cals2formex. rewrite <- cals_table_name in H.
    match goal with |- context [doc_tables ?p ?c doc] => destruct (doc_root p c doc H) as (x & ->) end. cbn [rbind]. eauto.
Qed.

(** ** C77: the contents of the tables come from the source *)

Definition within (e n : xnode) : Prop := n = e \/ inside e n.
Lemma tree_within n : forall m, In m (tree_nodes n) -> within n m.
Proof.
  induction n as [tag attrs text children tail IH| |] using xnode_ind'; intros m Hm; cbn [tree_nodes] in Hm.
  - destruct Hm as [<-|Hm]; [left; reflexivity|]. right. apply in_flat_map in Hm as (c & Hc & Hm). rewrite Forall_forall in IH.
    destruct (IH c Hc m Hm) as [->|H]; [apply in_child, Hc|apply (in_deep _ c); assumption].
  - destruct Hm as [<-|[]]. left. reflexivity.
  - destruct Hm as [<-|[]]. left. reflexivity.
Qed.
Lemma entry_pieces n p : In p (flat_map content_pieces (entry_content n)) -> In p (elem_pieces n).
Proof.
  unfold entry_content, elem_pieces. rewrite flat_map_app, !in_app_iff. intros [H|H].
  - left. destruct (x_text n) as [s|]; [|destruct H]. destruct (truthy (Some s)); [|destruct H].
    cbn [flat_map content_pieces ostr] in H. rewrite app_nil_r in H. exact H.
  - right. rewrite flat_map_concat_map, map_map, <- flat_map_concat_map in H. exact H.
Qed.
Lemma tagged_name ns name n : x_tag n = Some (qname ns name) -> has_name ns name n = true.
Proof. unfold has_name. destruct n; cbn; try discriminate. intros [= ->]. destruct ns; apply String.eqb_refl. Qed.

(** Whatever the element which is read, each character and each node in a cell of the table comes from an entry
    of this element. *)
Theorem C77_cals : forall o e t c p, parse_table o e = Ok t -> In c (table_iter t) -> In p (content_pieces (c_content c)) ->
  exists n, within e n /\ has_name (pc_ns o) "entry" n = true /\ In p (elem_pieces n).
Proof.
  intros o e t c p E Hc Hp. set (Q := fun p => exists n, within e n /\ has_name (pc_ns o) "entry" n = true /\ In p (elem_pieces n)).
  assert (G : good Q t).
  { apply (cals_source Q o e t); [|exact E]. intros n Hn Ht. split; [|exact I]. apply Forall_forall. intros q Hq. exists n.
    split; [apply tree_within, Hn|]. split; [apply tagged_name, Ht|apply entry_pieces, Hq]. }
  unfold good in G. rewrite Forall_forall in G. destruct (G c Hc) as [F _]. rewrite Forall_forall in F. exact (F p Hp).
Qed.
(** For Word, each one is a paragraph or a table of a cell, without the text which follows it. *)
Theorem C77_word : forall o sect e t c p, ox_parse_table o sect e = Ok t -> In c (table_iter t) -> In p (content_pieces (c_content c)) ->
  exists n m, within e n /\ word "tc" n = true /\ In m (x_children n) /\ (word "p" m = true \/ word "tbl" m = true) /\ p = Node (x_set_tail m None).
Proof.
  intros o sect e t c p E Hc Hp.
  set (Q := fun p => exists n m, within e n /\ word "tc" n = true /\ In m (x_children n) /\ (word "p" m = true \/ word "tbl" m = true) /\ p = Node (x_set_tail m None)).
  assert (G : good Q t).
  { apply (word_source Q o sect e t); [|exact E]. intros n Hn Ht. split; [|exact I]. apply Forall_forall. intros q Hq.
    cbn [content_pieces] in Hq. apply in_flat_map in Hq as (d & Hd & Hq). apply in_map_iff in Hd as (x & <- & Hx). unfold tc_content in Hx.
    apply in_map_iff in Hx as (m & <- & Hm). apply filter_In in Hm as [Hm Hk]. exists n, m.
    split; [apply tree_within, Hn|]. split; [exact (tagged_name (Some WNS) "tc" n Ht)|]. split; [exact Hm|]. split; [apply orb_prop in Hk; exact Hk|].
    cbn [content_pieces] in Hq. unfold node_pieces in Hq. destruct m; cbn in Hq; destruct Hq as [<-|[]]; reflexivity. }
  unfold good in G. rewrite Forall_forall in G. destruct (G c Hc) as [F _]. rewrite Forall_forall in F. exact (F p Hp).
Qed.
(** For Formex, from a cell or the title of a block, or from notes which come before: their contents, or the
    element itself when the notes are to be kept. *)
Theorem C77_formex : forall o parent blks before e t c p, parse_formex o parent blks before e = Ok t -> In c (table_iter t) -> In p (content_pieces (c_content c)) ->
  (exists n name, within e n /\ In name ["CELL"; "TI.BLK"; "STI.BLK"] /\ has_name (pf_ns o) name n = true /\ In p (elem_pieces n)) \/
  (exists n, (In n before \/ within e n) /\ has_name (pf_ns o) "GR.NOTES" n = true /\
     if pf_embed o then In p (node_pieces n) else In p (elem_pieces n)).
Proof.
  intros o parent blks before e t c p E Hc Hp.
  set (Q := fun p => (exists n name, within e n /\ In name ["CELL"; "TI.BLK"; "STI.BLK"] /\ has_name (pf_ns o) name n = true /\ In p (elem_pieces n)) \/
  (exists n, (In n before \/ within e n) /\ has_name (pf_ns o) "GR.NOTES" n = true /\ if pf_embed o then In p (node_pieces n) else In p (elem_pieces n))).
  assert (FC : forall n q, In q (content_pieces (fmx_content o n)) -> In q (elem_pieces n)).
  { intros n q Hq. unfold fmx_content in Hq. destruct (contains_ie o n); [destruct Hq|]. apply entry_pieces, Hq. }
  assert (G : good Q t).
  { apply (formex_source Q o parent blks before e t); [| |exact E].
    - intros n Hn (s & Hs & Ht). split; [|unfold fmx_content; destruct (contains_ie o n); exact I]. apply Forall_forall. intros q Hq. left. exists n, s.
      split; [apply tree_within, Hn|]. split; [exact Hs|]. split; [apply tagged_name, Ht|apply FC, Hq].
    - intros n Hn Ht. split; [|unfold notes_content, fmx_content; destruct (pf_embed o), (contains_ie o n); exact I]. apply Forall_forall. intros q Hq. right. exists n.
      split; [destruct Hn as [Hn|Hn]; [left; exact Hn|right; apply tree_within, Hn]|]. split; [apply tagged_name, Ht|].
      unfold notes_content in Hq. destruct (pf_embed o); [|apply FC, Hq]. cbn [content_pieces flat_map] in Hq. rewrite app_nil_r in Hq. exact Hq. }
  unfold good in G. rewrite Forall_forall in G. destruct (G c Hc) as [F _]. rewrite Forall_forall in F. exact (F p Hp).
Qed.

(** ** Examples *)

Fixpoint lacksb (names : list string) (n : xnode) : bool :=
  match n with XElem tag _ _ children _ => negb (str_mem tag names) && forallb (lacksb names) children | _ => true end.
Lemma lacksb_lacks names n : lacksb names n = true -> lacks names n.
Proof.
  induction n as [tag attrs text children tail IH| |] using xnode_ind'; cbn [lacksb]; intros H; [|apply lacks_pi|constructor; [discriminate|intros x []]].
  apply andb_prop in H as [H1 H2]. apply lacks_elem.
  - intros Hi. apply negb_true_iff in H1. unfold str_mem in H1. assert (K : existsb (String.eqb tag) names = true) by (apply existsb_exists; exists tag; split; [exact Hi|apply String.eqb_refl]). congruence.
  - rewrite forallb_forall in H2. rewrite Forall_forall in *. auto.
Qed.
Lemma inside_nodes n m : inside n m -> In m (flat_map tree_nodes (x_children n)).
Proof.
  induction 1 as [n c H|n c m H _ IH]; apply in_flat_map; exists c; (split; [exact H|]); destruct c; cbn [tree_nodes x_children] in *; try (left; reflexivity); right; exact IH.
Qed.
Definition apartb (p : xnode -> bool) (doc : xnode) : bool :=
  forallb (fun n => negb (p n) || forallb (fun m => negb (p m)) (flat_map tree_nodes (x_children n))) (flat_map tree_nodes (x_children doc)).
Lemma apart_not_nested p doc : apartb p doc = true -> not_nested p doc.
Proof.
  intros H n m [Hn Ht] Hm. unfold apartb in H. rewrite forallb_forall in H. specialize (H n (inside_nodes _ _ Hn)). rewrite Ht in H. cbn in H.
  rewrite forallb_forall in H. apply negb_true_iff. apply H, inside_nodes, Hm.
Qed.

(** two CALS tables, and the text around them *)
Definition after (s : string) (n : xnode) : xnode := x_set_tail n (Some s).
Definition cals_doc : xnode :=
  XElem "doc" [("id", "x")] (Some "begin") [after "between" doc_conv; XElem "p" [] (Some "text") [after "end" doc_full] None; XComment "last" None] None.
Example C76_cals_ex : exists t1 t2 f1 f2, has_name (cals_space kw_conv) "table" cals_doc = false /\
  not_nested (has_name (cals_space kw_conv) "table") cals_doc /\ lacks ["TBL"; "ROW"; "CORPUS"] cals_doc /\
  cals2formex kw_conv 1 doc_conv = Ok t1 /\ finalize_tree (formex_cals_space kw_conv) t1 = Ok f1 /\
  cals2formex kw_conv 1 doc_full = Ok t2 /\ finalize_tree (formex_cals_space kw_conv) t2 = Ok f2 /\
  x_get f1 "NO.SEQ" = Some "0001" /\ x_get f2 "NO.SEQ" = Some "0001" /\
  convert_cals2formex kw_conv cals_doc =
    Ok (XElem "doc" [("id", "x")] (Some "begin")
          [after "between" f1; XElem "p" [] (Some "text") [after "end" (x_set f2 "NO.SEQ" "0002")] None; XComment "last" None] None).
Proof.
  do 4 eexists. split; [reflexivity|]. split; [apply apart_not_nested; vm_compute; reflexivity|]. split; [apply lacksb_lacks; vm_compute; reflexivity|].
  split; [vm_compute; reflexivity|]. split; [vm_compute; reflexivity|]. split; [vm_compute; reflexivity|]. split; [vm_compute; reflexivity|].
  split; [vm_compute; reflexivity|]. split; [vm_compute; reflexivity|]. vm_compute. reflexivity.
Qed.

(** two Word tables, each one with the section after it; the style sheet of the document is used *)
Definition wide_section : xnode := T_Ooxml.w "sectPr" [] [T_Ooxml.w "pgSz" [("w", "16838"); ("h", "11906"); ("orient", "landscape")] []].
Definition tall_section : xnode := T_Ooxml.w "sectPr" [] [T_Ooxml.w "pgSz" [("w", "11906"); ("h", "16838"); ("orient", "portrait")] []].
Definition word_doc : xnode :=
  T_Ooxml.w "document" [] [T_Ooxml.ex_sheet;
    T_Ooxml.w "body" [] [after "between" T_Ooxml.ex_tbl; T_Ooxml.w "p" [] [T_Ooxml.w "pPr" [] [wide_section]]; T_Ooxml.ex_tbl; tall_section]].
Definition ox_none : ooxml_opts := T_Ooxml.opts None.
Example C75_word_ex : exists e1 e2, let ox := with_sheet ox_none (Some T_Ooxml.ex_sheet) in
  styles_used (word "styles") (ox_styles ox_none) word_doc (Some T_Ooxml.ex_sheet) /\ word "tbl" word_doc = false /\ not_nested (word "tbl") word_doc /\
  ooxml2cals kw_conv ox (Some wide_section) T_Ooxml.ex_tbl = Ok e1 /\ ooxml2cals kw_conv ox (Some tall_section) T_Ooxml.ex_tbl = Ok e2 /\
  x_get e1 "orient" = Some "land" /\ x_get e2 "orient" = Some "port" /\
  convert_ooxml2cals kw_conv ox_none word_doc =
    Ok (T_Ooxml.w "document" [] [T_Ooxml.ex_sheet;
          T_Ooxml.w "body" [] [after "between" e1; T_Ooxml.w "p" [] [T_Ooxml.w "pPr" [] [wide_section]]; e2; tall_section]]).
Proof.
  do 2 eexists. cbn zeta. split; [apply first_of_find; vm_compute; reflexivity|]. split; [reflexivity|]. split; [apply apart_not_nested; vm_compute; reflexivity|].
  split; [vm_compute; reflexivity|]. split; [vm_compute; reflexivity|]. split; [vm_compute; reflexivity|]. split; [vm_compute; reflexivity|]. vm_compute. reflexivity.
Qed.
Example C76_word_ex : exists doc', lacks ["TBL"; "ROW"; "CORPUS"] word_doc /\ convert_ooxml2formex kw_conv (with_sheet ox_pair None) word_doc = Ok doc' /\
  match x_children doc' with
  | [_; body] => map (fun n => (x_get n "NO.SEQ", x_tail n)) (x_children body) =
                 [(Some "0001", Some "between"); (None, None); (Some "0002", None); (None, None)]
  | _ => False
  end.
Proof. eexists. split; [apply lacksb_lacks; vm_compute; reflexivity|]. split; vm_compute; reflexivity. Qed.
(** a table which cannot be converted *)
Example C75_failure_ex : exists x, let bad := T_Ooxml.w "tbl" [] [T_Ooxml.w "tr" [] [T_Ooxml.w "tc" [] [T_Ooxml.w "tcPr" [] [T_Ooxml.w "gridSpan" [("val", "x")] []]]]] in
  convert_ooxml2cals kw_conv ox_none (T_Ooxml.w "body" [] [bad]) = Err x /\ ooxml2cals kw_conv ox_none None bad = Err x.
Proof. eexists. split; vm_compute; reflexivity. Qed.
Example C75_root_ex : word "tbl" T_Ooxml.ex_tbl = true.
Proof. reflexivity. Qed.
Example C77_cals_ex : exists t c, parse_table T_CalsParser.o0 doc_conv = Ok t /\ In c (table_iter t) /\ In (Char "d"%char) (content_pieces (c_content c)).
Proof. eexists. eexists. split; [vm_compute; reflexivity|]. split; [vm_compute; do 5 right; left; reflexivity|]. vm_compute. left. reflexivity. Qed.
Example C77_word_ex : exists t c, ox_parse_table ox_none None T_Ooxml.ex_tbl = Ok t /\ In c (table_iter t) /\ In (Node (T_Ooxml.text_p "b")) (content_pieces (c_content c)).
Proof. eexists. eexists. split; [vm_compute; reflexivity|]. split; [vm_compute; right; left; reflexivity|]. vm_compute. left. reflexivity. Qed.
Example C77_formex_ex : exists t c, parse_formex (MkPFmxOpts None None false) None 0 [say "GR.NOTES" [] "n"] (el "CORPUS" [] [el "ROW" [] [say "CELL" [("COL", "1")] "a"]]) = Ok t /\
  In c (table_iter t) /\ In (Char "n"%char) (content_pieces (c_content c)).
Proof. eexists. eexists. split; [vm_compute; reflexivity|]. split; [vm_compute; right; left; reflexivity|]. vm_compute. left. reflexivity. Qed.

Print Assumptions C75_word_to_cals.
Print Assumptions C75_word_to_cals_failure.
Print Assumptions C75_root.
Print Assumptions C76_cals_to_formex.
Print Assumptions C76_word_to_formex.
Print Assumptions C77_cals.
Print Assumptions C77_word.
Print Assumptions C77_formex.
