(** * Theorems about documents which have tables inside tables (C80), and about the tables which are left (C79) *)
From Coq Require Import QArith.
From Verif Require Import Base M_Geometry M_Xml M_Cell M_Grid M_Table M_Str M_Builder M_Cals M_CalsParser M_Formex M_FormexParser M_FormexRead M_FormexFinal M_FormexFinish M_Ooxml M_Transform M_Convert M_ConvertDoc M_Nested.
From Verif Require Import S_Geometry S_Grid S_Table S_Builder S_Cals S_Int S_CalsParser S_Formex S_FormexFinal S_Transform S_FormexFinished S_Convert S_ConvertDoc S_Nested.
From Verif Require Import P_Table P_Cals P_Formex P_FormexFinished P_Transform P_Source P_ConvertDoc P_ConvertFinish P_ConvertFormex P_NoneLeft P_Nested P_NestedKept P_NestedFlat P_FinishNames.
From Verif Require Import T_CalsParser T_Convert T_FormexRead T_ConvertBack T_Options T_ConvertDoc T_ConvertFormex.
From Verif Require T_Ooxml.
Open Scope string_scope.
Open Scope list_scope.
Open Scope Z_scope.

(** the tables of a CALS document *)
Definition cals_table (kw : kwargs) (n : xnode) : bool := has_name (cals_space kw) "table" n.

(** ** The tables of a generated table are those of the cells of the source *)
Section Kept.
  Variable name : string.
  Variable n : xnode.
  Notation tbl m := (x_has_tag m name).
  Definition inner (m : xnode) : Prop := tbl m = true -> exists m0, inside n m0 /\ same_node m m0.
  Lemma inner_tail m t : inner (x_set_tail m t) <-> inner m.
  Proof.
    unfold inner. assert (E : tbl (x_set_tail m t) = tbl m) by (destruct m; reflexivity). rewrite E.
    split; intros H Ht; destruct (H Ht) as (m0 & H1 & H2); exists m0; (split; [exact H1|]).
    - exact (same_trans _ _ _ (same_sym _ _ (same_tail m t)) H2).
    - exact (same_trans _ _ _ (same_tail m t) H2).
  Qed.
  Lemma inner_pi a b c : inner (XPI a b c).
  Proof. intros H. discriminate H. Qed.
  Lemma inner_other tag attrs text ch tail : tag <> name -> inner (XElem tag attrs text ch tail).
  Proof. intros H Ht. cbn [x_has_tag] in Ht. apply String.eqb_eq in Ht. congruence. Qed.
  Lemma inner_child x c : within n x -> In c (x_children x) -> all inner c.
  Proof.
    intros Hx Hc m Hm _. exists m. split; [|reflexivity]. assert (K : inside x m) by (apply in_nodes in Hm as [->|Hm]; [apply in_child, Hc|apply (in_deep _ c); assumption]).
    destruct Hx as [->|Hx]; [exact K|]. clear -Hx K. induction Hx as [y z Hz|y z w Hz _ IH]; [apply (in_deep _ z); assumption|apply (in_deep _ z); [exact Hz|apply IH, K]].
  Qed.
  Lemma inner_pieces x p : within n x -> In p (elem_pieces x) -> allp inner p.
  Proof.
    intros Hx Hp. unfold elem_pieces in Hp. apply in_app_or in Hp as [Hp|Hp].
    - destruct (x_text x) as [s|]; [|destruct Hp]. unfold otext_pieces, text_pieces in Hp. apply in_map_iff in Hp as (a & <- & _). exact I.
    - apply in_flat_map in Hp as (c & Hc & Hp). pose proof (all_pieces inner inner_tail c (inner_child x c Hx Hc)) as F. rewrite Forall_forall in F. exact (F p Hp).
  Qed.
End Kept.

Ltac other_name := intros E; revert E; apply names_apart; discriminate.
Lemma formex_other ns nm name : In nm ["table"; "tbl"] -> In name FORMEX_NAMES -> name <> qname ns nm.
Proof.
  intros Hn Hf E. change name with (qname None name) in E. revert E.
  cbn in Hn, Hf. destruct Hn as [<-|[<-|[]]]; repeat destruct Hf as [<-|Hf]; try (apply names_apart; discriminate); destruct Hf.
Qed.
Lemma spec_other ns nm o : In nm ["table"; "tbl"] -> cals o "colspec" <> qname ns nm.
Proof. intros Hn. cbn in Hn. destruct Hn as [<-|[<-|[]]]; apply names_apart; discriminate. Qed.

Lemma formex_inner o k t ns nm n e : In nm ["table"; "tbl"] -> treachable t -> views_exact Rows t ->
  (forall c p, In c (table_iter t) -> In p (content_pieces (c_content c)) -> allp (inner (qname ns nm) n) p) ->
  generate_tbl o k t = Ok e -> x_has_tag e (qname ns nm) = false /\ forall m, inside e m -> inner (qname ns nm) n m.
Proof.
  intros Hn HR HX HC H.
  assert (K : all (inner (qname ns nm) n) e).
  { refine (generated_all _ (inner_tail _ _) (inner_pi _ _) o _ _ k t e HR HX _ H).
    - intros name attrs text ch tail Hf. apply inner_other, formex_other; assumption.
    - intros attrs text ch tail. apply inner_other, spec_other, Hn.
    - intros c Hc. apply Forall_forall. intros p Hp. exact (HC c p Hc Hp). }
  split; [|intros m Hm; apply K, in_nodes; right; exact Hm].
  unfold generate_tbl in H. bind H as cols E1. bind H as a1 E2. bind H as a2 E3. bind H as ch E4. injection H as <-. cbn [x_has_tag]. apply String.eqb_neq.
  intros E. apply (formex_other ns nm "TBL"); [exact Hn|cbn; tauto|symmetry; exact E].
Qed.
Lemma cals_inner o t n e : treachable t -> views_exact Rows t ->
  (forall c p, In c (table_iter t) -> In p (content_pieces (c_content c)) -> allp (inner (wq "tbl") n) p) ->
  generate_table_tree o t = Ok e -> x_has_tag e (wq "tbl") = false /\ forall m, inside e m -> inner (wq "tbl") n m.
Proof.
  intros HR HX HC H.
  assert (A : forall name, In name CALS_NAMES -> cals o name <> wq "tbl").
  { intros name Hname. change (wq "tbl") with (qname (Some WNS) "tbl"). unfold cals. cbn in Hname. repeat destruct Hname as [<-|Hname]; try (apply names_apart; discriminate). destruct Hname. }
  assert (K : all (inner (wq "tbl") n) e).
  { refine (cals_all _ (inner_tail _ _) (inner_pi _ _) o _ t e HR HX _ H).
    - intros name attrs text ch tail Hf. apply inner_other, A, Hf.
    - intros c Hc. apply Forall_forall. intros p Hp. exact (HC c p Hc Hp). }
  split; [|intros m Hm; apply K, in_nodes; right; exact Hm].
  unfold generate_table_tree in H. bind H as fr E1. bind H as car E2. destruct car as [[cs rs] a].
  bind H as a1 E3. bind H as a2 E4. bind H as a3 E5. bind H as tg E6. injection H as <-. cbn [x_has_tag]. apply String.eqb_neq.
  intros E. apply (A "table"); [cbn; tauto|symmetry; exact E].
Qed.
Lemma cals2formex_inner kw k n e : cals2formex kw k n = Ok e ->
  x_has_tag e (pcals (cals_parser kw) "table") = false /\
  forall m, inside e m -> x_has_tag m (pcals (cals_parser kw) "table") = true -> exists m0, inside n m0 /\ same_node m m0.
Proof.
  unfold cals2formex. intros H. bind H as t Et. destruct (C70_cals _ _ _ Et) as (HR & HX & _).
  apply (formex_inner (formex_builder kw) k t (pc_ns (cals_parser kw)) "table" n e); [cbn; tauto|exact HR|exact HX| |exact H].
  intros c p Hc Hp. destruct (C77_cals _ _ _ _ _ Et Hc Hp) as (x & Hx & _ & Hpx). exact (inner_pieces _ n x p Hx Hpx).
Qed.
Lemma word_inner ox sect n t c p : ox_parse_table ox sect n = Ok t -> In c (table_iter t) -> In p (content_pieces (c_content c)) -> allp (inner (wq "tbl") n) p.
Proof.
  intros Et Hc Hp. destruct (C77_word _ _ _ _ _ _ Et Hc Hp) as (x & y & Hx & _ & Hy & _ & ->). cbn [allp]. apply (all_tail _ (inner_tail _ n)). exact (inner_child _ n x y Hx Hy).
Qed.
Lemma ooxml2formex_inner kw ox sect k n e : ooxml2formex kw ox sect k n = Ok e ->
  x_has_tag e (wq "tbl") = false /\ forall m, inside e m -> x_has_tag m (wq "tbl") = true -> exists m0, inside n m0 /\ same_node m m0.
Proof.
  unfold ooxml2formex. intros H. bind H as t Et. destruct (C70_word _ _ _ _ Et) as (HR & HX & _).
  apply (formex_inner (formex_builder kw) k t (Some WNS) "tbl" n e); [cbn; tauto|exact HR|exact HX| |exact H]. intros c p. apply (word_inner _ _ _ _ _ _ Et).
Qed.
Lemma ooxml2cals_inner kw ox sect n e : ooxml2cals kw ox sect n = Ok e ->
  x_has_tag e (wq "tbl") = false /\ forall m, inside e m -> x_has_tag m (wq "tbl") = true -> exists m0, inside n m0 /\ same_node m m0.
Proof.
  unfold ooxml2cals. intros H. bind H as o Eo. bind H as t Et. destruct (C70_word _ _ _ _ Et) as (HR & HX & _).
  apply (cals_inner o t n e HR HX); [|exact H]. intros c p. apply (word_inner _ _ _ _ _ _ Et).
Qed.

Lemma full_impl is_table (R R' : xnode -> xnode -> Prop) : (forall n e, R n e -> R' n e) -> forall n n', full is_table R n n' -> full is_table R' n n'.
Proof.
  intros H. fix F 3. intros n n' HF. destruct HF as [n e e' H1 H2 H3|tag attrs text children children' tail H1 H2|target pitext tail H1|ctext tail H1].
  - apply (full_table _ _ n e e' H1); [apply H, H2|apply F, H3].
  - apply full_elem; [exact H1|]. clear H1. revert children children' H2. fix G 3. intros l l' HL. destruct HL as [|c c' l l' Hc HL]; [apply full_nil|]. apply full_cons; [apply F, Hc|apply G, HL].
  - apply full_pi, H1.
  - apply full_comment, H1.
Qed.

(** ** C80: tables inside tables *)

(** The converted document is the source in which each table, at every depth, is replaced by the table which is made
    from it, followed by the text which followed it; everything else is the same.  Then the document is finished. *)
Theorem C80_cals_to_formex : forall kw doc doc', nested_cals2formex kw doc = Ok doc' ->
  exists memory doc1, labelled (cals_table kw) doc memory /\
    full (cals_table kw)
      (fun n e => exists k n1 t, unlabelled n n1 /\ parse_table (cals_parser kw) n1 = Ok t /\ generate_tbl (formex_builder kw) k t = Ok e) memory doc1 /\
    finalize_tree (formex_cals_space kw) doc1 = Ok doc' /\
    (forall i n, nth_error (filter (cals_table kw) (tree_nodes memory)) i = Some n ->
       exists n1 t e, unlabelled n n1 /\ parse_table (cals_parser kw) n1 = Ok t /\ generate_tbl (formex_builder kw) (Z.of_nat (S i)) t = Ok e).
Proof.
  intros kw doc doc' H. unfold nested_cals2formex in H. bind H as d E. pose proof E as E0.
  apply (nested_full _ _ (fun _ k n e => fun H => proj1 (cals2formex_inner kw k n e H)) (fun _ k n e => fun H => proj2 (cals2formex_inner kw k n e H))) in E.
  assert (EN : forall n, cals_table kw n = x_has_tag n (pcals (cals_parser kw) "table")).
  { intros n. unfold cals_table, has_name, pcals. rewrite cals_parser_space. destruct (cals_space kw); reflexivity. }
  exists (snd (mark_from (pcals (cals_parser kw) "table") 1 doc)), d. split; [|split; [|split; [rewrite <- formex_builder_space; exact H|]]].
  - unfold cals_table, has_name. change (expanded (cals_space kw) "table") with (qname (cals_space kw) "table"). rewrite <- cals_parser_space. apply mark_labelled.
  - unfold cals_table, has_name. change (expanded (cals_space kw) "table") with (qname (cals_space kw) "table"). rewrite <- cals_parser_space.
    refine (full_impl _ _ _ _ _ _ E). intros n e (_ & k & n1 & H1 & H2). unfold cals2formex in H2. bind H2 as t Et. exists k, n1, t. auto.
  - intros i n Hi. rewrite (filter_ext _ _ EN) in Hi.
    destruct (nested_every _ _ (fun _ k n e => fun H => proj1 (cals2formex_inner kw k n e H)) (fun _ k n e => fun H => proj2 (cals2formex_inner kw k n e H)) _ _ i n E0 Hi) as (_ & n1 & e & H1 & H2).
    unfold cals2formex in H2. bind H2 as t Et. exists n1, t, e. auto.
Qed.
Theorem C80_word_to_formex : forall kw ox doc used doc', styles_used (word "styles") (ox_styles ox) doc used -> nested_ooxml2formex kw ox doc = Ok doc' ->
  exists memory doc1, labelled (word "tbl") doc memory /\
    full (word "tbl")
      (fun n e => exists k n1 sect t, unlabelled n n1 /\ ox_parse_table (with_sheet ox used) sect n1 = Ok t /\ generate_tbl (formex_builder kw) k t = Ok e) memory doc1 /\
    finalize_tree (formex_cals_space kw) doc1 = Ok doc' /\
    (forall i n, nth_error (filter (word "tbl") (tree_nodes memory)) i = Some n ->
       exists n1 sect t e, unlabelled n n1 /\ ox_parse_table (with_sheet ox used) sect n1 = Ok t /\ generate_tbl (formex_builder kw) (Z.of_nat (S i)) t = Ok e).
Proof.
  intros kw ox doc used doc' Hs H. unfold nested_ooxml2formex in H. rewrite (styles_used_with _ _ _ Hs) in H. bind H as d E. pose proof E as E0.
  apply (nested_full _ _ (fun a k n e => fun H => proj1 (ooxml2formex_inner kw _ (sect_after a) k n e H)) (fun a k n e => fun H => proj2 (ooxml2formex_inner kw _ (sect_after a) k n e H))) in E.
  exists (snd (mark_from (wq "tbl") 1 doc)), d. split; [apply (mark_labelled (wq "tbl"))|]. split; [|split; [rewrite <- formex_builder_space; exact H|]].
  - refine (full_impl _ _ _ _ _ _ E). intros n e (a & k & n1 & H1 & H2). unfold ooxml2formex in H2. bind H2 as t Et. exists k, n1, (sect_after a), t. auto.
  - intros i n Hi.
    destruct (nested_every _ _ (fun a k n e => fun H => proj1 (ooxml2formex_inner kw _ (sect_after a) k n e H)) (fun a k n e => fun H => proj2 (ooxml2formex_inner kw _ (sect_after a) k n e H)) _ _ i n E0 Hi) as (a & n1 & e & H1 & H2).
    unfold ooxml2formex in H2. bind H2 as t Et. exists n1, (sect_after a), t, e. auto.
Qed.
Theorem C80_word_to_cals : forall kw ox doc used doc', styles_used (word "styles") (ox_styles ox) doc used -> nested_ooxml2cals kw ox doc = Ok doc' ->
  exists o memory, cals_builder kw = Ok o /\ labelled (word "tbl") doc memory /\
    full (word "tbl")
      (fun n e => exists n1 sect t, unlabelled n n1 /\ ox_parse_table (with_sheet ox used) sect n1 = Ok t /\ generate_table_tree o t = Ok e) memory doc' /\
    (forall n, within memory n -> word "tbl" n = true ->
       exists n1 sect t e, unlabelled n n1 /\ ox_parse_table (with_sheet ox used) sect n1 = Ok t /\ generate_table_tree o t = Ok e).
Proof.
  intros kw ox doc used doc' Hs H. unfold nested_ooxml2cals in H. bind H as o Eo. rewrite (styles_used_with _ _ _ Hs) in H. pose proof H as E0.
  apply (nested_full _ _ (fun a k n e => fun H => proj1 (ooxml2cals_inner kw _ (sect_after a) n e H)) (fun a k n e => fun H => proj2 (ooxml2cals_inner kw _ (sect_after a) n e H))) in H.
  exists o, (snd (mark_from (wq "tbl") 1 doc)). split; [reflexivity|]. split; [apply (mark_labelled (wq "tbl"))|]. split.
  - refine (full_impl _ _ _ _ _ _ H). intros n e (a & k & n1 & H1 & H2). unfold ooxml2cals in H2. rewrite Eo in H2. cbn [rbind] in H2. bind H2 as t Et. exists n1, (sect_after a), t. auto.
  - intros n Hn Ht. apply in_nodes in Hn. assert (Hs' : In n (filter (word "tbl") (tree_nodes (snd (mark_from (wq "tbl") 1 doc))))) by (apply filter_In; auto).
    apply In_nth_error in Hs' as (i & Hi).
    destruct (nested_every _ _ (fun a k n e => fun H => proj1 (ooxml2cals_inner kw _ (sect_after a) n e H)) (fun a k n e => fun H => proj2 (ooxml2cals_inner kw _ (sect_after a) n e H)) _ _ i n E0 Hi) as (a & n1 & e & H1 & H2).
    unfold ooxml2cals in H2. rewrite Eo in H2. cbn [rbind] in H2. bind H2 as t Et. exists n1, (sect_after a), t, e. auto.
Qed.

(** No table of the source is left, at any depth. *)
Lemma full_left is_table R n n' : (forall m t, is_table (x_set_tail m t) = is_table m) -> (forall tag a b x y c d t, is_table (XElem tag a x c t) = is_table (XElem tag b y d t)) ->
  full is_table R n n' -> forall m, within n' m -> is_table m = false.
Proof.
  intros HT HA. revert n n'. fix F 3. intros n n' HF. destruct HF as [n e e' H1 H2 H3|tag attrs text children children' tail H1 H2|target pitext tail H1|ctext tail H1]; intros m Hm.
  - destruct Hm as [->|Hm]; [rewrite HT; apply (F _ _ H3); left; reflexivity|]. apply (F _ _ H3). right. apply inside_tail in Hm. exact Hm.
  - destruct Hm as [->|Hm]; [rewrite <- H1; apply HA|]. apply inside_child in Hm as (c & Hc & Hm). cbn [x_children] in Hc. apply tree_within in Hm.
    clear H1. revert children children' H2 Hc. fix G 3. intros l l' HL. destruct HL as [|d d' l l' Hd HL]; intros Hc; [destruct Hc|]. destruct Hc as [->|Hc]; [exact (F _ _ Hd m Hm)|exact (G _ _ HL Hc)].
  - destruct Hm as [->|Hm]; [exact H1|]. apply inside_child in Hm as (c & [] & _).
  - destruct Hm as [->|Hm]; [exact H1|]. apply inside_child in Hm as (c & [] & _).
Qed.
Lemma named_left ns name R n n' : full (has_name ns name) R n n' -> forall m, within n' m -> has_name ns name m = false.
Proof. apply full_left; [intros [] t; reflexivity|reflexivity]. Qed.
Lemma finished_left ns space name d d' : In name ["table"; "tbl"] -> (forall m, within d m -> has_name ns name m = false) -> finalize_tree space d = Ok d' ->
  forall m, within d' m -> has_name ns name m = false.
Proof.
  intros Hn H E m Hm.
  assert (K : all (named_in (fun s => s <> expanded ns name)) d').
  { refine (finalize_ok _ _ space d d' _ E).
    - intros s Hs. change (expanded ns name) with (qname ns name). change s with (qname None s). cbn in Hn, Hs.
      destruct Hn as [<-|[<-|[]]]; repeat destruct Hs as [<-|Hs]; try (apply names_apart; discriminate); destruct Hs.
    - intros x Hx s Hs ->. apply tree_within, H in Hx. unfold has_name in Hx. destruct x; try discriminate Hs. injection Hs as ->. cbn [x_has_tag] in Hx. rewrite String.eqb_refl in Hx. discriminate Hx. }
  assert (Hi : In m (tree_nodes d')) by (apply in_nodes; exact Hm). specialize (K m Hi). unfold has_name. destruct m as [tag a b c t| |]; try reflexivity.
  cbn [x_has_tag]. apply String.eqb_neq. intros E'. apply (K tag eq_refl). symmetry. exact E'.
Qed.
Theorem C80_no_cals_table : forall kw doc doc' n, nested_cals2formex kw doc = Ok doc' -> within doc' n -> cals_table kw n = false.
Proof.
  intros kw doc doc' n H Hn. apply C80_cals_to_formex in H as (memory & d & _ & HF & E & _). revert n Hn. apply (finished_left _ _ "table") with (3 := E); [cbn; tauto|]. exact (named_left _ _ _ _ _ HF).
Qed.
Lemma used_exists ox doc : exists used, styles_used (word "styles") (ox_styles ox) doc used.
Proof. unfold styles_used. destruct (ox_styles ox) as [s|]; [exists (Some s); reflexivity|]. eexists. apply first_of_find. reflexivity. Qed.
Theorem C80_no_word_table_formex : forall kw ox doc doc' n, nested_ooxml2formex kw ox doc = Ok doc' -> within doc' n -> word "tbl" n = false.
Proof.
  intros kw ox doc doc' n H Hn. destruct (used_exists ox doc) as (used & Hu). apply (C80_word_to_formex _ _ _ _ _ Hu) in H as (memory & d & _ & HF & E & _). revert n Hn.
  apply (finished_left _ _ "tbl") with (3 := E); [cbn; tauto|]. exact (named_left _ _ _ _ _ HF).
Qed.
Theorem C80_no_word_table_cals : forall kw ox doc doc' n, nested_ooxml2cals kw ox doc = Ok doc' -> within doc' n -> word "tbl" n = false.
Proof.
  intros kw ox doc doc' n H Hn. destruct (used_exists ox doc) as (used & Hu). apply (C80_word_to_cals _ _ _ _ _ Hu) in H as (o & memory & _ & _ & HF & _). exact (named_left _ _ _ _ _ HF n Hn).
Qed.

(** When no table is inside another, the conversion is the one of M_ConvertDoc.v (C75, C76, C77, C79). *)
Theorem C80_cals_flat : forall kw doc, cals_table kw doc = false -> not_nested (cals_table kw) doc -> nested_cals2formex kw doc = convert_cals2formex kw doc.
Proof.
  intros kw doc Hr Hn. unfold nested_cals2formex, convert_cals2formex. unfold cals_table, has_name in *. change (expanded (cals_space kw) "table") with (qname (cals_space kw) "table") in *.
  rewrite <- cals_parser_space in *. f_equal. exact (nested_flat (pcals (cals_parser kw) "table") _ (fun _ k n e => fun H => proj1 (cals2formex_inner kw k n e H)) (fun _ k n e => fun H => proj2 (cals2formex_inner kw k n e H)) doc Hr Hn).
Qed.
Theorem C80_word_flat : forall kw ox doc, word "tbl" doc = false -> not_nested (word "tbl") doc ->
  nested_ooxml2formex kw ox doc = convert_ooxml2formex kw ox doc /\ nested_ooxml2cals kw ox doc = convert_ooxml2cals kw ox doc.
Proof.
  intros kw ox doc Hr Hn. split.
  - unfold nested_ooxml2formex, convert_ooxml2formex. f_equal.
    exact (nested_flat (wq "tbl") _ (fun a k n e => fun H => proj1 (ooxml2formex_inner kw _ (sect_after a) k n e H)) (fun a k n e => fun H => proj2 (ooxml2formex_inner kw _ (sect_after a) k n e H)) doc Hr Hn).
  - unfold nested_ooxml2cals, convert_ooxml2cals. destruct (cals_builder kw); [|reflexivity]. cbn [rbind].
    exact (nested_flat (wq "tbl") _ (fun a k n e => fun H => proj1 (ooxml2cals_inner kw _ (sect_after a) n e H)) (fun a k n e => fun H => proj2 (ooxml2cals_inner kw _ (sect_after a) n e H)) doc Hr Hn).
Qed.

(** A conversion which fails does so with the error of a table, at some depth, of the end or of the options, or because the root is a table. *)
Theorem C80_cals_failure : forall kw doc x, nested_cals2formex kw doc = Err x ->
  (exists memory n n1, labelled (cals_table kw) doc memory /\ within memory n /\ cals_table kw n = true /\ unlabelled n n1 /\ 
     (parse_table (cals_parser kw) n1 = Err x \/ exists k t, parse_table (cals_parser kw) n1 = Ok t /\ generate_tbl (formex_builder kw) k t = Err x)) \/
  (cals_table kw doc = true /\ x = EAttributeError) \/
  (exists memory doc1, labelled (cals_table kw) doc memory /\
     full (cals_table kw) (fun n e => exists k n1 t, unlabelled n n1 /\ parse_table (cals_parser kw) n1 = Ok t /\ generate_tbl (formex_builder kw) k t = Ok e) memory doc1 /\
     finalize_tree (formex_cals_space kw) doc1 = Err x).
Proof.
  intros kw doc x H. unfold nested_cals2formex in H. unfold cals_table, has_name. change (expanded (cals_space kw) "table") with (qname (cals_space kw) "table"). rewrite <- cals_parser_space.
  destruct (nested_tables _ _ doc) as [d|y] eqn:E; cbn [rbind] in H.
  - right. right. apply (nested_full _ _ (fun _ k n e => fun H => proj1 (cals2formex_inner kw k n e H)) (fun _ k n e => fun H => proj2 (cals2formex_inner kw k n e H))) in E.
    exists (snd (mark_from (pcals (cals_parser kw) "table") 1 doc)), d. split; [apply (mark_labelled (pcals (cals_parser kw) "table"))|]. split; [|rewrite <- formex_builder_space; exact H].
    refine (full_impl _ _ _ _ _ _ E). intros n e (_ & k & n1 & H1 & H2). unfold cals2formex in H2. bind H2 as t Et. exists k, n1, t. auto.
  - injection H as ->. apply (nested_error _ _ (fun _ k n e => fun H => proj1 (cals2formex_inner kw k n e H)) (fun _ k n e => fun H => proj2 (cals2formex_inner kw k n e H))) in E
      as [(a & k & n & n1 & H1 & H2 & H3 & H4)|E]; [left|right; left; exact E].
    exists (snd (mark_from (pcals (cals_parser kw) "table") 1 doc)), n, n1. split; [apply (mark_labelled (pcals (cals_parser kw) "table"))|]. split; [apply tree_within, H1|]. split; [exact H2|].
    split; [exact H3|]. unfold cals2formex in H4. destruct (parse_table _ n1) as [t|y] eqn:Et; cbn [rbind] in H4; [right; exists k, t; auto|left; injection H4 as ->; reflexivity].
Qed.

(** ** C79, for the conversions to Formex *)
Theorem C79_no_cals_table : forall kw doc doc' n, cals_table kw doc = false -> not_nested (cals_table kw) doc -> convert_cals2formex kw doc = Ok doc' ->
  within doc' n -> cals_table kw n = false.
Proof. intros kw doc doc' n Hr Hn H. rewrite <- (C80_cals_flat kw doc Hr Hn) in H. exact (C80_no_cals_table kw doc doc' n H). Qed.
Theorem C79_no_word_table_formex : forall kw ox doc doc' n, word "tbl" doc = false -> not_nested (word "tbl") doc -> convert_ooxml2formex kw ox doc = Ok doc' ->
  within doc' n -> word "tbl" n = false.
Proof. intros kw ox doc doc' n Hr Hn H. rewrite <- (proj1 (C80_word_flat kw ox doc Hr Hn)) in H. exact (C80_no_word_table_formex kw ox doc doc' n H). Qed.

(** ** Examples *)

(** a table in a table in a table, with text around *)
Definition small (body : list xnode) : xnode :=
  el "table" [] [el "tgroup" [] [el "tbody" [] [el "row" [] [XElem "entry" [] (Some "x") body None; say "entry" [] "y"]]]].
Definition nested_doc : xnode :=
  XElem "doc" [] (Some "begin")
    [after "between" (small [say "p" [] "before"; after "after" (small [small []])]); say "p" [] "end"] None.
(** the numbers of the tables and the texts, in document order *)
Definition numbers_of (d : xnode) : list (option string) := map (fun n => x_get n "NO.SEQ") (filter (fun n => x_has_tag n "TBL") (tree_nodes d)).
Definition tails_of (name : string) (d : xnode) : list (option string) := map x_tail (filter (fun n => x_has_tag n name) (tree_nodes d)).
Example C80_cals_ex : exists d, nested_cals2formex kw_conv nested_doc = Ok d /\
  List.length (filter (cals_table kw_conv) (tree_nodes nested_doc)) = 3%nat /\ List.length (filter (cals_table kw_conv) (tree_nodes d)) = 0%nat /\
  numbers_of d = [Some "0001"; Some "0001.0001"; Some "0001.0001.0001"] /\
  tails_of "table" nested_doc = [Some "between"; Some "after"; None] /\ tails_of "TBL" d = [Some "between"; Some "after"; None] /\
  string_value d = "beginxbeforexxyyafterybetweenend" /\ string_value nested_doc = "beginxbeforexxyyafterybetweenend".
Proof. eexists. split; [vm_compute; reflexivity|]. vm_compute. repeat (split; [reflexivity|]). reflexivity. Qed.
(** page sizes in points *)
Definition ox_pt : ooxml_opts :=
  MkOoxmlOpts None (ox_float ox_none) (ox_repr ox_none) (ox_fixed ox_none)
    (fun a b => w <-? py_int a ;; h <-? py_int b ;; Ok (SPair (w / 20) (h / 20))) (ox_limit ox_none).
Definition word_small (body : list xnode) : xnode :=
  T_Ooxml.w "tbl" [] [T_Ooxml.w "tblGrid" [] [T_Ooxml.w "gridCol" [("w", "400")] []]; T_Ooxml.w "tr" [] [T_Ooxml.w "tc" [] (T_Ooxml.w "tcPr" [] [] :: T_Ooxml.text_p "x" :: body)]].
Definition word_nested : xnode :=
  T_Ooxml.w "document" [] [T_Ooxml.ex_sheet; T_Ooxml.w "body" [] [after "between" (word_small [word_small [word_small []; T_Ooxml.text_p "y"]]); T_Ooxml.text_p "end"; tall_section]].
Example C80_word_ex : exists d1 d2, nested_ooxml2formex kw_conv ox_pt word_nested = Ok d1 /\ nested_ooxml2cals kw_conv ox_pt word_nested = Ok d2 /\
  styles_used (word "styles") (ox_styles ox_pt) word_nested (Some T_Ooxml.ex_sheet) /\
  List.length (filter (word "tbl") (tree_nodes word_nested)) = 3%nat /\
  numbers_of d1 = [Some "0001"; Some "0001.0001"; Some "0001.0001.0001"] /\
  List.length (filter (has_name (cals_space kw_conv) "table") (tree_nodes d2)) = 3%nat /\
  string_value word_nested = "xxxybetweenend" /\ string_value d1 = "xxxybetweenend" /\ string_value d2 = "xxxybetweenend".
Proof.
  do 2 eexists. split; [vm_compute; reflexivity|]. split; [vm_compute; reflexivity|].
  split; [unfold styles_used; cbn [ox_styles ox_pt]; apply first_of_find; vm_compute; reflexivity|].
  vm_compute. repeat (split; [reflexivity|]). reflexivity.
Qed.
Example C80_flat_ex : cals_table kw_conv cals_doc = false /\ not_nested (cals_table kw_conv) cals_doc /\ word "tbl" word_doc = false /\ not_nested (word "tbl") word_doc /\
  exists d1 d2, convert_cals2formex kw_conv cals_doc = Ok d1 /\ convert_ooxml2formex kw_conv ox_pt word_doc = Ok d2.
Proof.
  split; [reflexivity|]. split; [apply apart_not_nested; vm_compute; reflexivity|]. split; [reflexivity|]. split; [apply apart_not_nested; vm_compute; reflexivity|].
  do 2 eexists. split; vm_compute; reflexivity.
Qed.
(** the error of a table which is inside another one *)
Example C80_failure_ex : exists x, nested_cals2formex kw_conv (el "doc" [] [small [el "table" [] [el "tgroup" [] [el "tbody" [] [el "row" [] [say "entry" [("morerows", "x")] "y"]]]]]]) = Err x.
Proof. eexists. vm_compute. reflexivity. Qed.

Print Assumptions C80_cals_to_formex.
Print Assumptions C80_word_to_formex.
Print Assumptions C80_word_to_cals.
Print Assumptions C80_no_cals_table.
Print Assumptions C80_no_word_table_formex.
Print Assumptions C80_no_word_table_cals.
Print Assumptions C80_cals_flat.
Print Assumptions C80_word_flat.
Print Assumptions C80_cals_failure.
Print Assumptions C79_no_cals_table.
Print Assumptions C79_no_word_table_formex.
