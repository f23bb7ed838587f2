(** * C93: the names of a converted document are the same when its file is read again *)
From Coq Require Import QArith Permutation.
From Verif Require Import Base M_Geometry M_Xml M_Cell M_Grid M_Table M_Str M_Builder M_Cals M_Formex M_Ooxml M_Convert M_ConvertDoc M_Names.
From Verif Require Import S_Geometry S_Cell S_Grid S_Table S_Builder S_Cals S_CalsParser S_RoundTrip S_Formex S_Convert S_Transform S_Nested S_Names.
From Verif Require Import P_Cals P_Transform P_ConvertDoc P_NoneLeft P_Nested.
From Verif Require T_Ooxml.
From Verif Require Import T_Table T_Cals T_Formex T_Convert T_ConvertBack T_ConvertDoc T_Options.
Open Scope string_scope.
Open Scope list_scope.
Open Scope Z_scope.

(** ** Reading what is written *)

Lemma all_some_map {A B C} (R : A -> B -> Prop) (f : B -> option C) (g : A -> C) l m :
  Forall2 R l m -> (forall a b, In a l -> R a b -> f b = Some (g a)) -> all_some (map f m) = Some (map g l).
Proof.
  induction 1 as [|a b l m H F IH]; intros HR; [reflexivity|]. cbn [map all_some]. rewrite (HR a b (or_introl eq_refl) H).
  rewrite IH; [reflexivity|]. intros a' b' Ha. apply HR. right. exact Ha.
Qed.
Lemma read_attr_back env a w : written_attr env a w -> read_attr env w = Some (ename_of (fst a), snd a).
Proof.
  intros (H1 & H2 & H3). unfold read_attr, ename_of. destruct w as [[p l] v], a as [k s]; cbn [fst snd] in *; subst.
  destruct (uri_of k) as [u|]; [|subst p; reflexivity]. destruct H3 as [Hp Hs]. destruct p as [p|]; [|congruence]. rewrite Hs. reflexivity.
Qed.
Lemma read_tag_spaced env tag w u : written_tag env tag w -> uri_of tag = Some u -> read_tag env w = Some (ename_of tag).
Proof.
  intros [H1 H2] E. unfold read_tag, ename_of. rewrite E in *. destruct w as [[p|] l]; cbn [fst snd] in *; subst; destruct H2 as [H2 H3]; rewrite H2; [reflexivity|].
  destruct (String.eqb_spec u ""); [contradiction|reflexivity].
Qed.
Lemma read_tag_plain env tag w : written_tag env tag w -> uri_of tag = None ->
  read_tag env w = Some (match scope env None with Some u => if String.eqb u "" then None else Some u | None => None end, localname tag).
Proof. intros [H1 H2] E. unfold read_tag. rewrite E in *. destruct w as [p l]; cbn [fst snd] in *; subst. reflexivity. Qed.

Lemma scope_app ds env p : scope (ds ++ env) p = match scope ds p with Some u => Some u | None => scope env p end.
Proof. induction ds as [|[q u] ds IH]; [reflexivity|]. cbn [app scope]. destruct (same_prefix p q); [reflexivity|exact IH]. Qed.
Lemma scope_in ds u : scope ds None = Some u -> In (None, u) ds.
Proof. induction ds as [|[[q|] v] ds IH]; cbn; [discriminate|intros H; right; auto|]. intros [= ->]. left. reflexivity. Qed.
Lemma scope_none ds u : In (None, u) ds -> scope ds None <> None.
Proof. induction ds as [|[[q|] v] ds IH]; cbn; [intros []|intros [H|H]; [discriminate H|auto]|intros _; discriminate]. Qed.
Lemma no_default m ds : (forall u, ~ In (None, u) m) -> Forall (may_declare m) ds -> scope ds None = None.
Proof.
  intros Hm HF. destruct (scope ds None) as [u|] eqn:E; [|reflexivity]. apply scope_in in E. rewrite Forall_forall in HF.
  destruct (HF _ E) as [H|H]; [cbn in H; congruence|destruct (Hm u H)].
Qed.
Lemma spaced_child tag attrs text ch tail n : spaced (XElem tag attrs text ch tail) -> In n ch -> spaced n.
Proof. intros H Hn x t Hx. apply H. cbn [tree_nodes]. right. apply in_flat_map. exists n. auto. Qed.

Lemma read_back m n : forall env r, writes m env n r ->
  spaced n \/ (scope env None = None /\ forall u, ~ In (None, u) m) -> read_names env r = Some (names_of n).
Proof.
  induction n as [tag attrs text ch tail IH| |] using xnode_ind'; intros env r H HS; inversion H as [? ? ? ? ? ds wt wa wc HD HT HA HC| |]; subst; [|reflexivity..].
  cbn [read_names names_of].
  assert (HS' : spaced (XElem tag attrs text ch tail) \/ (scope (ds ++ env) None = None /\ forall u, ~ In (None, u) m)).
  { destruct HS as [HS|[E Hm]]; [left; exact HS|right]. split; [|exact Hm]. rewrite scope_app, (no_default m ds Hm HD). exact E. }
  assert (Ht : read_tag (ds ++ env) wt = Some (ename_of tag)).
  { destruct (uri_of tag) as [u|] eqn:E; [exact (read_tag_spaced _ _ _ _ HT E)|]. rewrite (read_tag_plain _ _ _ HT E).
    destruct HS' as [HS'|[-> _]]; [|unfold ename_of; rewrite E; reflexivity]. exfalso. apply (HS' _ tag (or_introl eq_refl) eq_refl), E. }
  rewrite Ht. rewrite (all_some_map _ _ _ _ _ HA (fun a b _ => read_attr_back (ds ++ env) a b)).
  rewrite (all_some_map (writes m (ds ++ env)) _ names_of ch wc HC); [reflexivity|].
  intros a b Ha Hw. rewrite Forall_forall in IH. apply (IH a Ha _ _ Hw). destruct HS' as [HS'|HS']; [left; exact (spaced_child _ _ _ _ _ _ HS' Ha)|right; exact HS'].
Qed.

(** Under a default name space an element without name space is read in it. *)
Lemma scope_default u m ds env : (forall v, In (None, v) m -> v = u) -> Forall (may_declare m) ds -> scope env None = Some u -> scope (ds ++ env) None = Some u.
Proof.
  intros Hm HF He. rewrite scope_app. destruct (scope ds None) as [v|] eqn:E; [|exact He]. apply scope_in in E. rewrite Forall_forall in HF.
  destruct (HF _ E) as [H|H]; [cbn in H; congruence|]. rewrite (Hm v H). reflexivity.
Qed.
Lemma all_some_back {A B C} (R : A -> B -> Prop) (f : B -> option C) (g : A -> C) l m :
  Forall2 R l m -> all_some (map f m) = Some (map g l) -> forall a, In a l -> exists b, R a b /\ f b = Some (g a).
Proof.
  induction 1 as [|a b l m H F IH]; intros E x Hx; [destruct Hx|]. cbn [map all_some] in E. destruct (f b) as [c|] eqn:Eb; [|discriminate].
  destruct (all_some (map f m)) as [cs|]; [|discriminate]. cbn in E. injection E as -> ->. destruct Hx as [<-|Hx]; [exists b; auto|]. apply IH; auto.
Qed.
Lemma misread m u n : u <> "" -> (forall v, In (None, v) m -> v = u) -> forall env ds wt wa wc tag attrs text ch tail, n = XElem tag attrs text ch tail ->
  writes m env n (RElem ds wt wa wc) -> scope (ds ++ env) None = Some u ->
  read_names env (RElem ds wt wa wc) = Some (names_of n) -> spaced n.
Proof.
  intros Hu Hm. induction n as [tag attrs text ch tail IH| |] using xnode_ind'; intros env ds wt wa wc tag' attrs' text' ch' tail' [= <- <- <- <- <-] H He HR.
  inversion H as [? ? ? ? ? ? ? ? ? HD HT HA HC| |]; subst. cbn [read_names names_of] in HR.
  destruct (read_tag (ds ++ env) wt) as [t|] eqn:Et; [|discriminate]. destruct (all_some (map (read_attr (ds ++ env)) wa)) as [a|]; [|discriminate].
  destruct (all_some (map (read_names (ds ++ env)) wc)) as [c|] eqn:Ec; [|discriminate]. injection HR as -> _ ->.
  intros x tg Hx Htg. destruct Hx as [<-|Hx].
  - injection Htg as <-. intros E. rewrite (read_tag_plain _ _ _ HT E), He in Et. destruct (String.eqb_spec u ""); [contradiction|]. unfold ename_of in Et. rewrite E in Et. discriminate Et.
  - apply in_flat_map in Hx as (n & Hn & Hx). rewrite Forall_forall in IH. destruct (all_some_back _ _ _ _ _ HC Ec n Hn) as (r & Hw & Hr).
    destruct n as [tag1 attrs1 text1 ch1 tail1|? ? ?|? ?]; [|destruct Hx as [<-|[]]; discriminate Htg..].
    inversion Hw as [? ? ? ? ? ds1 wt1 wa1 wc1 HD1 HT1 HA1 HC1| |]; subst.
    refine (IH _ Hn _ _ _ _ _ _ _ _ _ _ eq_refl Hw _ Hr x tg Hx Htg). apply (scope_default u m _ _ Hm HD1 He).
Qed.

(** ** The elements of a CALS table *)

Lemma uri_expanded u name : uri_of (expanded (Some u) name) <> None.
Proof. cbn. discriminate. Qed.
Lemma spaced_tail n m : same_node n m -> spaced n -> spaced m.
Proof.
  intros E H x tag Hx Ht. destruct n as [t a s ch tl|? ? ?|? ?], m as [t' a' s' ch' tl'|? ? ?|? ?]; try discriminate E.
  2, 3: destruct Hx as [<-|[]]; discriminate Ht.
  unfold same_node in E. cbn in E. injection E as -> -> -> ->. destruct Hx as [<-|Hx]; [injection Ht as <-; apply (H _ t' (or_introl eq_refl) eq_refl)|].
  apply (H x tag); [right; exact Hx|exact Ht].
Qed.
Lemma piece_child e p : In (Node p) (elem_pieces e) -> exists y, In y (x_children e) /\ p = x_set_tail y None.
Proof.
  unfold elem_pieces. intros Hc. apply in_app_or in Hc as [Hc|Hc].
  - exfalso. destruct (x_text e) as [s|]; [|destruct Hc]. cbn in Hc. apply in_map_iff in Hc as (a & Ha & _). discriminate Ha.
  - apply in_flat_map in Hc as (y & Hy & [Hc|Hc]); [injection Hc as <-; exists y; auto|].
    exfalso. destruct (x_tail y) as [s|]; [|destruct Hc]. cbn in Hc. apply in_map_iff in Hc as (a & Ha & _). discriminate Ha.
Qed.
Lemma child_piece e y : In y (x_children e) -> In (Node (x_set_tail y None)) (elem_pieces e).
Proof. intros H. unfold elem_pieces. apply in_or_app. right. apply in_flat_map. exists y. split; [exact H|left; reflexivity]. Qed.
Lemma set_tail_same y : same_node (x_set_tail y None) y.
Proof. destruct y; reflexivity. Qed.
Lemma node_split n x : In x (tree_nodes n) -> x = n \/ exists y, In y (x_children n) /\ In x (tree_nodes y).
Proof. destruct n; cbn [tree_nodes x_children]; intros [H|H]; auto; [|destruct H..]. right. apply in_flat_map in H. exact H. Qed.
Lemma node_below n x y : In y (x_children n) -> In x (tree_nodes y) -> In x (tree_nodes n).
Proof. destruct n; cbn [tree_nodes x_children]; intros Hy Hx; [|destruct Hy..]. right. apply in_flat_map. eauto. Qed.
Lemma F2_right {A B} (R : A -> B -> Prop) l m b : Forall2 R l m -> In b m -> exists a, In a l /\ R a b.
Proof. induction 1 as [|x y l m H F IH]; [intros []|]. intros [<-|Hb]; [exists x; split; [left; reflexivity|exact H]|]. destruct (IH Hb) as (a & Ha & Hr). exists a. split; [right; exact Ha|exact Hr]. Qed.
Lemma F2_left {A B} (R : A -> B -> Prop) l m a : Forall2 R l m -> In a l -> exists b, In b m /\ R a b.
Proof. induction 1 as [|x y l m H F IH]; [intros []|]. intros [<-|Hb]; [exists y; split; [left; reflexivity|exact H]|]. destruct (IH Hb) as (b & Hb' & Hr). exists b. split; [right; exact Hb'|exact Hr]. Qed.

(** An element of the tree has a name of CALS or is in the content of a cell. *)
Lemma table_nodes ns n sections e x : describes_table ns n sections e -> In x (tree_nodes e) ->
  x_tag x = None \/ (exists name, named ns name x) \/
  exists v c p, In v (List.concat (map snd sections)) /\ In c (v_owned v) /\ In (Node (x_set_tail p None)) (content_pieces (c_content c)) /\ In x (tree_nodes p).
Proof.
  intros (He & tg & specs & bodies & E1 & Htg & _ & E2 & HS & HB) Hx.
  apply node_split in Hx as [->|(y & Hy & Hx)]; [eauto|]. rewrite E1 in Hy. destruct Hy as [<-|[]].
  apply node_split in Hx as [->|(y & Hy & Hx)]; [eauto|]. rewrite E2 in Hy. apply in_app_or in Hy as [Hy|Hy].
  - destruct (F2_right _ _ _ _ HS Hy) as (i & _ & Hn & _ & _ & Hc & _). apply node_split in Hx as [->|(z & Hz & _)]; [eauto|]. rewrite Hc in Hz. destruct Hz.
  - destruct (F2_right _ _ _ _ HB Hy) as ([na vs] & Hs & Hn & _ & _ & _ & _ & items & HI & Ec). cbn [fst snd] in *.
    apply node_split in Hx as [->|(z & Hz & Hx)]; [eauto|]. rewrite Ec in Hz. apply in_concat in Hz as (it & Hit & Hz).
    destruct (F2_right _ _ _ _ HI Hit) as (v & Hv & row & Hr & _ & _ & HF & HM).
    assert (K : z = row \/ x_children z = [] /\ x_tag z = None).
    { destruct (dget (v_styles v) "x-ins"); [destruct HM as (a & b & ->)|subst it]; cbn in Hz; intuition (subst; auto). }
    destruct K as [->|[K1 K2]].
    + apply node_split in Hx as [->|(en & Hen & Hx)]; [eauto|]. destruct (F2_right _ _ _ _ HF Hen) as (c & Hc & Hd & _ & _ & Hp).
      apply node_split in Hx as [->|(p & Hp' & Hx)]; [eauto|]. right. right. exists v, c, p. split; [apply in_concat; exists vs; split; [apply (in_map snd _ _ Hs)|exact Hv]|].
      split; [exact Hc|]. split; [|exact Hx]. rewrite <- Hp. apply child_piece, Hp'.
    + apply node_split in Hx as [->|(p & Hp' & _)]; [auto|]. rewrite K1 in Hp'. destruct Hp'.
Qed.
Lemma children_named_below name l x : In x (children_named name l) -> exists n, In n l /\ In x (x_children n).
Proof. unfold children_named. intros H. apply filter_In in H as [H _]. apply in_flat_map in H. exact H. Qed.
Lemma entry_node ns e x : In x (entries ns e) -> In x (tree_nodes e).
Proof.
  unfold entries. intros H. apply children_named_below in H as (a & Ha & H). apply children_named_below in Ha as (b & Hb & Ha).
  apply in_flat_map in Hb as (c & Hc & Hb). apply children_named_below in Hc as (d & [<-|[]] & Hc).
  apply (node_below _ _ c Hc), (node_below _ _ b Hb), (node_below _ _ a Ha), (node_below _ _ x H). destruct x; left; reflexivity.
Qed.

(** Every element in the contents of the cells is in a name space. *)
Definition contents_spaced (t : table) : Prop := forall c p, In c (table_iter t) -> In (Node p) (content_pieces (c_content c)) -> spaced p.

Lemma tree_spaced o sorting t e u : treachable t -> cals_sorting sorting = Ok (co_sorting o) -> views_exact Rows t -> co_ns o = Some u ->
  generate_table_tree o t = Ok e -> (spaced e <-> contents_spaced t).
Proof.
  intros HR HS HX Hu H. split.
  - intros HE c p Hc Hp. destruct (C39_cells_partial _ _ _ _ HR HS HX H) as (cells & HP & HF).
    apply (Permutation_in _ (Permutation_sym HP)) in Hc. destruct (F2_left _ _ _ _ HF Hc) as (x & Hx & (_ & _ & _ & K)). rewrite <- K in Hp.
    apply piece_child in Hp as (y & Hy & ->). apply (spaced_tail y); [symmetry; apply set_tail_same|]. intros z tag Hz. apply HE.
    apply entry_node in Hx. clear -Hx Hy Hz. revert Hx. induction e as [tg a s ch tl IH|? ? ?|? ?] using xnode_ind'; intros Hx.
    2, 3: destruct Hx as [<-|[]]; destruct Hy.
    destruct Hx as [<-|Hx]; [apply (node_below _ _ y Hy Hz)|]. apply in_flat_map in Hx as (n & Hn & Hx). rewrite Forall_forall in IH. right. apply in_flat_map. exists n. split; [exact Hn|]. apply (IH n Hn Hx).
  - intros HC x tag Hx Ht. destruct (C39_tree _ _ _ _ HR HS H) as (n & rows & sections & _ & _ & HV & HD & HP). rewrite Hu in HD.
    destruct (table_nodes _ _ _ _ _ HD Hx) as [Hn|[(name & Hn)|(v & c & p & Hv & Hc & Hp & Hxp)]].
    + congruence.
    + unfold named in Hn. rewrite Ht in Hn. injection Hn as ->. apply uri_expanded.
    + apply (Permutation_in _ HP) in Hv. apply In_nth_error in Hv as (i & Hi). specialize (HV i v Hi).
      apply (C26_membership_partial Rows _ _ _ HR) in HV as (_ & HV & _); [|lia]. apply HV in Hc as [Hc _].
      exact (spaced_tail _ _ (set_tail_same p) (HC _ _ Hc Hp) x tag Hxp Ht).
Qed.

(** ** C93 *)

(** A file without default name space, such as all the files written with a prefix: the names are the same. *)
Theorem C93_document : forall m env doc r, (forall u, ~ In (None, u) m) -> scope env None = None -> writes m env doc r ->
  read_names env r = Some (names_of doc).
Proof. intros m env doc r Hm He H. apply (read_back m doc env r H). right. auto. Qed.

Definition same_names (env : decls) (e : xnode) (r : raw) : Prop := read_names env r = Some (names_of e).
Lemma ns_map_cals kw : cals_ns_map kw = match cals_space kw with Some u => [(not_empty (kw_prefix kw), u)] | None => [] end.
Proof. unfold cals_ns_map. rewrite or_nothing_space, or_nothing_not_empty. reflexivity. Qed.

(** The CALS tables: exactly when there is a prefix, or no name space for CALS, or a name space for each element in the
    contents. *)
Theorem C93_cals : forall kw o t e env r, cals_builder kw = Ok o -> treachable t -> views_exact Rows t -> generate_table_tree o t = Ok e ->
  scope env None = None -> writes_table (cals_ns_map kw) env e r ->
  (same_names env e r <-> not_empty (kw_prefix kw) <> None \/ cals_space kw = None \/ contents_spaced t).
Proof.
  intros kw o t e env r Ho HR HX H He [HW HI]. destruct (builder_of kw o Ho) as [Hns HS]. rewrite cals_builder_space in Hns. rewrite ns_map_cals in HW, HI.
  destruct (cals_space kw) as [u|] eqn:Eu.
  - pose proof (tree_spaced _ _ _ _ _ HR HS HX Hns H) as HSp. destruct (not_empty (kw_prefix kw)) as [p|] eqn:Ep.
    + split; [left; discriminate|]. intros _. refine (read_back _ _ _ _ HW (or_intror (conj He _))). intros v [Hv|[]]. discriminate Hv.
    + split.
      * intros Hr. right. right. apply HSp. destruct (C39_tree _ _ _ _ HR HS H) as (_ & _ & _ & _ & _ & _ & (Hn & _) & _).
        destruct e as [tag attrs text ch tail|? ? ?|? ?]; [|discriminate Hn..]. inversion HW as [? ? ? ? ? ds wt wa wc HD HT HA HC| |]; subst.
        assert (Hu : u <> "").
        { unfold cals_space, space_of in Eu. destruct (kw_cals_ns kw) as [[s|]|]; try discriminate Eu. cbn in Eu. destruct s; [discriminate Eu|]. injection Eu as <-. discriminate. }
        assert (HM : forall v, In (None, v) [(None (A := string), u)] -> v = u) by (intros v [[= ->]|[]]; reflexivity).
        refine (misread _ u _ Hu HM _ _ _ _ _ _ _ _ _ _ eq_refl HW _ Hr).
        rewrite scope_app. destruct (scope ds None) as [v|] eqn:E.
        -- apply scope_in in E. rewrite Forall_forall in HD. destruct (HD _ E) as [X|X]; [cbn in X; congruence|]. rewrite (HM v X). reflexivity.
        -- exfalso. apply (scope_none ds u); [apply HI; left; reflexivity|exact E].
      * intros [X|[X|X]]; [congruence|discriminate X|]. apply (read_back _ _ _ _ HW). left. apply HSp, X.
  - split; [auto|]. intros _. refine (read_back _ _ _ _ HW (or_intror (conj He _))). intros v [].
Qed.

(** The Formex tables: exactly when the CALS attributes are not asked for, or there is no name space for them, or the prefix
    is not empty. *)
Lemma ns_map_formex kw : formex_ns_map kw = match kw_use_cals kw, formex_cals_space kw with true, Some u => [(not_empty (Some (kw_or (kw_prefix kw) "cals")), u)] | _, _ => [] end.
Proof. unfold formex_ns_map. rewrite <- (formex_builder_space kw). cbn [formex_builder fo_cals co_ns]. rewrite !or_nothing_not_empty. reflexivity. Qed.
Theorem C93_formex : forall kw k t e env r, generate_tbl (formex_builder kw) k t = Ok e -> scope env None = None -> writes_table (formex_ns_map kw) env e r ->
  (same_names env e r <-> kw_use_cals kw = false \/ formex_cals_space kw = None \/ kw_prefix kw <> Some "").
Proof.
  intros kw k t e env r H He [HW HI]. rewrite ns_map_formex in HW, HI. destruct (kw_use_cals kw).
  2: { split; [auto|]. intros _. refine (read_back _ _ _ _ HW (or_intror (conj He _))). intros v []. }
  destruct (formex_cals_space kw) as [u|] eqn:Eu.
  2: { split; [auto|]. intros _. refine (read_back _ _ _ _ HW (or_intror (conj He _))). intros v []. }
  assert (HP : kw_prefix kw = Some "" \/ kw_prefix kw <> Some "" /\ exists p, not_empty (Some (kw_or (kw_prefix kw) "cals")) = Some p).
  { destruct (kw_prefix kw) as [[|a s]|]; [left; reflexivity|right; split; [discriminate|eexists; reflexivity]..]. }
  destruct HP as [Ep|[Hne (p & Ep)]].
  - split; [|intros [X|[X|X]]; [discriminate X..|congruence]]. intros Hr. exfalso. rewrite Ep in HW, HI. change (not_empty _) with (@None string) in HW, HI.
    unfold generate_tbl in H. bind H as cols Ec. cbv zeta in H. bind H as a Ea. bind H as attrs Eat. bind H as ch Ech. injection H as <-.
    inversion HW as [? ? ? ? ? ds wt wa wc HD HT HA HC| |]; subst.
    assert (Hu : u <> "").
    { unfold formex_cals_space, space_of in Eu. destruct (kw_cals_ns kw) as [[s|]|]; [|discriminate Eu|injection Eu as <-; discriminate]. cbn in Eu. destruct s; [discriminate Eu|]. injection Eu as <-. discriminate. }
    assert (HM : forall v, In (None, v) [(None (A := string), u)] -> v = u) by (intros v [[= ->]|[]]; reflexivity).
    assert (HSp : spaced (XElem "TBL" attrs None ch None)).
    { refine (misread _ u _ Hu HM _ _ _ _ _ _ _ _ _ _ eq_refl HW _ Hr). rewrite scope_app. destruct (scope ds None) as [v|] eqn:E.
      - apply scope_in in E. rewrite Forall_forall in HD. destruct (HD _ E) as [X|X]; [cbn in X; congruence|]. rewrite (HM v X). reflexivity.
      - exfalso. apply (scope_none ds u); [apply HI; left; reflexivity|exact E]. }
    apply (HSp _ "TBL" (or_introl eq_refl) eq_refl). reflexivity.
  - split; [auto|]. intros _. refine (read_back _ _ _ _ HW (or_intror (conj He _))). rewrite Ep. intros v [Hv|[]]. discriminate Hv.
Qed.

(** There is always such a file: for each element new prefixes are declared. *)
Fixpoint letters (i : nat) : string := match i with O => "a" | S j => String "a" (letters j) end.
Lemma letters_inj i : forall j, letters i = letters j -> i = j.
Proof. induction i as [|i IH]; intros [|j] H; [reflexivity|destruct j; discriminate H|destruct i; discriminate H|]. injection H as H. rewrite (IH j H). reflexivity. Qed.
Lemma letters_e i : letters i <> "e".
Proof. destruct i; discriminate. Qed.
Fixpoint attr_decls (i : nat) (attrs : dict string) : decls :=
  match attrs with
  | [] => []
  | (k, _) :: r => match uri_of k with Some u => [(Some (letters i), u)] | None => [] end ++ attr_decls (S i) r
  end.
Fixpoint put_attrs (i : nat) (attrs : dict string) : list ((option string * string) * string) :=
  match attrs with
  | [] => []
  | (k, v) :: r => ((match uri_of k with Some _ => Some (letters i) | None => None end, localname k), v) :: put_attrs (S i) r
  end.
Definition tag_decls (tag : string) : decls := match uri_of tag with Some u => [(Some "e", u)] | None => [] end.
Fixpoint write_all (m : decls) (n : xnode) : raw :=
  match n with
  | XElem tag attrs _ ch _ =>
      RElem (tag_decls tag ++ attr_decls 0 attrs ++ m) (match uri_of tag with Some _ => Some "e" | None => None end, localname tag)
        (put_attrs 0 attrs) (map (write_all m) ch)
  | _ => ROther
  end.
Lemma scope_other ds p : (forall q u, In (q, u) ds -> q <> p) -> scope ds p = None.
Proof.
  induction ds as [|[q u] ds IH]; intros H; [reflexivity|]. cbn [scope]. destruct (same_prefix p q) eqn:E; [|apply IH; intros q' u' Hq; apply (H q' u'); right; exact Hq].
  exfalso. apply (H q u (or_introl eq_refl)). destruct p, q; try discriminate E; [|reflexivity]. apply String.eqb_eq in E. congruence.
Qed.
Lemma put_attrs_written attrs : forall i pre rest, (forall q u, In (q, u) pre -> forall j, (i <= j)%nat -> q <> Some (letters j)) ->
  Forall2 (written_attr (pre ++ attr_decls i attrs ++ rest)) attrs (put_attrs i attrs).
Proof.
  induction attrs as [|[k v] attrs IH]; intros i pre rest Hp; [constructor|]. cbn [attr_decls put_attrs]. constructor.
  - split; [reflexivity|]. split; [reflexivity|]. cbn [fst snd]. destruct (uri_of k) as [u|]; [|reflexivity]. split; [discriminate|].
    rewrite scope_app, scope_other; [|intros q u' Hq; exact (Hp q u' Hq i (le_n i))]. cbn [app scope same_prefix]. rewrite String.eqb_refl. reflexivity.
  - set (d := match uri_of k with Some u => [(Some (letters i), u)] | None => [] end). rewrite <- (app_assoc d), (app_assoc pre d). apply IH.
    intros q u Hq j Hj. apply in_app_or in Hq as [Hq|Hq]; [apply (Hp q u Hq); lia|]. unfold d in Hq. destruct (uri_of k); [|destruct Hq].
    destruct Hq as [[= <- _]|[]]. intros [= E]. apply letters_inj in E. lia.
Qed.
Lemma attr_decls_prefixed attrs : forall i q u, In (q, u) (attr_decls i attrs) -> q <> None.
Proof.
  induction attrs as [|[k v] attrs IH]; intros i q u H; [destruct H|]. cbn [attr_decls] in H. apply in_app_or in H as [H|H]; [|exact (IH _ _ _ H)].
  destruct (uri_of k); [|destruct H]. destruct H as [[= <- _]|[]]. discriminate.
Qed.
(** No name has an empty name space (lxml refuses such names). *)
Definition proper_names (n : xnode) : Prop := forall x tag, In x (tree_nodes n) -> x_tag x = Some tag -> uri_of tag <> Some "".
Theorem C93_written : forall m env e, proper_names e -> exists r, writes_table m env e r.
Proof.
  intros m env e HP. exists (write_all m e). split.
  - revert env HP. induction e as [tag attrs text ch tail IH|? ? ?|? ?] using xnode_ind'; intros env HP; [|constructor..]. cbn [write_all]. apply WElem.
    + apply Forall_forall. intros [q u] Hd. apply in_app_or in Hd as [Hd|Hd]; [|apply in_app_or in Hd as [Hd|Hd]; [|right; exact Hd]].
      * left. unfold tag_decls in Hd. destruct (uri_of tag); [|destruct Hd]. destruct Hd as [[= <- _]|[]]. discriminate.
      * left. exact (attr_decls_prefixed _ _ _ _ Hd).
    + split; [reflexivity|]. unfold tag_decls. destruct (uri_of tag) as [u|] eqn:E; [|reflexivity]. split; [reflexivity|]. intros ->. exact (HP _ tag (or_introl eq_refl) eq_refl E).
    + rewrite <- !app_assoc. apply put_attrs_written. intros q u Hq j _. unfold tag_decls in Hq. destruct (uri_of tag); [|destruct Hq]. destruct Hq as [[= <- _]|[]].
      intros [= E]. symmetry in E. exact (letters_e _ E).
    + assert (HC : forall n, In n ch -> proper_names n).
      { intros n Hn x t Hx. apply HP. right. apply in_flat_map. exists n. auto. }
      clear HP. induction ch as [|c ch IHc]; [constructor|]. inversion IH as [|? ? H1 H2]; subst. cbn [map]. constructor; [apply H1, HC; left; reflexivity|].
      apply (IHc H2). intros n Hn. apply HC. right. exact Hn.
  - destruct e; [|exact I..]. cbn [write_all]. intros d Hd. apply in_or_app. right. apply in_or_app. right. exact Hd.
Qed.

(** From Word the name space may be the default one: in a Word document every element is in a name space. *)
Lemma inside_node e n : inside e n -> In n (tree_nodes e).
Proof.
  induction 1 as [e n H|e c n Hc H IH]; [apply (node_below _ _ n H); destruct n; left; reflexivity|]. exact (node_below _ _ c Hc IH).
Qed.
Theorem C93_word_to_cals : forall kw ox sect e e' env r, ooxml2cals kw ox sect e = Ok e' -> spaced e -> scope env None = None ->
  writes_table (cals_ns_map kw) env e' r -> same_names env e' r.
Proof.
  intros kw ox sect e e' env r H HS He HW. unfold ooxml2cals in H. bind H as o Eo. bind H as t Et. destruct (C70_word _ _ _ _ Et) as (HT & HX & _).
  apply (C93_cals _ _ _ _ _ _ Eo HT HX H He HW). right. right. intros c p Hc Hp.
  destruct (C77_word _ _ _ _ _ _ Et Hc Hp) as (n & m & Hn & _ & Hm & _ & [= ->]). apply (spaced_tail m); [symmetry; apply set_tail_same|].
  intros x tag Hx. apply HS. assert (Hn' : In n (tree_nodes e)) by (destruct Hn as [->|Hn]; [destruct e; left; reflexivity|apply inside_node, Hn]).
  clear -Hn' Hm Hx. revert Hn'. induction e as [tg a s ch tl IH|? ? ?|? ?] using xnode_ind'; intros Hn.
  2, 3: destruct Hn as [<-|[]]; destruct Hm.
  destruct Hn as [<-|Hn]; [apply (node_below _ _ m Hm Hx)|]. apply in_flat_map in Hn as (k & Hk & Hn). rewrite Forall_forall in IH. right. apply in_flat_map. exists k. split; [exact Hk|apply (IH k Hk Hn)].
Qed.

(** From Formex it may not: the elements of a Formex document are in no name space; in the file they are in the one of CALS. *)
Definition kw_default : kwargs := MkKwargs (Some (Some "cals")) None None false [] true false None false (fun _ => "0").
Definition small_corpus : xnode :=
  XElem "CORPUS" [] None [XElem "ROW" [] None [XElem "CELL" [("COL", "1")] None [XElem "P" [] (Some "a") [] None] None] None] None.
Fixpoint put_names (p q : option string) (n : xnode) : raw :=
  match n with
  | XElem tag attrs _ ch _ =>
      RElem [] (match uri_of tag with None => None | Some _ => p end, localname tag)
        (map (fun a => ((match uri_of (fst a) with None => None | Some _ => q end, localname (fst a)), snd a)) attrs) (map (put_names p q) ch)
  | _ => ROther
  end.
Definition declare (ds : decls) (r : raw) : raw := match r with RElem ds' t a c => RElem (ds ++ ds') t a c | ROther => ROther end.
Ltac write_nodes :=
  match goal with
  | |- writes _ _ (XElem _ _ _ _ _) _ => cbn; eapply WElem; [write_nodes|write_nodes|write_nodes|write_nodes]
  | |- writes _ _ (XPI _ _ _) _ => constructor
  | |- Forall2 _ [] _ => constructor
  | |- Forall2 _ (_ :: _) _ => constructor; [write_nodes|write_nodes]
  | |- Forall _ [] => constructor
  | |- Forall _ (_ :: _) => constructor; [first [left; discriminate|right; left; reflexivity]|write_nodes]
  | |- written_tag _ _ _ => split; [reflexivity|cbn; first [reflexivity|split; [reflexivity|discriminate]]]
  | |- written_attr _ _ _ => split; [reflexivity|split; [reflexivity|cbn; first [reflexivity|split; [discriminate|reflexivity]]]]
  end.
Theorem C93_formex_to_cals_refuted : exists kw e e' r, formex2cals kw None 0 [] e = Ok e' /\ writes_table (cals_ns_map kw) [] e' r /\ ~ same_names [] e' r.
Proof.
  exists kw_default, small_corpus. eexists. set (e' := match formex2cals kw_default None 0 [] small_corpus with Ok x => x | Err _ => small_corpus end).
  exists (declare [(None, "cals"); (Some "ns0", "cals")] (put_names None (Some "ns0") e')).
  split; [vm_compute; reflexivity|]. split; [split|].
  - vm_compute. write_nodes.
  - vm_compute. intros x [<-|[]]. left. reflexivity.
  - vm_compute. discriminate.
Qed.
(** With an empty prefix the elements of a Formex table with CALS attributes are not Formex elements any more. *)
Definition kw_empty : kwargs := MkKwargs None (Some "") None false [] true false None false (fun _ => "0").
Definition small_cals : xnode :=
  XElem "table" [] None [XElem "tgroup" [("cols", "1")] None [XElem "tbody" [] None [XElem "row" [] None [XElem "entry" [] (Some "a") [] None] None] None] None] None.
Theorem C93_cals_to_formex_refuted : exists kw k e e' r, cals2formex kw k e = Ok e' /\ writes_table (formex_ns_map kw) [] e' r /\ ~ same_names [] e' r.
Proof.
  exists kw_empty, 1, small_cals. eexists. set (e' := match cals2formex kw_empty 1 small_cals with Ok x => x | Err _ => small_cals end).
  exists (declare [(None, CALS_NS); (Some "ns0", CALS_NS)] (put_names None (Some "ns0") e')).
  split; [vm_compute; reflexivity|]. split; [split|].
  - vm_compute. write_nodes.
  - vm_compute. intros x [<-|[]]. left. reflexivity.
  - vm_compute. discriminate.
Qed.

(** ** Examples: the same tables with the prefix of the options *)
Definition kw_prefixed : kwargs := MkKwargs (Some (Some "cals")) (Some "c") None false [] true false None false (fun _ => "0").
Example C93_formex_to_cals_ex : exists e' r, formex2cals kw_prefixed None 0 [] small_corpus = Ok e' /\ writes_table (cals_ns_map kw_prefixed) [] e' r /\ same_names [] e' r.
Proof.
  eexists. set (e' := match formex2cals kw_prefixed None 0 [] small_corpus with Ok x => x | Err _ => small_corpus end).
  exists (declare [(Some "c", "cals")] (put_names (Some "c") (Some "c") e')).
  split; [vm_compute; reflexivity|]. split; [split|].
  - vm_compute. write_nodes.
  - vm_compute. intros x [<-|[]]. left. reflexivity.
  - vm_compute. reflexivity.
Qed.
Definition kw_usual : kwargs := MkKwargs None None None false [] true false None false (fun _ => "0").
Example C93_cals_to_formex_ex : exists e' r, cals2formex kw_usual 1 small_cals = Ok e' /\ writes_table (formex_ns_map kw_usual) [] e' r /\ same_names [] e' r.
Proof.
  eexists. set (e' := match cals2formex kw_usual 1 small_cals with Ok x => x | Err _ => small_cals end).
  exists (declare [(Some "cals", CALS_NS)] (put_names (Some "cals") (Some "cals") e')).
  split; [vm_compute; reflexivity|]. split; [split|].
  - vm_compute. write_nodes.
  - vm_compute. intros x [<-|[]]. left. reflexivity.
  - vm_compute. reflexivity.
Qed.
(** a Word table with the default name space *)
Definition word_small : xnode :=
  T_Ooxml.w "tbl" [] [T_Ooxml.w "tblPr" [] []; T_Ooxml.grid 1; T_Ooxml.tr [] [T_Ooxml.w "tc" [] [T_Ooxml.w "tcPr" [] []; T_Ooxml.w "p" [] [T_Ooxml.w "r" [] [T_Ooxml.w "t" [] []]]]]].
Definition WURI : string := "http://schemas.openxmlformats.org/wordprocessingml/2006/main".
Fixpoint put_word (n : xnode) : raw :=
  match n with
  | XElem tag attrs _ ch _ =>
      RElem [] (match uri_of tag with None => None | Some u => if String.eqb u WURI then Some "w" else None end, localname tag)
        (map (fun a => ((match uri_of (fst a) with None => None | Some u => Some (if String.eqb u WURI then "w" else "ns0") end, localname (fst a)), snd a)) attrs) (map put_word ch)
  | _ => ROther
  end.
Lemma word_small_spaced : spaced word_small.
Proof. intros x tag Hx Ht. vm_compute in Hx. intuition (subst; injection Ht as <-; discriminate). Qed.
Example C93_word_to_cals_ex : exists e' r, ooxml2cals kw_default (T_Ooxml.opts None) None word_small = Ok e' /\ spaced word_small /\ writes_table (cals_ns_map kw_default) [] e' r /\ same_names [] e' r.
Proof.
  eexists. set (e' := match ooxml2cals kw_default (T_Ooxml.opts None) None word_small with Ok x => x | Err _ => word_small end).
  exists (declare [(None, "cals"); (Some "ns0", "cals"); (Some "w", WURI)] (put_word e')).
  split; [vm_compute; reflexivity|]. split; [apply word_small_spaced|]. split; [split|].
  - vm_compute. write_nodes.
  - vm_compute. intros x [<-|[]]. left. reflexivity.
  - vm_compute. reflexivity.
Qed.

Print Assumptions C93_document.
Print Assumptions C93_cals.
Print Assumptions C93_formex.
Print Assumptions C93_written.
Print Assumptions C93_word_to_cals.
Print Assumptions C93_formex_to_cals_refuted.
Print Assumptions C93_cals_to_formex_refuted.
