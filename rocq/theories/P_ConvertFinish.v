(** * Proofs: the Formex documents given by the converters *)
From Verif Require Import Base M_Geometry M_Xml M_Cell M_Grid M_Table M_Str M_Builder M_Cals M_CalsParser M_Formex M_FormexFinal M_FormexFinish M_Ooxml M_Transform M_Convert M_ConvertDoc.
From Verif Require Import M_Regex S_Int S_FormexFinal P_Units S_Geometry S_Grid S_Table S_Builder S_Cals S_Formex S_Transform S_FormexFinished S_ConvertDoc.
From Verif Require Import P_Table P_Cals P_Builder P_Formex P_FormexNumber P_FormexFinish P_FormexFinished P_FormexFinishedMain P_Transform P_RoundTrip P_Source P_ConvertDoc.
Open Scope string_scope.
Open Scope list_scope.
Open Scope Z_scope.

(** ** The table of the builder has no table in it, if the cells have none *)

Definition NAMES : list string := ["TBL"; "CORPUS"].
Definition clean (p : piece) : Prop := match p with Node n => lacks NAMES n | Char _ => True end.

Lemma lacks_set_tail names n x : lacks names n -> lacks names (x_set_tail n x).
Proof. intros H. apply (lacks_tail _ _ (x_tail n)). destruct n; exact H. Qed.
Lemma Forall2_in_r {A B} (P : A -> B -> Prop) l m y : Forall2 P l m -> In y m -> exists x, In x l /\ P x y.
Proof.
  induction 1 as [|a b l m H _ IH]; intros Hy; [destruct Hy|]. destruct Hy as [<-|Hy]; [exists a; split; [left; reflexivity|exact H]|].
  destruct (IH Hy) as (x & H1 & H2). exists x. split; [right; exact H1|exact H2].
Qed.
Lemma node_clean n : Forall clean (node_pieces n) -> lacks NAMES n.
Proof. intros H. inversion H as [|? ? H1 _]; subst. exact (lacks_tail _ _ None H1). Qed.
Lemma nodes_clean l : Forall clean (flat_map node_pieces l) -> Forall (lacks NAMES) l.
Proof.
  induction l as [|n l IH]; intros H; [constructor|]. cbn [flat_map] in H. apply Forall_app in H as [H1 H2].
  constructor; [apply node_clean, H1|apply IH, H2].
Qed.
Lemma lacks_clean n : lacks NAMES n -> Forall clean (node_pieces n).
Proof.
  intros H. constructor; [apply lacks_set_tail, H|]. apply Forall_forall. intros p Hp. destruct (x_tail n) as [s|]; [|destruct Hp].
  unfold otext_pieces, text_pieces in Hp. apply in_map_iff in Hp as (a & <- & _). exact I.
Qed.

Ltac lack := apply lacks_elem; [cbn; intuition discriminate|].

Section Generated.
  Variable o : fmx_opts.
  Let L := Forall (lacks NAMES).

  Lemma IE_lacks : lacks NAMES IE.
  Proof. lack. constructor. Qed.
  Lemma cell_clean bb cs rs row c e : Forall clean (content_pieces (c_content c)) -> build_fcell o bb cs rs row c = Ok e -> lacks NAMES e.
  Proof.
    intros HC H. unfold build_fcell in H. bind H as a1 E1. bind H as a2 E2. bind H as a3 E3.
    destruct (fmx_empty c).
    - injection H as <-. lack. constructor; [apply IE_lacks|constructor].
    - apply content_written in H as (H1 & _ & _ & H2). destruct e as [tag attrs text ch tail| |]; try discriminate H1. injection H1 as ->. lack.
      rewrite <- H2 in HC. unfold elem_pieces in HC. apply Forall_app in HC as [_ HC]. apply nodes_clean, HC.
  Qed.
  Lemma nodes_of_clean l ns : Forall clean (flat_map content_pieces l) -> nodes_of l = Ok ns -> L ns.
  Proof.
    revert ns. induction l as [|c l IH]; intros ns HC H; [injection H as <-; constructor|].
    cbn [flat_map] in HC. apply Forall_app in HC as [H1 H2]. destruct c; cbn [nodes_of] in H; try discriminate. bind H as r E. injection H as <-.
    constructor; [apply node_clean, H1|apply IH; [exact H2|reflexivity]].
  Qed.
  Lemma paragraphs_clean l ns : Forall clean (flat_map content_pieces l) -> title_paragraphs l = Ok ns -> L ns.
  Proof.
    intros HC H. destruct l as [|p ps]; [discriminate|]. unfold title_paragraphs in H. bind H as n E1. bind H as r E2. injection H as <-.
    cbn [flat_map] in HC. apply Forall_app in HC as [H1 H2].
    constructor; [|constructor; [|constructor]]; lack.
    - apply (nodes_of_clean [p]); [cbn [flat_map]; rewrite app_nil_r; exact H1|exact E1].
    - exact (nodes_of_clean _ _ H2 E2).
  Qed.
  Lemma title_clean row e : (forall c, In c (v_owned row) -> Forall clean (content_pieces (c_content c))) -> build_title row = Ok e -> lacks NAMES e.
  Proof.
    intros HC H. unfold build_title in H. bind H as l E. injection H as <-. lack. apply rmap_Forall2 in E.
    induction E as [|c n cs ns Hc E IH]; [constructor|]. cbn [List.concat]. apply Forall_app. split; [|apply IH; intros; apply HC; right; assumption].
    pose proof (HC c ltac:(left; reflexivity)) as K. unfold build_title_cell in Hc. destruct (fmx_empty c).
    - injection Hc as <-. constructor; [|constructor]. lack. constructor; [apply IE_lacks|constructor].
    - destruct (c_content c) as [| | |l|m|]; try discriminate.
      + injection Hc as <-. constructor; [|constructor]. lack. constructor; [|constructor]. lack. constructor.
      + exact (paragraphs_clean _ _ K Hc).
      + apply (paragraphs_clean _ _) with (2 := Hc). cbn in K. apply node_clean in K. inversion K as [? _ K2]; subst.
        apply Forall_forall. intros p Hp. apply in_flat_map in Hp as (d & Hd & Hp). apply in_map_iff in Hd as (x & <- & Hx).
        pose proof (lacks_clean _ (K2 x Hx)) as F. rewrite Forall_forall in F. exact (F p Hp).
  Qed.
  Lemma row_clean bb cs rs row l : (forall c, In c (v_owned row) -> Forall clean (content_pieces (c_content c))) -> build_frow o bb cs rs row = Ok l -> L l.
  Proof.
    intros HC H. unfold build_frow in H. bind H as a1 E1. bind H as st E2. bind H as at' E3. bind H as fi E4. bind H as cells E5. injection H as <-.
    assert (HP : forall nm r x y, (if dmem (v_styles row) "x-ins" then pi <-? revision_mark nm r ;; Ok [pi] else Ok []) = Ok x -> x = y -> L y).
    { intros nm r x y H <-. destruct (dmem _ _); [|injection H as <-; constructor]. bind H as pi E. injection H as <-.
      unfold revision_mark in E. bind E as aa Ea. injection E as <-. constructor; [apply lacks_pi|constructor]. }
    apply Forall_app. split; [exact (HP _ _ _ _ E2 eq_refl)|]. constructor; [|exact (HP _ _ _ _ E4 eq_refl)].
    lack. apply rmap_Forall2 in E5. apply Forall_forall. intros x Hx. apply (Forall2_in_r _ _ _ x E5) in Hx as (c & Hc & Hcx).
    exact (cell_clean _ _ _ _ _ _ (HC c Hc) Hcx).
  Qed.

  (** the children of a CORPUS: only rows have a style of row *)
  Definition kid (named : bool) (ns : option string) (n : xnode) : Prop := (named = true /\ x_tag n = Some "ROW") \/ x_get n (qname ns "rowstyle") = None.
  Lemma colspec_kid cs rs v e : build_colspec (fo_cals o) cs rs v = Ok e -> x_get e (qname (co_ns (fo_cals o)) "rowstyle") = None.
  Proof.
    intros H. unfold build_colspec in H. bind H as a1 E1. bind H as a3 E3. bind H as a4 E4. bind H as attrs Hm. injection H as <-.
    change (dget attrs (cals (fo_cals o) "rowstyle") = None). rewrite (make_attrs_get _ _ _ Hm).
    rewrite (sep_attr_get _ _ _ _ _ _ _ "rowstyle" E4) by discriminate. rewrite (sep_attr_get _ _ _ _ _ _ _ "rowstyle" E3) by discriminate.
    assert (N : forall a b, a <> b -> cals (fo_cals o) a <> cals (fo_cals o) b) by apply cals_neq.
    assert (G : forall w, dget (dset a1 (cals (fo_cals o) "align") w) (cals (fo_cals o) "rowstyle") = dget a1 (cals (fo_cals o) "rowstyle")).
    { intros w. apply dset_get. discriminate. }
    assert (G1 : dget a1 (cals (fo_cals o) "rowstyle") = None).
    { rewrite (width_attr_get _ _ _ _ _ "rowstyle" E1) by discriminate. cbn [dget].
      destruct (String.eqb_spec (cals (fo_cals o) "rowstyle") (cals (fo_cals o) "colnum")) as [E|_]; [exfalso; apply (N "rowstyle" "colnum"); [discriminate|exact E]|].
      destruct (String.eqb_spec (cals (fo_cals o) "rowstyle") (cals (fo_cals o) "colname")) as [E|_]; [exfalso; apply (N "rowstyle" "colname"); [discriminate|exact E]|]. reflexivity. }
    destruct (dget (v_styles v) "align") as [[s| | |]|]; try (rewrite G1; reflexivity). destruct (dget ALIGNS s); rewrite ?G, G1; reflexivity.
  Qed.
  Lemma row_kid bb cs rs row l : build_frow o bb cs rs row = Ok l -> Forall (kid (fo_use_cals o) (co_ns (fo_cals o))) l.
  Proof.
    intros H. unfold build_frow in H. bind H as a1 E1. bind H as st E2. bind H as at' E3. bind H as fi E4. bind H as cells E5. injection H as <-.
    assert (HP : forall nm r x y, (if dmem (v_styles row) "x-ins" then pi <-? revision_mark nm r ;; Ok [pi] else Ok []) = Ok x -> x = y -> Forall (kid (fo_use_cals o) (co_ns (fo_cals o))) y).
    { intros nm r x y H <-. destruct (dmem _ _); [|injection H as <-; constructor]. bind H as pi E. injection H as <-.
      unfold revision_mark in E. bind E as aa Ea. injection E as <-. constructor; [right; reflexivity|constructor]. }
    apply Forall_app. split; [exact (HP _ _ _ _ E2 eq_refl)|]. constructor; [|exact (HP _ _ _ _ E4 eq_refl)].
    destruct (fo_use_cals o); [left; split; reflexivity|right]. injection E1 as <-.
    change (dget at' (qname (co_ns (fo_cals o)) "rowstyle") = None). rewrite (make_attrs_get _ _ _ E3). unfold row_type_attr.
    assert (N : String.eqb (qname (co_ns (fo_cals o)) "rowstyle") "TYPE" = false) by (unfold qname; destruct (co_ns (fo_cals o)); reflexivity).
    destruct (v_nature row) as [s|]; [|reflexivity]. destruct (String.eqb s "header"); [cbn [dset dget]; rewrite N; reflexivity|].
    destruct (String.eqb s "footer"); [cbn [dset dget]; rewrite N; reflexivity|reflexivity].
  Qed.
  Lemma generated k t e : treachable t -> views_exact Rows t ->
    (forall c, In c (t_grid t) -> Forall clean (content_pieces (c_content c))) -> generate_tbl o k t = Ok e ->
    exists attrs title cattrs kids, e = XElem "TBL" attrs None (title ++ [XElem "CORPUS" cattrs None kids None]) None /\ Forall (lacks NAMES) title /\ Forall (lacks NAMES) kids /\
      dget attrs "NO.SEQ" = Some (format04 k) /\ Forall (kid (fo_use_cals o) (co_ns (fo_cals o))) kids.
  Proof.
    intros HR HX HC H. destruct (generate_tbl_spec o k t e HR H) as (_ & _ & _ & _ & HN & _).
    unfold generate_tbl in H. bind H as cols E1. bind H as a1 E2. bind H as a2 E3. bind H as ch E4. injection H as <-.
    unfold build_corpus in E4. bind E4 as rows E5.
    assert (HO : forall row c, In row rows -> In c (v_owned row) -> Forall clean (content_pieces (c_content c))).
    { intros row c Hr Hc. apply HC. apply (Permutation.Permutation_in _ (owned_all t rows HR HX E5)). apply in_flat_map. exists row. auto. }
    bind E4 as tr E6. bind E4 as cra E7. destruct cra as [[cs rs] a]. bind E4 as at' E8. bind E4 as specs E9. bind E4 as items E10. injection E4 as <-.
    assert (HT : L (fst tr) /\ (forall r, In r (snd tr) -> In r rows)).
    { unfold split_title in E6. destruct (fo_titles o); [|injection E6 as <-; split; [constructor|auto]].
      bind E6 as first F1. bind E6 as bb F2. destruct bb as [bb|]; [|discriminate]. destruct (_ && _); [|injection E6 as <-; split; [constructor|auto]].
      destruct rows as [|r rows]; [discriminate|]. bind E6 as title F3. injection E6 as <-. split; [|intros x Hx; right; exact Hx].
      constructor; [|constructor]. apply (title_clean r); [|exact F3]. intros c Hc. exact (HO r c ltac:(left; reflexivity) Hc). }
    destruct HT as [HT HS]. exists a2, (fst tr), at', (specs ++ List.concat items). split; [reflexivity|]. split; [exact HT|].
    assert (HC1 : Forall (lacks NAMES) specs /\ Forall (kid (fo_use_cals o) (co_ns (fo_cals o))) specs).
    { destruct (fo_use_cals o); [|injection E9 as <-; split; constructor]. bind E9 as cols' F. apply rmap_Forall2 in E9.
      split; apply Forall_forall; intros x Hx; apply (Forall2_in_r _ _ _ x E9) in Hx as (v & _ & Hv).
      - unfold build_colspec in Hv. bind Hv as b1 G1. bind Hv as b2 G2. bind Hv as b3 G3. bind Hv as b4 G4. injection Hv as <-. apply lacks_elem; [|constructor].
        intros [E|[E|[]]]; unfold cals, qname in E; destruct (co_ns (fo_cals o)); discriminate E.
      - right. exact (colspec_kid _ _ _ _ Hv). }
    assert (HC2 : Forall (lacks NAMES) (List.concat items) /\ Forall (kid (fo_use_cals o) (co_ns (fo_cals o))) (List.concat items)).
    { apply rmap_Forall2 in E10. clear HN E6 E7 E8 E9 HT. destruct tr as [tt tl]. cbn [snd] in *.
      induction E10 as [|v l vs ls Hv _ IH]; [split; constructor|]. cbn [List.concat]. destruct IH as [I1 I2]; [intros r Hr; apply HS; right; exact Hr|].
      split; apply Forall_app; (split; [|assumption]).
      + apply (row_clean _ _ _ _ _) with (2 := Hv). intros c Hc. apply (HO v); [apply HS; left; reflexivity|exact Hc].
      + exact (row_kid _ _ _ _ _ Hv). }
    destruct HC1, HC2. split; [apply Forall_app; auto|]. split; [exact HN|]. apply Forall_app; auto.
  Qed.

  (** The number of the table is only in its attribute *)
  Lemma dset_head k v w (a : dict string) : dset ((k, v) :: a) k w = (k, w) :: a.
  Proof. cbn [dset]. rewrite String.eqb_refl. reflexivity. Qed.
  Lemma generate_number k t : generate_tbl o k t = (e <-? generate_tbl o 1 t ;; Ok (x_set e "NO.SEQ" (format04 k))).
  Proof.
    unfold generate_tbl. destruct (table_views Cols t) as [cols|]; [|reflexivity]. cbn [rbind].
    generalize (SStr (py_str_int (Z.of_nat (List.length cols)))). intros cv.
    assert (E : exists f, forall w, page_size (t_styles t) [("NO.SEQ", SStr w); ("COLS", cv)] = (a <-? f ;; Ok (("NO.SEQ", SStr w) :: a))).
    { unfold page_size. destruct (dget (t_styles t) "x-sect-orient") as [orient|]; [|exists (Ok [("COLS", cv)]); auto].
      destruct (match dget (t_styles t) "x-sect-size" with None => _ | Some _ => _ end) as [[w h]|x]; cbn [rbind]; [|exists (Err x); auto].
      destruct orient as [s| | |]; try (exists (Ok [("COLS", cv)]); auto; fail).
      destruct (String.eqb s "landscape"); [eexists (Ok _); intros; reflexivity|].
      destruct (_ && _); [eexists (Ok _); intros; reflexivity|]. exists (Ok [("COLS", cv)]); auto. }
    destruct E as (f & Hf). rewrite !Hf. destruct f as [a|]; [|reflexivity]. cbn [rbind make_attrs].
    destruct (make_attrs a) as [a'|]; [|reflexivity]. cbn [rbind]. destruct (build_corpus o t); [|reflexivity]. cbn [rbind x_set].
    rewrite dset_head. reflexivity.
  Qed.
End Generated.

(** ** The passes, on a document with tables *)

Definition TAGS : list string := ["TBL"; "ROW"; "CORPUS"].
(** the elements around the tables are others than those of Formex *)
Inductive laid : xnode -> Prop :=
| laid_tbl n : x_tag n = Some "TBL" -> laid n
| laid_other n : (forall s, x_tag n = Some s -> ~ In s TAGS) -> (forall c, In c (x_children n) -> laid c) -> laid n.
Lemma laid_inv tag attrs text ch tail : ~ In tag TAGS -> laid (XElem tag attrs text ch tail) -> forall c, In c ch -> laid c.
Proof.
  intros Ht H. inversion H as [? E|? _ H2]; subst; [|exact H2]. exfalso. apply Ht. injection E as ->. cbn. tauto.
Qed.
(** A pass goes through the elements which are not those of Formex *)
Definition pass (f : xnode -> result xnode) : Prop :=
  (forall tag attrs text ch tail, ~ In tag TAGS -> (forall c, In c ch -> laid c) ->
     f (XElem tag attrs text ch tail) = (ch' <-? rmap f ch ;; Ok (XElem tag attrs text ch' tail))) /\
  (forall a b c, f (XPI a b c) = Ok (XPI a b c)) /\ (forall a b, f (XComment a b) = Ok (XComment a b)) /\
  (forall e tail, x_tag e = Some "TBL" -> f (x_set_tail e tail) = (e' <-? f e ;; Ok (x_set_tail e' tail))) /\
  (forall e e', x_tag e = Some "TBL" -> f e = Ok e' -> x_tag e' = Some "TBL") /\
  (forall e k v, x_tag e = Some "TBL" -> f (x_set e k v) = (e' <-? f e ;; Ok (x_set e' k v))).

Lemma extract_laid n : laid n -> (exists n', extract_in n = Ok ([n'], [])) \/ (exists x, extract_in n = Err x).
Proof.
  induction n as [tag attrs text children tail IH| |] using xnode_ind'; intros H; [|left; eexists; reflexivity..].
  rewrite extract_elem. destruct (extract_list children) as [[ch nts]|x] eqn:E; cbn [rbind]; [|eauto].
  destruct (String.eqb_spec tag "TBL") as [->|Ht]; [destruct (insert_notes text ch nts); cbn; eauto|].
  inversion H as [? H1|? H1 H2]; subst; [cbn in H1; congruence|]. specialize (H1 tag eq_refl).
  destruct (String.eqb_spec tag "ROW") as [->|Hr]; [exfalso; apply H1; cbn; tauto|].
  assert (K : forall l, Forall (fun c => laid c -> (exists n', extract_in c = Ok ([n'], [])) \/ (exists x, extract_in c = Err x)) l -> (forall c, In c l -> laid c) ->
    forall ch nts, extract_list l = Ok (ch, nts) -> nts = []).
  { clear. induction l as [|c l IHl]; intros F Hl ch nts E; [injection E as _ <-; reflexivity|]. cbn [extract_list] in E.
    inversion F as [|? ? F1 F2]; subst. destruct (F1 (Hl c ltac:(left; reflexivity))) as [[n' En]|[x En]]; rewrite En in E; cbn [rbind] in E; [|discriminate].
    destruct (extract_list l) as [[a b]|]; cbn [rbind fst snd] in E; [|discriminate]. injection E as _ <-.
    apply (IHl F2) with (ch := a); [|reflexivity]. intros d Hd. apply Hl. right. exact Hd. }
  rewrite (K _ IH H2 _ _ E). left. eauto.
Qed.
Lemma extract_rmap l : (forall c, In c l -> laid c) ->
  extract_list l = (l' <-? rmap extract_gr_notes l ;; Ok (l', [])).
Proof.
  induction l as [|c l IH]; intros H; [reflexivity|]. cbn [extract_list rmap]. unfold extract_gr_notes at 1.
  destruct (extract_laid c (H c ltac:(left; reflexivity))) as [[n' ->]|[x ->]]; cbn [rbind]; [|reflexivity].
  rewrite IH by (intros d Hd; apply H; right; exact Hd). destruct (rmap extract_gr_notes l); reflexivity.
Qed.
Ltac notin H := match goal with |- context [String.eqb ?a ?b] => destruct (String.eqb_spec a b) as [->|_]; [exfalso; apply H; cbn; tauto|] end.
Ltac tbl e H := destruct e as [? ? ? ? ?| |]; try discriminate H; injection H as ->.
Lemma extract_pass : pass extract_gr_notes.
Proof.
  split; [|split; [|split; [|split; [|split]]]].
  - intros tag attrs text ch tail Ht Hl. unfold extract_gr_notes at 1. rewrite extract_elem, (extract_rmap _ Hl).
    destruct (rmap extract_gr_notes ch) as [ch'|]; cbn [rbind]; [|reflexivity]. notin Ht. notin Ht. reflexivity.
  - reflexivity.
  - reflexivity.
  - intros e tl H. tbl e H. unfold extract_gr_notes. cbn [x_set_tail]. rewrite !extract_elem. destruct (extract_list _) as [[ch' nts]|]; cbn [rbind]; [|reflexivity].
    rewrite String.eqb_refl. destruct (insert_notes _ _ _) as [[? ?]|]; reflexivity.
  - intros e e' H. tbl e H. unfold extract_gr_notes. rewrite !extract_elem. destruct (extract_list _) as [[ch' nts]|]; cbn [rbind]; [|discriminate].
    rewrite String.eqb_refl. destruct (insert_notes _ _ _) as [[? ?]|]; cbn; [|discriminate]. intros [= <-]. reflexivity.
  - intros e k v H. tbl e H. unfold extract_gr_notes. cbn [x_set]. rewrite !extract_elem. destruct (extract_list _) as [[ch' nts]|]; cbn [rbind]; [|reflexivity].
    rewrite String.eqb_refl. destruct (insert_notes _ _ _) as [[? ?]|]; reflexivity.
Qed.
Lemma insert_rmap ns l : insert_list ns l = rmap (insert_blk ns) l.
Proof. induction l as [|c l IH]; [reflexivity|]. cbn [insert_list rmap]. rewrite IH. reflexivity. Qed.
Lemma insert_pass ns : pass (insert_blk ns).
Proof.
  split; [|split; [|split; [|split; [|split]]]].
  - intros tag attrs text ch tail Ht Hl. rewrite insert_elem, insert_rmap. destruct (rmap (insert_blk ns) ch) as [ch'|]; cbn [rbind]; [|reflexivity]. notin Ht. reflexivity.
  - reflexivity.
  - reflexivity.
  - intros e tl H. tbl e H. cbn [x_set_tail]. rewrite !insert_elem. destruct (insert_list _ _); reflexivity.
  - intros e e' H. tbl e H. rewrite !insert_elem. destruct (insert_list _ _); cbn; [|discriminate]. intros [= <-]. reflexivity.
  - intros e k v H. tbl e H. cbn [x_set]. rewrite !insert_elem. destruct (insert_list _ _); reflexivity.
Qed.
Definition drop_pass (ns : option string) (n : xnode) : result xnode := Ok (drop_superfluous_attrs ns n).
Lemma rmap_ok {A B} (f : A -> B) l : rmap (fun x => Ok (f x)) l = Ok (map f l).
Proof. induction l as [|c l IH]; [reflexivity|]. cbn [rmap map]. rewrite IH. reflexivity. Qed.
Lemma drop_is_pass ns : pass (drop_pass ns).
Proof.
  split; [|split; [|split; [|split; [|split]]]].
  - intros tag attrs text ch tail Ht Hl. unfold drop_pass. rewrite rmap_ok. cbn [rbind]. unfold drop_superfluous_attrs. cbn [drop_in].
    notin Ht. reflexivity.
  - reflexivity.
  - reflexivity.
  - intros e tl H. tbl e H. reflexivity.
  - intros e e' H. tbl e H. intros [= <-]. reflexivity.
  - intros e k v H. tbl e H. reflexivity.
Qed.

Lemma converted_impl is_table (R R' : list xnode -> list xnode -> xnode -> xnode -> Prop) names :
  (forall b a n e, lacks names n -> R b a n e -> R' b a n e) ->
  forall n b a d, lacks names n -> converted is_table R b a n d -> converted is_table R' b a n d.
Proof.
  intros HR. induction n as [tag attrs text children tail IH| |] using xnode_ind'; intros b a d HL H.
  - inversion H as [? ? ? e Et Re|? ? ? ? ? ? ch' ? Et Hl| |]; subst; [apply (cv_table is_table R' b a (XElem tag attrs text children tail)); auto|].
    constructor; [exact Et|]. apply lacks_inv in HL as [_ HL]. clear H Et. revert b ch' Hl.
    induction children as [|c l IHl]; intros b ch' Hl; inversion Hl; subst; constructor; inversion IH; inversion HL; subst; auto.
  - inversion H as [? ? ? e Et Re| | |]; subst; [apply (cv_table is_table R' b a (XPI target pitext tail)); auto|constructor; assumption].
  - inversion H as [? ? ? e Et Re| | |]; subst; [apply (cv_table is_table R' b a (XComment ctext tail)); auto|constructor; assumption].
Qed.

Section Passes.
  Variable is_table : xnode -> bool.

  Lemma converted_laid (R : list xnode -> list xnode -> xnode -> xnode -> Prop) :
    (forall b a n e, R b a n e -> x_tag e = Some "TBL") ->
    forall n b a d, lacks TAGS n -> converted is_table R b a n d -> laid d.
  Proof.
    intros HR. induction n as [tag attrs text children tail IH| |] using xnode_ind'; intros b a d HL H.
    - inversion H as [? ? ? e Et Re|? ? ? ? ? ? ch' ? Et Hl| |]; subst.
      + apply laid_tbl. rewrite set_tail_tag. exact (HR _ _ _ _ Re).
      + apply lacks_inv in HL as [Ht HL]. apply laid_other; [intros s [= <-]; exact Ht|]. cbn [x_children]. clear H Et Ht. revert b ch' Hl.
        induction children as [|c l IHl]; intros b ch' Hl; inversion Hl as [|? ? ? c' ? l' Hc Hr]; subst; [intros x []|].
        inversion IH as [|? ? I1 I2]; subst. inversion HL as [|? ? L1 L2]; subst.
        intros x [<-|Hx]; [exact (I1 _ _ _ L1 Hc)|exact (IHl I2 L2 _ _ Hr x Hx)].
    - inversion H as [? ? ? e Et Re| | |]; subst; [apply laid_tbl; rewrite set_tail_tag; exact (HR _ _ _ _ Re)|].
      apply laid_other; [discriminate|intros x []].
    - inversion H as [? ? ? e Et Re| | |]; subst; [apply laid_tbl; rewrite set_tail_tag; exact (HR _ _ _ _ Re)|].
      apply laid_other; [discriminate|intros x []].
  Qed.

  Variable f : xnode -> result xnode.
  Hypothesis Hf : pass f.
  Variable R : list xnode -> list xnode -> xnode -> xnode -> Prop.
  Hypothesis HR : forall b a n e, R b a n e -> x_tag e = Some "TBL".
  Definition after_pass (b a : list xnode) (n e' : xnode) : Prop := exists e, R b a n e /\ f e = Ok e'.

  Lemma table_passed b a n d' : is_table n = true ->
    ((exists d, converted is_table R b a n d /\ f d = Ok d') <-> converted is_table after_pass b a n d').
  Proof.
    intros Et. destruct Hf as (_ & _ & _ & F4 & _). split.
    - intros (d & H & E). assert (K : exists e, R b a n e /\ d = x_set_tail e (x_tail n)).
      { inversion H as [? ? ? e ? Re| | |]; subst; [exists e; auto|congruence..]. }
      destruct K as (e & Re & ->). rewrite (F4 e _ (HR _ _ _ _ Re)) in E. destruct (f e) as [e'|] eqn:Ef; cbn in E; [|discriminate]. injection E as <-.
      apply cv_table; [exact Et|]. exists e. auto.
    - intros H. assert (K : exists e', after_pass b a n e' /\ d' = x_set_tail e' (x_tail n)).
      { inversion H as [? ? ? e ? Re| | |]; subst; [exists e; auto|congruence..]. }
      destruct K as (e' & (e & Re & Ef) & ->). exists (x_set_tail e (x_tail n)). split; [apply cv_table; assumption|].
      rewrite (F4 e _ (HR _ _ _ _ Re)), Ef. reflexivity.
  Qed.
  Lemma passed n : lacks TAGS n -> forall b a d',
    (exists d, converted is_table R b a n d /\ f d = Ok d') <-> converted is_table after_pass b a n d'.
  Proof.
    induction n as [tag attrs text children tail IH| |] using xnode_ind'; intros HL b a d'.
    - destruct (is_table (XElem tag attrs text children tail)) eqn:Et; [apply table_passed, Et|].
      pose proof Hf as (F1 & _). pose proof HL as HL0. apply lacks_inv in HL as [Ht HL].
      assert (G : forall b l', (exists l1, converted_list is_table R b a children l1 /\ rmap f l1 = Ok l') <-> converted_list is_table after_pass b a children l').
      { clear Et HL0 b d'. induction children as [|c l IHl]; intros b l'.
        - split; [intros (l1 & H & E); inversion H; subst; injection E as <-; constructor|].
          intros H. inversion H; subst. exists []. split; [constructor|reflexivity].
        - inversion IH as [|? ? I1 I2]; subst. inversion HL as [|? ? L1 L2]; subst. split.
          + intros (l1 & H & E). inversion H as [|? ? ? c' ? l2 Hc Hr]; subst. cbn [rmap] in E. 
            destruct (f c') as [c2|] eqn:Ec; cbn [rbind] in E; [|discriminate]. destruct (rmap f l2) as [l3|] eqn:E3; cbn [rbind] in E; [|discriminate]. injection E as <-.
            constructor; [apply (I1 L1); eauto|apply (IHl I2 L2); eauto].
          + intros H. inversion H as [|? ? ? c' ? l2 Hc Hr]; subst. apply (I1 L1) in Hc as (c1 & C1 & C2). apply (IHl I2 L2) in Hr as (l1 & D1 & D2).
            exists (c1 :: l1). split; [constructor; assumption|]. cbn [rmap]. rewrite C2. cbn [rbind]. rewrite D2. reflexivity. }
      split.
      + intros (d & H & E). pose proof (converted_laid R HR _ _ _ _ HL0 H) as Hd.
        inversion H as [? ? ? e ? Re|? ? ? ? ? ? ch' ? _ Hl| |]; subst; [congruence|].
        rewrite (F1 _ _ _ _ _ Ht (laid_inv _ _ _ _ _ Ht Hd)) in E. destruct (rmap f ch') as [ch2|] eqn:E2; cbn in E; [|discriminate]. injection E as <-.
        constructor; [exact Et|]. apply G. eauto.
      + intros H. inversion H as [? ? ? e ? Re|? ? ? ? ? ? ch' ? _ Hl| |]; subst; [congruence|]. apply G in Hl as (l1 & D1 & D2).
        assert (K : converted is_table R b a (XElem tag attrs text children tail) (XElem tag attrs text l1 tail)) by (constructor; assumption).
        pose proof (converted_laid R HR _ _ _ _ HL0 K) as Hd. eexists. split; [exact K|].
        rewrite (F1 _ _ _ _ _ Ht (laid_inv _ _ _ _ _ Ht Hd)), D2. reflexivity.
    - destruct (is_table (XPI target pitext tail)) eqn:Et; [apply table_passed, Et|]. destruct Hf as (_ & F2 & _). split.
      + intros (d & H & E). inversion H; subst; [congruence|]. rewrite F2 in E. injection E as <-. constructor. exact Et.
      + intros H. inversion H; subst; [congruence|]. eexists. split; [constructor; exact Et|apply F2].
    - destruct (is_table (XComment ctext tail)) eqn:Et; [apply table_passed, Et|]. destruct Hf as (_ & _ & F3 & _). split.
      + intros (d & H & E). inversion H; subst; [congruence|]. rewrite F3 in E. injection E as <-. constructor. exact Et.
      + intros H. inversion H; subst; [congruence|]. eexists. split; [constructor; exact Et|apply F3].
  Qed.
End Passes.

(** ** The numbers are those of the builder, and the tables are in no table *)

Definition stack_of (k : nat) : list Z := match k with O => [] | _ => [Z.of_nat k] end.
Lemma bump_stack k : bump 1 (stack_of k) = stack_of (S k).
Proof. rewrite bump_spec by apply Nat.le_0_l. destruct k; cbn [stack_of firstn nth app]; [reflexivity|]. f_equal. lia. Qed.
Lemma stack_text k : no_seq_text (stack_of (S k)) = format04 (Z.of_nat k + 1).
Proof. unfold no_seq_text, stack_of. cbn [map String.concat]. f_equal. lia. Qed.
Lemma dset_known (d : dict string) k v : dget d k = Some v -> dset d k v = d.
Proof.
  induction d as [|[k' v'] d IH]; cbn [dget dset]; [discriminate|]. destruct (String.eqb k k'); [intros [= ->]; reflexivity|].
  intros H. rewrite IH by exact H. reflexivity.
Qed.
Definition shaped (k : Z) (e : xnode) : Prop :=
  exists attrs text ch, e = XElem "TBL" attrs text ch None /\ Forall (lacks ["TBL"]) ch /\ dget attrs "NO.SEQ" = Some (format04 (k + 1)).

Lemma shaped_number k e tail : shaped (Z.of_nat k) e -> M_FormexFinal.number 0 (x_set_tail e tail) (stack_of k) = (x_set_tail e tail, stack_of (S k)).
Proof.
  intros (attrs & text & ch & -> & HL & HN). cbn [x_set_tail]. rewrite number_elem, String.eqb_refl. cbv zeta.
  rewrite bump_stack, numbers_same by (rewrite Forall_forall in *; intros x Hx; apply number_lacks, HL, Hx).
  rewrite stack_text, dset_known by exact HN. reflexivity.
Qed.
Lemma shaped_cleanup k e tail : shaped k e -> cleanup_in false (x_set_tail e tail) = [x_set_tail e tail].
Proof.
  intros (attrs & text & ch & -> & HL & _). cbn [x_set_tail cleanup_in]. rewrite String.eqb_refl. cbn [andb].
  rewrite flat_map_same; [reflexivity|]. rewrite Forall_forall in *. intros x Hx. apply cleanup_lacks, HL, Hx.
Qed.

Section Finish.
  Variable is_table : xnode -> bool.
  Variable R : list xnode -> list xnode -> xnode -> xnode -> Prop.
  Hypothesis HT : forall b a n e, R b a n e -> x_tag e = Some "TBL".
  Hypothesis HR : forall b a n e, lacks TAGS n -> R b a n e -> shaped (Z.of_nat (numb is_table b)) e.

  Lemma table_numb n : is_table n = true -> flat is_table n -> numb is_table [n] = 1%nat.
  Proof.
    intros Et [Hf _]. specialize (Hf Et). rewrite numb_cons, Et.
    assert (E : numb is_table (x_children n) = 0%nat).
    { unfold numb. assert (K : forall m, In m (flat_map tree_nodes (x_children n)) -> is_table m = false).
      { intros m Hm. apply Hf. clear - Hm. apply in_flat_map in Hm as (c & Hc & Hm).
        assert (G : forall c m, In m (tree_nodes c) -> m = c \/ inside c m).
        { clear. induction c as [tag attrs text children tail IH| |] using xnode_ind'; intros m [<-|Hm]; auto; try contradiction.
          right. apply in_flat_map in Hm as (d & Hd & Hm). rewrite Forall_forall in IH. destruct (IH d Hd m Hm) as [->|H]; [apply in_child; exact Hd|].
          apply (in_deep _ d); assumption. }
        destruct (G c m Hm) as [->|H]; [apply in_child, Hc|apply (in_deep _ c); assumption]. }
      induction (flat_map tree_nodes (x_children n)) as [|m l IHl]; [reflexivity|]. cbn [filter]. rewrite (K m) by (left; reflexivity).
      apply IHl. intros x Hx. apply K. right. exact Hx. }
    rewrite E. reflexivity.
  Qed.

  Lemma table_kept b a n d : is_table n = true -> flat is_table n -> lacks TAGS n -> converted is_table R b a n d ->
    M_FormexFinal.number 0 d (stack_of (numb is_table b)) = (d, stack_of (numb is_table (b ++ [n]))) /\ cleanup_in false d = [d].
  Proof.
    intros Et HF HL H. assert (K : exists e, R b a n e /\ d = x_set_tail e (x_tail n)) by (inversion H as [? ? ? e ? Re| | |]; subst; [exists e; auto|congruence..]).
    destruct K as (e & Re & ->). apply (HR _ _ _ _ HL) in Re. split; [|exact (shaped_cleanup _ _ _ Re)].
    rewrite numb_app, (table_numb n Et HF), (shaped_number _ _ _ Re). repeat f_equal. lia.
  Qed.
  Lemma kept n : flat is_table n -> lacks TAGS n -> forall b a d, converted is_table R b a n d ->
    M_FormexFinal.number 0 d (stack_of (numb is_table b)) = (d, stack_of (numb is_table (b ++ [n]))) /\ cleanup_in false d = [d].
  Proof.
    induction n as [tag attrs text children tail IH| |] using xnode_ind'; intros HF HL b a d H.
    - destruct (is_table (XElem tag attrs text children tail)) eqn:Et; [exact (table_kept _ _ _ _ Et HF HL H)|].
      inversion H as [? ? ? e ? Re|? ? ? ? ? ? ch' ? _ Hl| |]; subst; [congruence|]. apply lacks_inv in HL as [Ht HL].
      assert (HC : forall c, In c children -> flat is_table c) by (intros c Hc; exact (flat_child _ (XElem tag attrs text children tail) c Hc HF)).
      assert (G : numbers 0 ch' (stack_of (numb is_table b)) = (ch', stack_of (numb is_table (b ++ children))) /\ flat_map (cleanup_in false) ch' = ch').
      { clear H Et HF. revert b ch' Hl. induction children as [|c l IHl]; intros b ch' Hl; inversion Hl as [|? ? ? c' ? l' Hc Hr]; subst.
        - rewrite app_nil_r. split; reflexivity.
        - inversion IH as [|? ? I1 I2]; subst. inversion HL as [|? ? L1 L2]; subst.
          destruct (I1 (HC c ltac:(left; reflexivity)) L1 _ _ _ Hc) as [A1 A2].
          destruct (IHl I2 L2 ltac:(intros x Hx; apply HC; right; exact Hx) _ _ Hr) as [B1 B2].
          cbn [numbers flat_map]. rewrite A1, A2, B1, B2, <- app_assoc. split; reflexivity. }
      destruct G as [G1 G2]. rewrite number_elem. cbn [cleanup_in]. notin Ht. cbv zeta. rewrite G1, G2.
      rewrite !numb_app, numb_cons, Et. cbn [x_children]. split; [|reflexivity]. change (numb is_table []) with 0%nat. repeat f_equal. lia.
    - destruct (is_table (XPI target pitext tail)) eqn:Et; [exact (table_kept _ _ _ _ Et HF HL H)|].
      inversion H as [? ? ? e ? Re| | |]; subst; [congruence|]. cbn [M_FormexFinal.number cleanup_in]. split; [|reflexivity].
      rewrite numb_app, numb_cons, Et. cbn. repeat f_equal. lia.
    - destruct (is_table (XComment ctext tail)) eqn:Et; [exact (table_kept _ _ _ _ Et HF HL H)|].
      inversion H as [? ? ? e ? Re| | |]; subst; [congruence|]. cbn [M_FormexFinal.number cleanup_in]. split; [|reflexivity].
      rewrite numb_app, numb_cons, Et. cbn. repeat f_equal. lia.
  Qed.

  Variable ns : option string.
  Definition later (n : xnode) : result xnode := x <-? extract_gr_notes n ;; y <-? insert_blk ns x ;; drop_pass ns y.
  Lemma finalize_kept n d : flat is_table n -> lacks TAGS n -> converted is_table R [] [] n d -> finalize_tree ns d = later d.
  Proof.
    intros HF HL H. destruct (kept n HF HL [] [] d H) as [K1 K2]. change (stack_of (numb is_table [])) with (@nil Z) in K1.
    unfold finalize_tree, update_no_seq, cleanup_tbl_in_tbl. rewrite K1. cbn [fst]. rewrite K2. reflexivity.
  Qed.

  Theorem finished n d' : flat is_table n -> lacks TAGS n ->
    ((exists d, converted is_table R [] [] n d /\ finalize_tree ns d = Ok d') <->
     converted is_table (fun b a m e' => exists e, R b a m e /\ later e = Ok e') [] [] n d').
  Proof.
    intros HF HL.
    set (R1 := after_pass extract_gr_notes R). set (R2 := after_pass (insert_blk ns) R1). set (R3 := after_pass (drop_pass ns) R2).
    assert (T1 : forall b a n e, R1 b a n e -> x_tag e = Some "TBL").
    { intros b a m e (e0 & H1 & H2). destruct extract_pass as (_ & _ & _ & _ & F & _). exact (F _ _ (HT _ _ _ _ H1) H2). }
    assert (T2 : forall b a n e, R2 b a n e -> x_tag e = Some "TBL").
    { intros b a m e (e0 & H1 & H2). destruct (insert_pass ns) as (_ & _ & _ & _ & F & _). exact (F _ _ (T1 _ _ _ _ H1) H2). }
    assert (EQ : forall b a m e', R3 b a m e' <-> exists e, R b a m e /\ later e = Ok e').
    { intros b a m e'. unfold later. split.
      - intros (y & (x & (e & H1 & H2) & H3) & H4). exists e. split; [exact H1|]. rewrite H2. cbn [rbind]. rewrite H3. exact H4.
      - intros (e & H1 & H2). destruct (extract_gr_notes e) as [x|] eqn:E1; cbn [rbind] in H2; [|discriminate].
        destruct (insert_blk ns x) as [y|] eqn:E2; cbn [rbind] in H2; [|discriminate]. exists y. split; [|exact H2]. exists x. split; [|exact E2]. exists e. auto. }
    assert (IFF : (exists d, converted is_table R [] [] n d /\ finalize_tree ns d = Ok d') <-> converted is_table R3 [] [] n d').
    { unfold R3. rewrite <- (passed is_table _ (drop_is_pass ns) R2 T2 n HL). unfold R2. split.
      - intros (d & H & E). rewrite (finalize_kept n d HF HL H) in E. unfold later in E.
        destruct (extract_gr_notes d) as [x|] eqn:E1; cbn [rbind] in E; [|discriminate]. destruct (insert_blk ns x) as [y|] eqn:E2; cbn [rbind] in E; [|discriminate].
        exists y. split; [|exact E]. apply (passed is_table _ (insert_pass ns) R1 T1 n HL). exists x. split; [|exact E2].
        apply (passed is_table _ extract_pass R HT n HL). eauto.
      - intros (y & H & E). apply (passed is_table _ (insert_pass ns) R1 T1 n HL) in H as (x & H & E2).
        apply (passed is_table _ extract_pass R HT n HL) in H as (d & H & E1). exists d. split; [exact H|].
        rewrite (finalize_kept n d HF HL H). unfold later. rewrite E1. cbn [rbind]. rewrite E2. exact E. }
    rewrite IFF. split; (apply (converted_impl _ _ _ TAGS); [|exact HL]); intros; apply EQ; assumption.
  Qed.

  (** the same passes, on one table, with another number *)
  Lemma later_number e k v : x_tag e = Some "TBL" -> later (x_set e k v) = (e' <-? later e ;; Ok (x_set e' k v)).
  Proof.
    intros H. unfold later. destruct extract_pass as (_ & _ & _ & _ & T1 & F1). destruct (insert_pass ns) as (_ & _ & _ & _ & T2 & F2).
    destruct (drop_is_pass ns) as (_ & _ & _ & _ & _ & F3). rewrite (F1 e k v H).
    destruct (extract_gr_notes e) as [x|] eqn:E1; cbn [rbind]; [|reflexivity]. rewrite (F2 x k v (T1 _ _ H E1)).
    destruct (insert_blk ns x) as [y|] eqn:E2; cbn [rbind]; [|reflexivity]. exact (F3 y k v (T2 _ _ (T1 _ _ H E1) E2)).
  Qed.
  Lemma finalize_table e : shaped 0 e -> finalize_tree ns e = later e.
  Proof.
    intros H. pose proof (shaped_number 0 e None H) as K1. pose proof (shaped_cleanup 0 e None H) as K2.
    assert (E : x_set_tail e None = e) by (destruct H as (? & ? & ? & -> & _); reflexivity). rewrite E in K1, K2.
    unfold finalize_tree, update_no_seq, cleanup_tbl_in_tbl. change (@nil Z) with (stack_of 0) at 1. rewrite K1. cbn [fst]. rewrite K2. reflexivity.
  Qed.
End Finish.

(** ** The tables of a source, with the names they must not have *)
Lemma lacks_nodes names n m : lacks names n -> In m (tree_nodes n) -> lacks names m.
Proof.
  revert m. induction n as [tag attrs text children tail IH| |] using xnode_ind'; intros m HL Hm; cbn [tree_nodes] in Hm.
  - destruct Hm as [<-|Hm]; [exact HL|]. apply in_flat_map in Hm as (c & Hc & Hm). apply lacks_inv in HL as [_ HL]. rewrite Forall_forall in IH, HL. exact (IH c Hc m (HL c Hc) Hm).
  - destruct Hm as [<-|[]]. exact HL.
  - destruct Hm as [<-|[]]. exact HL.
Qed.
Lemma lacks_children names n : lacks names n -> Forall (lacks names) (x_children n).
Proof. intros H. inversion H as [? _ H2]; subst. apply Forall_forall. exact H2. Qed.
Lemma tbl_lacks n : lacks TAGS n -> lacks NAMES n.
Proof. intros H. apply (lacks_weaken _ _ _ H). intros x [<-|[<-|[]]]; cbn; tauto. Qed.
Lemma children_from l : Forall (lacks NAMES) l -> Forall clean (flat_map content_pieces (map CNode l)).
Proof. induction 1 as [|n l H _ IH]; [constructor|]. cbn [map flat_map content_pieces]. apply Forall_app. split; [apply lacks_clean, H|exact IH]. Qed.
Lemma text_clean s : Forall clean (text_pieces s).
Proof. apply Forall_forall. intros p Hp. unfold text_pieces in Hp. apply in_map_iff in Hp as (a & <- & _). exact I. Qed.
Lemma cals_clean o n t : lacks TAGS n -> parse_table o n = Ok t -> forall c, In c (t_grid t) -> Forall clean (content_pieces (c_content c)).
Proof.
  intros HL E. pose proof (cals_source clean o n t) as G. assert (K : good clean t).
  { apply G; [|exact E]. intros m Hm _. split; [|exact I]. pose proof (lacks_children _ _ (tbl_lacks _ (lacks_nodes _ _ _ HL Hm))) as C.
    cbn [content_pieces]. unfold entry_content. rewrite flat_map_app. apply Forall_app. split; [|apply children_from, C].
    destruct (truthy _); [|constructor]. cbn [flat_map content_pieces]. rewrite app_nil_r. apply text_clean. }
  intros c Hc. unfold good in K. rewrite Forall_forall in K. apply K, Hc.
Qed.
Lemma word_clean o sect n t : lacks TAGS n -> ox_parse_table o sect n = Ok t -> forall c, In c (t_grid t) -> Forall clean (content_pieces (c_content c)).
Proof.
  intros HL E. pose proof (word_source clean o sect n t) as G. assert (K : good clean t).
  { apply G; [|exact E]. intros m Hm _. split; [|exact I]. pose proof (lacks_children _ _ (tbl_lacks _ (lacks_nodes _ _ _ HL Hm))) as C.
    cbn [content_pieces]. apply children_from. unfold tc_content. rewrite Forall_forall in *. intros x Hx. apply in_map_iff in Hx as (y & <- & Hy).
    apply filter_In in Hy as [Hy _]. apply lacks_set_tail, C, Hy. }
  intros c Hc. unfold good in K. rewrite Forall_forall in K. apply K, Hc.
Qed.

(** ** Numbers written with four digits *)
Lemma digits_length_unique a : forall b, forallb is_digit a = true -> forallb is_digit b = true -> List.length a = List.length b ->
  int_of_digits a = int_of_digits b -> a = b.
Proof.
  induction a as [|x a IH] using rev_ind; intros b Ha Hb EL EV; [destruct b; [reflexivity|discriminate]|].
  destruct (exists_last (l := b)) as (b' & y & ->); [intros ->; rewrite app_length in EL; cbn in EL; lia|].
  rewrite !app_length in EL. cbn in EL. rewrite !int_of_digits_app in EV. cbn [List.length] in EV. change (10 ^ Z.of_nat 1) with 10 in EV.
  rewrite forallb_app in Ha, Hb. apply andb_prop in Ha as [Ha Hx]. apply andb_prop in Hb as [Hb Hy]. cbn in Hx, Hy. rewrite andb_true_r in Hx, Hy.
  assert (DX : forall c, int_of_digits [c] = digit_value c) by (intros c; unfold int_of_digits; cbn [fold_left]; lia). rewrite !DX in EV.
  assert (RG : forall c, is_digit c = true -> 0 <= digit_value c < 10).
  { clear. intros [[|] [|] [|] [|] [|] [|] [|] [|]] H; vm_compute in H; try discriminate; vm_compute; split; congruence. }
  pose proof (RG x Hx) as RX. pose proof (RG y Hy) as RY.
  assert (E1 : digit_value x = digit_value y) by lia. assert (E2 : int_of_digits a = int_of_digits b') by lia.
  assert (INJ : x = y).
  { clear - Hx Hy E1. destruct x as [[|] [|] [|] [|] [|] [|] [|] [|]]; vm_compute in Hx; try discriminate; destruct y as [[|] [|] [|] [|] [|] [|] [|] [|]]; vm_compute in Hy; try discriminate; try reflexivity; vm_compute in E1; discriminate. }
  rewrite INJ, (IH b' Ha Hb ltac:(lia) E2). reflexivity.
Qed.
Lemma digits_bound a : forallb is_digit a = true -> 0 <= int_of_digits a < 10 ^ Z.of_nat (List.length a).
Proof.
  induction a as [|x a IH] using rev_ind; intros Ha; [cbn; lia|]. rewrite forallb_app in Ha. apply andb_prop in Ha as [Ha Hx]. cbn in Hx. rewrite andb_true_r in Hx.
  rewrite int_of_digits_app, app_length. cbn [List.length]. change (10 ^ Z.of_nat 1) with 10. specialize (IH Ha).
  assert (RX : 0 <= int_of_digits [x] < 10) by (clear - Hx; destruct x as [[|] [|] [|] [|] [|] [|] [|] [|]]; vm_compute in Hx; try discriminate; vm_compute; split; congruence).
  rewrite Nat2Z.inj_add, Z.pow_add_r by lia. change (10 ^ Z.of_nat 1) with 10. lia.
Qed.
Lemma four_digits_unique n s s' : four_digits n s -> four_digits n s' -> s = s'.
Proof.
  intros (H1 & L1 & N1) (H2 & L2 & N2). apply digits_value_spec in H1 as [D1 V1]. apply digits_value_spec in H2 as [D2 V2].
  assert (K : forall a b, forallb is_digit a = true -> forallb is_digit b = true -> int_of_digits a = int_of_digits b ->
            (4 <= List.length a)%nat -> (List.length b = 4%nat \/ exists c r, b = c :: r /\ c <> "0"%char) -> (List.length b <= List.length a)%nat).
  { intros a b Da Db E La Nb. destruct Nb as [Nb|(c & r & -> & Nc)]; [lia|]. destruct (Nat.le_gt_cases (List.length (c :: r)) (List.length a)) as [L|L]; [exact L|exfalso].
    pose proof (digits_bound a Da) as Ba. cbn in Db. apply andb_prop in Db as [Dc Dr]. pose proof (digits_bound r Dr) as Br.
    change (c :: r) with ([c] ++ r) in E. rewrite int_of_digits_app in E. cbn [List.length] in L.
    assert (RC : 1 <= int_of_digits [c]) by (clear - Dc Nc; destruct c as [[|] [|] [|] [|] [|] [|] [|] [|]]; vm_compute in Dc; try discriminate; try congruence; vm_compute; congruence).
    assert (P : 10 ^ Z.of_nat (List.length a) <= 10 ^ Z.of_nat (List.length r)) by (apply Z.pow_le_mono_r; lia). nia. }
  assert (E : list_ascii_of_string s = list_ascii_of_string s').
  { apply digits_length_unique; [assumption..| |congruence]. apply Nat.le_antisymm; (apply K; [assumption..|congruence|assumption|assumption]). }
  apply (f_equal string_of_list_ascii) in E. rewrite !string_of_list_ascii_of_string in E. exact E.
Qed.
