(** * The events of the Formex parser; the attributes it reads *)
From Verif Require Import Base M_Geometry M_Xml M_Cell M_Grid M_Table M_Regex M_Str M_Units M_Cals M_CalsParser M_FormexParser M_FormexRead.
From Verif Require Import S_Geometry S_Grid S_Table S_Units S_Cals S_Int S_CalsParser S_FormexRead.
From Verif Require Import P_Geometry P_Cell P_Grid P_GridFacts P_Table P_TableStep P_TableFacts P_TableMore P_Units P_Builder P_Str P_Cals P_Int P_CalsParser P_CalsLayout P_CalsEvents P_CalsSim.
Open Scope list_scope.
Open Scope Z_scope.

(** ** Names *)

Fixpoint ends_with (s : string) : option ascii :=
  match s with
  | EmptyString => None
  | String c s' => match ends_with s' with Some d => Some d | None => Some c end
  end.
Lemma ends_app a b : ends_with b <> None -> ends_with (String.append a b) = ends_with b.
Proof.
  intros H. induction a as [|c a IH]; cbn [String.append ends_with]; [reflexivity|]. rewrite IH. destruct (ends_with b); [reflexivity|congruence].
Qed.
Lemma ends_expanded ns name : ends_with name <> None -> ends_with (expanded ns name) = ends_with name.
Proof.
  intros H. unfold expanded. destruct ns as [u|]; [|reflexivity].
  assert (Hc : ends_with (String.append "}" name) = ends_with name) by (apply ends_app, H).
  assert (Hu : ends_with (String.append u (String.append "}" name)) = ends_with name) by (rewrite ends_app; rewrite Hc; [reflexivity|exact H]).
  change ("{" ++ u ++ "}" ++ name)%string with (String.append "{" (String.append u (String.append "}" name))).
  rewrite ends_app by (rewrite Hu; exact H). exact Hu.
Qed.
Lemma colspec_apart ns cns name n :
  ends_with name <> None -> ends_with name <> Some "c"%char -> named ns name n -> named cns "colspec" n -> False.
Proof.
  intros H1 H2 Ha Hb. unfold named in *. rewrite Ha in Hb. injection Hb as Hb.
  apply H2. rewrite <- (ends_expanded ns name H1), Hb. rewrite ends_expanded by discriminate. reflexivity.
Qed.
Lemma tag_spec ns n name : x_has_tag n (expanded ns name) = true <-> named ns name n.
Proof. unfold named, x_has_tag, x_tag. destruct n; try (split; discriminate). rewrite String.eqb_eq. split; congruence. Qed.
Lemma expanded_inj ns a b : expanded ns a = expanded ns b -> a = b.
Proof. rewrite <- !qname_expanded. apply qname_inj. Qed.
Lemma named_one ns a b n : named ns a n -> named ns b n -> a = b.
Proof. unfold named. intros H1 H2. rewrite H1 in H2. injection H2 as H2. exact (expanded_inj ns a b H2). Qed.
Lemma tag_named ns n a b : named ns a n -> has_name ns b n = String.eqb a b.
Proof.
  intros H. unfold has_name. destruct (String.eqb_spec a b) as [<-|Hn]; [apply tag_spec, H|].
  destruct (x_has_tag n (expanded ns b)) eqn:E; [|reflexivity]. apply tag_spec in E. exfalso. apply Hn. exact (named_one ns a b n H E).
Qed.
Lemma no_tag ns n name : ~ named ns name n -> has_name ns name n = false.
Proof. intros H. unfold has_name. destruct (x_has_tag n (expanded ns name)) eqn:E; [|reflexivity]. exfalso. apply H, tag_spec, E. Qed.

Lemma dict_get_renamed d v : dict_get d v = renamed d v.
Proof.
  destruct v as [v|]; [|reflexivity]. cbn [dict_get renamed]. induction d as [|[k w] d IH]; [reflexivity|].
  cbn [dget find fst]. destruct (String.eqb v k); [reflexivity|exact IH].
Qed.
Lemma fmx_natures_spec v : dict_get FMX_NATURES v = nature_of_type v.
Proof.
  destruct v as [v|]; [|reflexivity]. cbn [dict_get]. unfold FMX_NATURES, nature_of_type. cbn [dget existsb].
  destruct (String.eqb v "ALIAS"); [reflexivity|]. destruct (String.eqb v "HEADER"); [reflexivity|].
  destruct (String.eqb v "NORMAL"); [reflexivity|]. destruct (String.eqb v "NOTCOL"); [reflexivity|].
  destruct (String.eqb v "TOTAL"); reflexivity.
Qed.
Lemma int_or_one_spec v n : int_or_one v = Ok n <-> number_or_one v n.
Proof.
  unfold int_or_one, number_or_one. destruct v as [s|]; [apply py_int_spec|]. change (py_int "1") with (Ok 1). split; congruence.
Qed.
Lemma number_or_one_fun v n m : number_or_one v n -> number_or_one v m -> n = m.
Proof. unfold number_or_one. destruct v; [apply int_text_fun|congruence]. Qed.
Lemma truthy_not_empty v : not_empty v = if truthy v then v else None.
Proof. destruct v as [[|c s]|]; reflexivity. Qed.
Lemma truthy_ostr v : truthy v = true -> not_empty v = Some (ostr v).
Proof. destruct v as [[|c s]|]; cbn; congruence. Qed.
Lemma truthy_false v : truthy v = false -> not_empty v = None.
Proof. destruct v as [[|c s]|]; cbn; congruence. Qed.

Section Events.
  Variable o : pfmx_opts.
  Notation ns := (pf_ns o).
  Notation cns := (pf_cals_ns o).
  Notation run := (siter (fparse_event o)).

  Lemma fget_attribute e name : fget o e name = attribute ns e name.
  Proof. unfold fget, fmx, attribute. rewrite qname_expanded. reflexivity. Qed.
  Lemma cget_attribute e name : cget o e name = attribute cns e name.
  Proof. unfold cget, fcals, attribute. rewrite qname_expanded. reflexivity. Qed.
  Lemma fmx_expanded name : fmx o name = expanded ns name.
  Proof. apply qname_expanded. Qed.
  Lemma fmx_eqb a b : String.eqb (fmx o a) (fmx o b) = String.eqb a b.
  Proof.
    destruct (String.eqb_spec a b) as [->|H]; [apply String.eqb_refl|].
    apply String.eqb_neq. intros E. apply H. exact (qname_inj ns a b E).
  Qed.
  Lemma fmx_colspec a : ends_with a <> None -> ends_with a <> Some "c"%char -> String.eqb (fmx o a) (fcals o "colspec") = false.
  Proof.
    intros H1 H2. apply String.eqb_neq. intros E. unfold fmx, fcals in E. rewrite !qname_expanded in E.
    apply H2. rewrite <- (ends_expanded ns a H1), E, ends_expanded by discriminate. reflexivity.
  Qed.
  Lemma colspec_fmx a : ends_with a <> None -> ends_with a <> Some "c"%char -> String.eqb (fcals o "colspec") (fmx o a) = false.
  Proof. intros H1 H2. rewrite String.eqb_sym. apply fmx_colspec; assumption. Qed.
  Lemma fnamed_tag name n : named ns name n -> x_tag n = Some (fmx o name).
  Proof. intros H. unfold fmx. rewrite qname_expanded. exact H. Qed.
  Lemma cnamed_tag n : named cns "colspec" n -> x_tag n = Some (fcals o "colspec").
  Proof. intros H. unfold fcals. rewrite qname_expanded. exact H. Qed.

  Lemma fmatching_spec n : matching (fmx_elements o) n = true <-> table_element ns cns n.
  Proof.
    unfold matching, table_element, named. destruct (x_tag n) as [tg|].
    - unfold str_mem, fmx_elements. rewrite existsb_exists. split.
      + intros (x & Hx & E). apply String.eqb_eq in E. subst x. apply in_app_iff in Hx as [Hx|[<-|[]]].
        * left. apply in_map_iff in Hx as (name & <- & Hin). exists name. split; [exact Hin|]. rewrite fmx_expanded. reflexivity.
        * right. unfold fcals. rewrite qname_expanded. reflexivity.
      + intros [(name & Hin & [= ->])|[= ->]]; eexists; (split; [|apply String.eqb_refl]); apply in_app_iff.
        * left. apply in_map_iff. exists name. split; [apply qname_expanded|exact Hin].
        * right. left. apply qname_expanded.
    - split; [discriminate|]. intros [(name & _ & [=])|[=]].
  Qed.
  Lemma fmatching_not n : ~ table_element ns cns n -> matching (fmx_elements o) n = false.
  Proof. intros H. rewrite <- fmatching_spec in H. destruct (matching (fmx_elements o) n); congruence. Qed.

  (** ** The walk *)
  Fixpoint fwalks (p : option xnode) (b : Z) (seen l : list xnode) {struct l} : list fevent :=
    match l with
    | [] => []
    | c :: l' => fwalk o p b seen c ++ fwalks p b (seen ++ [c]) l'
    end.
  Definition below (b : Z) (n : xnode) : Z := if has_name ns "BLK" n then b + 1 else b.
  Lemma fwalk_eq p b bef n :
    fwalk o p b bef n =
    let inner := fwalks (Some n) (below b n) [] (x_children n) in
    if matching (fmx_elements o) n then MkFEvent true n p b bef :: inner ++ [MkFEvent false n p b bef] else inner.
  Proof.
    unfold below, has_name. rewrite <- fmx_expanded. cbv zeta. destruct n as [tg at_ tx ch tl|?|?]; [|reflexivity|reflexivity].
    cbn [x_children]. set (n := XElem tg at_ tx ch tl). set (bl := if x_has_tag n (fmx o "BLK") then b + 1 else b).
    assert (H : forall seen l, (fix go (seen l : list xnode) {struct l} : list fevent :=
             match l with
             | [] => []
             | c :: l' => (fwalk o (Some n) bl seen c ++ go (seen ++ [c]) l')%list
             end) seen l = fwalks (Some n) bl seen l).
    { intros seen l. revert seen. induction l as [|c l IH]; intros seen; [reflexivity|]. cbn [fwalks]. rewrite IH. reflexivity. }
    rewrite <- (H [] ch). reflexivity.
  Qed.
  Lemma fwalk_named name p b bef n : In name fmx_names -> named ns name n ->
    fwalk o p b bef n = MkFEvent true n p b bef :: fwalks (Some n) (below b n) [] (x_children n) ++ [MkFEvent false n p b bef].
  Proof. intros H1 H2. rewrite fwalk_eq, (proj2 (fmatching_spec n)); [reflexivity|]. left. exists name. auto. Qed.
  Lemma fwalk_colspec p b bef n : named cns "colspec" n ->
    fwalk o p b bef n = MkFEvent true n p b bef :: fwalks (Some n) (below b n) [] (x_children n) ++ [MkFEvent false n p b bef].
  Proof. intros H2. rewrite fwalk_eq, (proj2 (fmatching_spec n)); [reflexivity|]. right. exact H2. Qed.
  Lemma fwalk_other p b bef n : ~ table_element ns cns n -> fwalk o p b bef n = fwalks (Some n) (below b n) [] (x_children n).
  Proof. intros H. rewrite fwalk_eq, (fmatching_not n H). reflexivity. Qed.
  Lemma fwalks_nil p b seen l : (forall c, In c l -> forall p b bef, fwalk o p b bef c = []) -> fwalks p b seen l = [].
  Proof.
    revert seen. induction l as [|c l IH]; intros seen H; cbn [fwalks]; [reflexivity|].
    rewrite H by (left; reflexivity). apply IH. intros d Hd. apply H. right. exact Hd.
  Qed.
  Lemma fwalk_stranger n : stranger ns cns n -> forall p b bef, fwalk o p b bef n = [].
  Proof.
    induction 1 as [n Hn _ IH]. intros p b bef. rewrite fwalk_other by exact Hn. apply fwalks_nil. intros c Hc. apply IH, Hc.
  Qed.

  (** ** One event *)
  Lemma fevent_skip ev s :
    1 < fnew_depth o ev (ps_depth s) -> fparse_event o ev s = (with_depth (fnew_depth o ev (ps_depth s)) s, Ok tt).
  Proof.
    intros H. unfold fparse_event, smodify, sbind, sget, sput. cbn [ps_depth with_depth].
    apply Z.ltb_lt in H. rewrite H. reflexivity.
  Qed.
  Lemma fdepth_corpus st n p b bef d : named ns "CORPUS" n -> fnew_depth o (MkFEvent st n p b bef) d = if st then d + 1 else d - 1.
  Proof. intros H. unfold fnew_depth. cbn [fe_elem fe_start]. rewrite (fnamed_tag _ _ H). cbn [ostr]. rewrite String.eqb_refl. reflexivity. Qed.
  Lemma fdepth_other st n p b bef d : ~ named ns "CORPUS" n -> fnew_depth o (MkFEvent st n p b bef) d = d.
  Proof.
    intros H. unfold fnew_depth. cbn [fe_elem fe_start]. destruct (String.eqb_spec (ostr (x_tag n)) (fmx o "CORPUS")) as [E|E]; [|reflexivity].
    exfalso. apply H. unfold named. rewrite <- qname_expanded. destruct (x_tag n) as [tg|]; cbn [ostr] in E.
    - rewrite E. reflexivity.
    - unfold fmx, qname in E. destruct ns; discriminate E.
  Qed.
  Lemma fevent_start n p b bef s : ~ named ns "CORPUS" n -> ps_depth s = 1 ->
    fparse_event o (MkFEvent true n p b bef) s = fon_start o (MkFEvent true n p b bef) s.
  Proof.
    intros Hn Hd. unfold fparse_event, smodify, sbind, sget, sput.
    rewrite fdepth_other by exact Hn. rewrite with_depth_same, Hd. reflexivity.
  Qed.
  Lemma fevent_end n p b bef s : ~ named ns "CORPUS" n -> ps_depth s = 1 ->
    fparse_event o (MkFEvent false n p b bef) s = fon_end o (MkFEvent false n p b bef) s.
  Proof.
    intros Hn Hd. unfold fparse_event, smodify, sbind, sget, sput.
    rewrite fdepth_other by exact Hn. rewrite with_depth_same, Hd. reflexivity.
  Qed.
  Lemma fon_end_eq name n p b bef : named ns name n ->
    fon_end o (MkFEvent false n p b bef) =
    if (String.eqb name "ROW" || (String.eqb name "TI.BLK" || (String.eqb name "STI.BLK" || false)))%bool then end_row
    else if String.eqb name "CORPUS" then end_corpus o bef else sret tt.
  Proof.
    intros H. unfold fon_end. cbn [fe_elem fe_before]. rewrite (fnamed_tag _ _ H). cbn [ostr]. unfold str_mem. cbn [map existsb].
    rewrite !fmx_eqb. reflexivity.
  Qed.
  Lemma fon_start_eq name n p b bef : In name fmx_names -> named ns name n ->
    fon_start o (MkFEvent true n p b bef) =
    if String.eqb name "CELL" then smodify next_col ;;; parse_fmx_cell o n p
    else if String.eqb name "ROW" then smodify next_row ;;; parse_fmx_row o n b
    else if String.eqb name "BLK" then sret tt
    else if String.eqb name "TI.BLK" then smodify next_row ;;; parse_fmx_title o "TI.BLK" n b
    else if String.eqb name "STI.BLK" then smodify next_row ;;; parse_fmx_title o "STI.BLK" n b
    else if String.eqb name "CORPUS" then parse_fmx_corpus o n p
    else sraise ENotImplementedError.
  Proof.
    intros Hin H. unfold fon_start. cbn [fe_elem fe_parent fe_blks]. rewrite (fnamed_tag _ _ H). cbn [ostr]. rewrite !fmx_eqb.
    rewrite (fmx_colspec name); [reflexivity| |]; cbn in Hin; repeat (destruct Hin as [<-|Hin]); try discriminate; destruct Hin.
  Qed.
  Lemma fon_start_colspec n p b bef : named cns "colspec" n ->
    fon_start o (MkFEvent true n p b bef) = (smodify next_col ;;; parse_fmx_colspec o n).
  Proof.
    intros H. unfold fon_start. cbn [fe_elem fe_parent fe_blks]. rewrite (cnamed_tag _ H). cbn [ostr].
    rewrite !colspec_fmx by discriminate. rewrite String.eqb_refl. reflexivity.
  Qed.
  Lemma fon_end_colspec n p b bef : named cns "colspec" n -> fon_end o (MkFEvent false n p b bef) = sret tt.
  Proof.
    intros H. unfold fon_end. cbn [fe_elem fe_before]. rewrite (cnamed_tag _ H). cbn [ostr]. unfold str_mem. cbn [map existsb].
    rewrite !colspec_fmx by discriminate. reflexivity.
  Qed.

  (** ** Nested tables *)
  Lemma frun_cons ev l s : run (ev :: l) s = (fparse_event o ev ;;; run l) s.
  Proof. reflexivity. Qed.
  Lemma frun_all l : forall p b seen s, (forall c, In c l -> forall bef, run (fwalk o p b bef c) s = (s, Ok tt)) ->
    run (fwalks p b seen l) s = (s, Ok tt).
  Proof.
    induction l as [|c l IH]; intros p b seen s H; cbn [fwalks]; [reflexivity|].
    rewrite siter_app. unfold sbind. rewrite H by (left; reflexivity). apply IH. intros d Hd. apply H. right. exact Hd.
  Qed.
  Lemma fdeep n : forall p b bef s, 1 < ps_depth s -> run (fwalk o p b bef n) s = (s, Ok tt).
  Proof.
    induction n as [tg at_ tx ch tl IH|?|?] using xnode_ind'; intros p b bef s Hd; try reflexivity.
    set (n := XElem tg at_ tx ch tl) in *.
    assert (Hch : forall s, 1 < ps_depth s -> run (fwalks (Some n) (below b n) [] (x_children n)) s = (s, Ok tt)).
    { intros s' Hs'. apply frun_all. intros c Hc bef'. rewrite Forall_forall in IH. apply IH; assumption. }
    rewrite fwalk_eq. cbv zeta. destruct (matching (fmx_elements o) n); [|apply Hch, Hd].
    rewrite frun_cons. unfold sbind at 1.
    assert (HD : (forall st d, fnew_depth o (MkFEvent st n p b bef) d = if st then d + 1 else d - 1) \/
                 (forall st d, fnew_depth o (MkFEvent st n p b bef) d = d)).
    { unfold fnew_depth. cbn [fe_elem fe_start]. destruct (String.eqb _ _); [left|right]; reflexivity. }
    destruct HD as [HD|HD].
    - rewrite fevent_skip by (rewrite HD; lia). rewrite HD. rewrite siter_app. unfold sbind. rewrite Hch by (cbn; lia).
      cbn [siter]. unfold sbind. rewrite fevent_skip by (rewrite HD; cbn; lia). rewrite HD. cbn [ps_depth with_depth].
      unfold sret. f_equal. destruct s; cbn. unfold with_depth. cbn. f_equal. lia.
    - rewrite fevent_skip by (rewrite HD; lia). rewrite HD, with_depth_same. rewrite siter_app. unfold sbind. rewrite Hch by exact Hd.
      cbn [siter]. unfold sbind. rewrite fevent_skip by (rewrite HD; lia). rewrite HD, with_depth_same. reflexivity.
  Qed.
  Lemma frun_nested n p b bef s : named ns "CORPUS" n -> ps_depth s = 1 -> run (fwalk o p b bef n) s = end_corpus o bef s.
  Proof.
    intros Hn Hd. rewrite (fwalk_named "CORPUS") by (try exact Hn; cbn; tauto). rewrite frun_cons. unfold sbind at 1.
    rewrite fevent_skip by (rewrite (fdepth_corpus _ _ _ _ _ _ Hn); lia). rewrite (fdepth_corpus _ _ _ _ _ _ Hn), siter_app. unfold sbind at 1.
    rewrite frun_all by (intros c _ bef'; apply fdeep; cbn; lia).
    cbn [siter].
    assert (E : fparse_event o (MkFEvent false n p b bef) (with_depth (ps_depth s + 1) s) = end_corpus o bef s).
    { unfold fparse_event, smodify, sbind, sget, sput. rewrite (fdepth_corpus _ _ _ _ _ _ Hn).
      replace (with_depth (ps_depth (with_depth (ps_depth s + 1) s) - 1) (with_depth (ps_depth s + 1) s)) with s
        by (destruct s; cbn in *; subst; reflexivity).
      rewrite Hd. change (1 <? 1) with false. cbn [fe_start]. rewrite (fon_end_eq "CORPUS" n _ _ _ Hn). reflexivity. }
    unfold sbind. rewrite E.
    destruct (end_corpus o bef s) as [s' [[]|e]]; reflexivity.
  Qed.
  Definition notes_in (l : list xnode) : Prop := exists d, In d l /\ named ns "GR.NOTES" d.
  Lemma end_corpus_bare bef s : ~ notes_in bef -> end_corpus o bef s = end_table s.
  Proof.
    intros H. unfold end_corpus.
    assert (E : filter (fun n => x_has_tag n (fmx o "GR.NOTES")) bef = []).
    { induction bef as [|n bef IH]; [reflexivity|]. cbn [filter]. rewrite fmx_expanded. 
      destruct (x_has_tag n (expanded ns "GR.NOTES")) eqn:E.
      - exfalso. apply H. exists n. split; [left; reflexivity|apply tag_spec, E].
      - rewrite <- fmx_expanded. apply IH. intros (d & Hd & Hn). apply H. exists d. split; [right; exact Hd|exact Hn]. }
    rewrite E. reflexivity.
  Qed.

  Lemma filling_list cs : forall p b seen,
    (forall c, In c cs -> named ns "CORPUS" c -> forall d, In d (seen ++ cs) -> ~ named ns "GR.NOTES" d) ->
    (forall c, In c cs -> forall b bef s, (named ns "CORPUS" c -> ~ notes_in bef) -> working s ->
       (holds_corpus ns c /\ run (fwalk o p b bef c) s = end_table s) \/ (~ holds_corpus ns c /\ run (fwalk o p b bef c) s = (s, Ok tt))) ->
    forall s, working s ->
      ((exists c, In c cs /\ holds_corpus ns c) /\ run (fwalks p b seen cs) s = end_table s) \/
      ((forall c, In c cs -> ~ holds_corpus ns c) /\ run (fwalks p b seen cs) s = (s, Ok tt)).
  Proof.
    induction cs as [|c cs IH]; intros p b seen HN H s Hs.
    - right. split; [intros c []|reflexivity].
    - cbn [fwalks]. rewrite siter_app. unfold sbind.
      assert (IH' := IH p b (seen ++ [c])). clear IH.
      assert (HN' : forall c0, In c0 cs -> named ns "CORPUS" c0 -> forall d, In d ((seen ++ [c]) ++ cs) -> ~ named ns "GR.NOTES" d).
      { intros c0 H0 H1 d Hd. apply (HN c0); [right; exact H0|exact H1|]. rewrite <- app_assoc in Hd. exact Hd. }
      specialize (IH' HN' (fun d Hd => H d (or_intror Hd))).
      assert (Hc : named ns "CORPUS" c -> ~ notes_in seen).
      { intros Hc (d & Hd & Hnd). apply (HN c (or_introl eq_refl) Hc d); [apply in_app_iff; left; exact Hd|exact Hnd]. }
      destruct (H c (or_introl eq_refl) b seen s Hc Hs) as [[Hn E]|[Hn E]]; rewrite E.
      + left. split; [exists c; split; [left; reflexivity|exact Hn]|].
        destruct (end_table s) as [s' [[]|e]] eqn:Ee; [|reflexivity].
        destruct (end_table_again s s' Hs Ee) as [Hs' E2].
        destruct (IH' s' Hs') as [[_ E3]|[_ E3]]; rewrite E3; [exact E2|reflexivity].
      + destruct (IH' s Hs) as [[(d & Hd & Hnd) E3]|[Hno E3]].
        * left. split; [exists d; split; [right; exact Hd|exact Hnd]|exact E3].
        * right. split; [|exact E3]. intros d [<-|Hd]; auto.
  Qed.
  Lemma filling_run n : filling ns cns n -> forall p b bef s, (named ns "CORPUS" n -> ~ notes_in bef) -> working s ->
    (holds_corpus ns n /\ run (fwalk o p b bef n) s = end_table s) \/ (~ holds_corpus ns n /\ run (fwalk o p b bef n) s = (s, Ok tt)).
  Proof.
    induction 1 as [n Hn|n Hn HW _ IH]; intros p b bef s Hno Hs.
    - left. split; [apply holds_here, Hn|]. rewrite frun_nested by (try exact Hn; apply Hs). apply end_corpus_bare, Hno, Hn.
    - rewrite fwalk_other by exact Hn.
      destruct (filling_list (x_children n) (Some n) (below b n) [] (fun c Hc H1 d Hd => HW c d Hc H1 Hd)
                  (fun c Hc b' bef' s' H1 H2 => IH c Hc (Some n) b' bef' s' H1 H2) s Hs) as [[(c & Hc & Hnc) E]|[Hno' E]].
      + left. split; [|exact E]. eapply holds_below; eauto.
      + right. split; [|exact E]. intros HH. inversion HH as [n' Ht|n' c Hc Hnc]; subst.
        * apply Hn. left. exists "CORPUS"%string. split; [cbn; tauto|exact Ht].
        * exact (Hno' c Hc Hnc).
  Qed.
  Lemma fills_run e p b s : fills ns cns e -> working s ->
    ((exists c, In c (x_children e) /\ holds_corpus ns c) /\ run (fwalks p b [] (x_children e)) s = end_table s) \/
    ((forall c, In c (x_children e) -> ~ holds_corpus ns c) /\ run (fwalks p b [] (x_children e)) s = (s, Ok tt)).
  Proof.
    intros [HW HF] Hs. apply filling_list; [|intros c Hc b' bef' s' H1 H2; apply filling_run; auto|exact Hs].
    intros c Hc H1 d Hd. exact (HW c d Hc H1 Hd).
  Qed.

  (** ** Styles *)
  Ltac style_key k name :=
    let H := fresh in destruct (String.eqb_spec k name) as [H|H];
    [subst k; cbv beta iota; repeat match goal with |- context [String.eqb ?a ?b] => let r := eval vm_compute in (String.eqb a b) in change (String.eqb a b) with r end; cbv iota|].
  Ltac last_case := match goal with |- match ?x with _ => _ end = option_map _ ?x => destruct x; reflexivity | _ => idtac end.

  Lemma cals_row_styles_spec e : styled (cals_row_styles o e) (fun k => text_look (given cns e k)) /\ dict_ok (cals_row_styles o e).
  Proof.
    split.
    - intros k. unfold cals_row_styles. cbv zeta. rewrite !dget_text_style, !dget_map_style.
      rewrite seps_line, valigns_of, !cget_attribute. unfold given, text_look. cbv zeta. cbn [dget].
      style_key k "vertical-align"%string; [last_case|].
      style_key k "border-bottom"%string; [last_case|].
      style_key k "background-color"%string; [last_case|].
      style_key k "rowstyle"%string; [last_case|]. reflexivity.
    - unfold cals_row_styles. cbv zeta. repeat (apply dict_ok_map_style || apply dict_ok_text_style). apply dict_ok_nil.
  Qed.
  Lemma fmx_row_style_spec t b : fmx_row_style t b = row_label t b.
  Proof.
    unfold fmx_row_style, row_label. rewrite truthy_not_empty. destruct (truthy t) eqn:Et; destruct (b =? 0); cbn [app]; try reflexivity.
    - destruct t as [t|]; [reflexivity|discriminate Et].
    - destruct t as [t|]; [reflexivity|discriminate Et].
  Qed.
  Lemma line_styles e l : 
    styled (dupdate (match l with Some s => [("rowstyle"%string, SStr s)] | None => [] end) (cals_row_styles o e))
      (fun k => text_look (if String.eqb k "rowstyle" then or_else (given cns e k) l else given cns e k)).
  Proof.
    destruct (cals_row_styles_spec e) as [H1 H2]. intros k. rewrite dget_dupdate by exact H2. rewrite H1.
    destruct (String.eqb_spec k "rowstyle") as [->|Hk].
    - destruct (given cns e "rowstyle"); [reflexivity|]. destruct l; reflexivity.
    - destruct (given cns e k); [reflexivity|]. cbn. destruct l as [l|]; [|reflexivity]. cbn.
      apply String.eqb_neq in Hk. rewrite Hk. reflexivity.
  Qed.
  Lemma fmx_row_styles_spec e b : named ns "ROW" e -> styled (fmx_row_styles o e b) (line_look ns cns b e).
  Proof.
    intros He k. unfold fmx_row_styles. cbv zeta. rewrite fmx_row_style_spec, fget_attribute.
    etransitivity; [exact (line_styles e (row_label (attribute ns e "TYPE") b) k)|]. unfold line_look, line_label.
    rewrite (tag_named ns e _ "ROW" He). reflexivity.
  Qed.
  Lemma title_styles_spec tag e b : (tag = "TI.BLK" \/ tag = "STI.BLK")%string -> named ns tag e ->
    styled (title_styles o tag e b) (line_look ns cns b e).
  Proof.
    intros Ht He k. unfold title_styles. etransitivity; [exact (line_styles e (Some (fmx_title_style tag b)) k)|].
    unfold line_look, line_label. rewrite (tag_named ns e _ "ROW" He), (tag_named ns e _ "TI.BLK" He).
    destruct Ht as [->| ->]; reflexivity.
  Qed.
  Lemma fmx_cell_styles_spec e row : styled (fmx_cell_styles o e (Some row)) (fcell_style ns cns row e).
  Proof.
    intros k. unfold fmx_cell_styles. cbv zeta. rewrite !dget_map_style, dget_text_style, !dget_map_style.
    rewrite !seps_line, valigns_of, aligns_of, !cget_attribute, !fget_attribute. unfold fcell_style, text_look. cbv zeta.
    assert (Ed : fcell_type_differs (attribute ns e "TYPE") (attribute ns row "TYPE") =
                 negb (String.eqb (type_or_normal (attribute ns e "TYPE")) (type_or_normal (attribute ns row "TYPE")))).
    { unfold fcell_type_differs, type_or_normal. rewrite !truthy_not_empty.
      destruct (attribute ns e "TYPE") as [[|? ?]|], (attribute ns row "TYPE") as [[|? ?]|]; reflexivity. }
    rewrite Ed.
    set (st0 := if negb _ then _ else _).
    assert (H0 : dget st0 k = if String.eqb k "cellstyle" then
       if String.eqb (type_or_normal (attribute ns e "TYPE")) (type_or_normal (attribute ns row "TYPE")) then None
       else Some (match attribute ns e "TYPE" with Some t => SStr t | None => SNone end) else None).
    { unfold st0. destruct (String.eqb (type_or_normal _) _); cbn [negb dget]; [destruct (String.eqb k "cellstyle"); reflexivity|].
      destruct (String.eqb k "cellstyle"); reflexivity. }
    rewrite H0. clear H0 st0 Ed.
    style_key k "cellstyle"%string; [reflexivity|].
    style_key k "x-cell-border-right"%string; [last_case|].
    style_key k "x-cell-border-bottom"%string; [last_case|].
    style_key k "background-color"%string; [last_case|].
    style_key k "vertical-align"%string; [last_case|].
    style_key k "align"%string; [last_case|]. reflexivity.
  Qed.
  Lemma fmx_colspec_styles_spec c : has_styles (fmx_colspec_styles o c) (column_style cns c) /\ dict_ok (fmx_colspec_styles o c).
  Proof. exact (colspec_styles_spec (MkPCalsOpts cns "" (fun _ => ""%string)) c). Qed.

  (** ** Spans and contents *)
  Lemma fmx_content_spec e : fmx_content o e = fcontent_of ns e.
  Proof.
    unfold fmx_content, contains_ie, fcontent_of, content_of. rewrite entry_content_spec, fmx_expanded. reflexivity.
  Qed.
  Lemma fmx_cell_spans_spec e w h : fmx_cell_spans o e = Ok (w, h) <-> fcell_span ns cns e w h.
  Proof.
    unfold fmx_cell_spans, fcell_span. rewrite !fget_attribute, !cget_attribute.
    set (cs := attribute ns e "COLSPAN"). set (rs := attribute ns e "ROWSPAN"). set (a := attribute cns e "namest").
    set (b := attribute cns e "nameend"). set (m := attribute cns e "morerows"). clearbody cs rs a b m.
    assert (HA : forall w0 w1, (if truthy a && truthy b
                 then col_start <-? first_int (ostr a) ;; col_end <-? first_int (ostr b) ;; Ok (col_end - col_start + 1)
                 else Ok w0) = Ok w1 <->
               match not_empty a, not_empty b with
               | Some s, Some s' => exists x y, first_number s x /\ first_number s' y /\ w1 = y - x + 1
               | _, _ => w1 = w0
               end).
    { intros w0 w1. destruct (truthy a) eqn:Ta; [rewrite (truthy_ostr a Ta)|rewrite (truthy_false a Ta); cbn [andb]; split; congruence].
      destruct (truthy b) eqn:Tb; [rewrite (truthy_ostr b Tb)|rewrite (truthy_false b Tb); cbn [andb]; split; congruence].
      cbn [andb]. split.
      - intros H. destruct (first_int (ostr a)) as [x|] eqn:Ex; cbn [rbind] in H; [|discriminate].
        destruct (first_int (ostr b)) as [y|] eqn:Ey; cbn [rbind] in H; [|discriminate]. injection H as <-.
        exists x, y. split; [apply first_int_spec, Ex|]. split; [apply first_int_spec, Ey|reflexivity].
      - intros (x & y & Hx & Hy & ->). apply first_int_spec in Hx. apply first_int_spec in Hy. rewrite Hx, Hy. reflexivity. }
    assert (HM : forall h0 h1, (if truthy m then more <-? py_int (ostr m) ;; Ok (more + 1) else Ok h0) = Ok h1 <->
               match not_empty m with Some s => int_text s (h1 - 1) | None => h1 = h0 end).
    { intros h0 h1. destruct (truthy m) eqn:Tm; [rewrite (truthy_ostr m Tm)|rewrite (truthy_false m Tm); split; congruence].
      split.
      - intros H. destruct (py_int (ostr m)) as [x|] eqn:Ex; cbn [rbind] in H; [|discriminate]. injection H as <-.
        replace (x + 1 - 1) with x by lia. apply py_int_spec, Ex.
      - intros H. apply py_int_spec in H. rewrite H. cbn [rbind]. f_equal. lia. }
    split.
    - intros H. destruct (int_or_one cs) as [w0|] eqn:E1; cbn [rbind] in H; [|discriminate].
      destruct (int_or_one rs) as [h0|] eqn:E2; cbn [rbind] in H; [|discriminate].
      match type of H with rbind ?x _ = _ => destruct x as [w1|] eqn:E3; cbn [rbind] in H; [|discriminate] end.
      match type of H with rbind ?x _ = _ => destruct x as [h1|] eqn:E4; cbn [rbind] in H; [|discriminate] end.
      injection H as <- <-. exists w0, h0. split; [apply int_or_one_spec, E1|]. split; [apply int_or_one_spec, E2|].
      split; [apply HA, E3|apply HM, E4].
    - intros (w0 & h0 & H1 & H2 & H3 & H4). apply int_or_one_spec in H1. apply int_or_one_spec in H2.
      rewrite H1, H2. cbn [rbind]. apply HA in H3. apply HM in H4. rewrite H3. cbn [rbind]. rewrite H4. reflexivity.
  Qed.
  Lemma fcell_span_fun e w h w' h' : fcell_span ns cns e w h -> fcell_span ns cns e w' h' -> w = w' /\ h = h'.
  Proof. rewrite <- !fmx_cell_spans_spec. intros H1 H2. rewrite H1 in H2. split; congruence. Qed.
  Lemma fmx_cell_nature_spec e na :
    fmx_cell_nature o e (Some na) = Some (match nature_of_type (attribute ns e "TYPE") with Some n => n | None => na end).
  Proof. unfold fmx_cell_nature. rewrite fmx_natures_spec, fget_attribute. destruct (nature_of_type _); reflexivity. Qed.
  Lemma fmx_row_nature_spec e : named ns "ROW" e -> fmx_row_nature o e = line_nature ns e.
  Proof.
    intros He. unfold fmx_row_nature, line_nature. rewrite fmx_natures_spec, fget_attribute, (tag_named ns e _ "ROW" He). reflexivity.
  Qed.
End Events.
