(** * Reading a Formex table: what holds for all tables *)
From Verif Require Import Base M_Geometry M_Xml M_Cell M_Grid M_Table M_Regex M_Str M_Units M_Cals M_CalsParser M_FormexParser M_FormexRead.
From Verif Require Import S_Geometry S_Grid S_Table S_Units S_Cals S_Int S_CalsParser S_FormexRead.
From Verif Require Import P_Geometry P_Cell P_Grid P_GridFacts P_Table P_TableStep P_TableFacts P_TableRefine P_TableMore P_Units P_Str P_Cals P_Int P_CalsParser P_CalsLayout P_CalsEvents P_CalsSim P_CalsTable P_Reading P_FormexEvents P_FormexSim.
Open Scope list_scope.
Open Scope Z_scope.

(** The end of a table fills the holes. *)
Lemma end_table_full s t s' r t' : ps_table s = Some t -> treachable t -> end_table s = (s', r) -> r = Ok tt -> ps_table s' = Some t' ->
  treachable t' /\ exists bb, table_bounding_box t' = Ok (Some bb) /\ forall k, covers bb k -> exists c, In c (table_iter t') /\ covers (c_box c) k.
Proof.
  intros Et HR E -> Et'.
  destruct (end_table_cases s t Et HR) as [[_ E3]|(bb & Hb & E3)]; rewrite E3 in E; [discriminate|]. injection E as <-.
  cbn [with_table ps_table] in Et'. injection Et' as <-.
  destruct (fill_missing_spec bb CNone None None t HR (proj1 Hb)) as (t' & ks & Ef & HP & _ & Hk). rewrite Ef. cbn [fst].
  assert (HR' : treachable t').
  { replace t' with (fst (tstep (TFill bb CNone None None) t)) by (cbn [tstep]; rewrite Ef; reflexivity). constructor. exact HR. }
  split; [exact HR'|]. exists bb. destruct Hb as (Vb & Hb1 & Hb2).
  assert (Hb' : bounds (table_iter t') bb).
  { split; [exact Vb|]. split.
    - intros c Hc. rewrite HP in Hc. apply in_app_iff in Hc as [Hc|Hc]; [|apply Hb1, Hc].
      apply in_map_iff in Hc as (k & <- & Hin). apply Hk in Hin as [Hin _]. intros x Hx. unfold covers in *. cbn in Hx. lia.
    - intros b Vbb H. apply Hb2; [exact Vbb|]. intros c Hc. apply H. rewrite HP. apply in_app_iff. right. exact Hc. }
  destruct (treachable_tinv t' HR') as (og & HS & HM). assert (HV : all_valid (t_grid t')) by apply HM. split.
  - apply grid_bounds; [exact HV| |exact Hb']. intros Eg. change (t_grid t') with (table_iter t') in Eg. rewrite Eg in Hb'.
    exact (bounds_nil bb Hb').
  - intros k Hck.
    destruct (freeb (table_iter t) k) eqn:Ex.
    + apply freeb_free in Ex. exists (unit_cell CNone None None k). split.
      * rewrite HP. apply in_app_iff. left. apply in_map. apply Hk. auto.
      * unfold covers. cbn. lia.
    + apply not_true_iff_false in Ex. rewrite freeb_free in Ex.
      assert (HX : exists c, In c (table_iter t) /\ covers (c_box c) k).
      { destruct (Exists_dec (fun c => covers (c_box c) k) (table_iter t)) as [Hy|Hn].
        - intros c. unfold covers. destruct (Z_le_dec (cx (bmin (c_box c))) (cx k)), (Z_le_dec (cx k) (cx (bmax (c_box c)))),
            (Z_le_dec (cy (bmin (c_box c))) (cy k)), (Z_le_dec (cy k) (cy (bmax (c_box c)))); (left; lia) || (right; lia).
        - apply Exists_exists in Hy. exact Hy.
        - destruct Ex. intros c Hc Hcov. apply Hn, Exists_exists. eauto. }
      destruct HX as (c & Hc & Hcov). exists c. split; [rewrite HP; apply in_app_iff; right; exact Hc|exact Hcov].
Qed.

Lemma quiet_iter {A} (f : A -> SM pstate unit) l : (forall a, quiet (f a)) -> quiet (siter f l).
Proof.
  intros H. induction l as [|a l IH]; cbn [siter]; [apply quiet_same; reflexivity|]. apply quiet_bind; [apply H|]. intros _. exact IH.
Qed.
Lemma quiet_enter na : quiet (enter_row na).
Proof.
  unfold enter_row. apply quiet_bind; [apply quiet_get|]. intros s.
  apply quiet_bind; [apply quiet_table; exact (keeps_step (TReadView Rows _))|]. intros _.
  apply quiet_bind; [apply quiet_modify; intros; split; reflexivity|]. intros _.
  apply quiet_table; exact (keeps_step (TSetNature Rows _ _)).
Qed.
Lemma quiet_style st : quiet (style_row st).
Proof. unfold style_row. apply quiet_bind; [apply quiet_get|]. intros s. apply quiet_table. exact (keeps_step (TSetStyles Rows _ _)). Qed.
Lemma quiet_insert ct st f w h : quiet (insert_in_row ct st f w h).
Proof.
  unfold insert_in_row. apply quiet_bind; [apply quiet_get|]. intros s. destruct (ps_row s) as [r|]; [|apply quiet_same; reflexivity].
  apply quiet_table, keeps_bind; [apply keeps_view|]. intros v. apply keeps_insert.
Qed.

Section FormexTable.
  Variable o : pfmx_opts.
  Notation ns := (pf_ns o).
  Notation cns := (pf_cals_ns o).
  Notation run := (siter (fparse_event o)).

  Lemma quiet_title tag e b : quiet (parse_fmx_title o tag e b).
  Proof.
    unfold parse_fmx_title, insert_title. apply quiet_bind; [apply quiet_enter|]. intros _. apply quiet_bind; [apply quiet_style|]. intros _.
    apply quiet_bind; [apply quiet_lift|]. intros a. apply quiet_bind; [apply quiet_lift|]. intros z.
    apply quiet_bind; [apply quiet_iter; intros; apply quiet_insert|]. intros _. apply quiet_insert.
  Qed.
  Lemma quiet_notes l : quiet (siter (fun notes => smodify next_row ;;; parse_gr_notes o notes) l).
  Proof.
    apply quiet_iter. intros e. apply quiet_bind; [apply quiet_modify; intros; split; reflexivity|]. intros _.
    unfold parse_gr_notes. apply quiet_bind; [apply quiet_enter|]. intros _.
    apply quiet_bind.
    { apply quiet_table, keeps_bind; [apply keeps_same; reflexivity|]. intros t. apply keeps_same. intros s. destruct (table_bounding_box t); reflexivity. }
    intros [bb|]; [apply quiet_insert|apply quiet_same; reflexivity].
  Qed.
  Lemma quiet_end_corpus bef : quiet (end_corpus o bef).
  Proof. unfold end_corpus. apply quiet_bind; [apply quiet_notes|]. intros _. apply quiet_end_table. Qed.
  Lemma quiet_fon_end ev : quiet (fon_end o ev).
  Proof.
    unfold fon_end. cbv zeta. destruct (str_mem _ _); [apply quiet_end_row|]. destruct (String.eqb _ _); [apply quiet_end_corpus|].
    apply quiet_same. reflexivity.
  Qed.
  Lemma quiet_fon_start ev : String.eqb (ostr (x_tag (fe_elem ev))) (fmx o "CORPUS") = false -> quiet (fon_start o ev).
  Proof.
    intros H. unfold fon_start. cbv zeta. rewrite H. clear H.
    assert (HN : forall (m : SM pstate unit), quiet m -> quiet (smodify next_row ;;; m)).
    { intros m Hm. apply quiet_bind; [apply quiet_modify; intros; split; reflexivity|]. intros _. exact Hm. }
    assert (HC : forall (m : SM pstate unit), quiet m -> quiet (smodify next_col ;;; m)).
    { intros m Hm. apply quiet_bind; [apply quiet_modify; intros; split; reflexivity|]. intros _. exact Hm. }
    destruct (String.eqb _ _).
    { apply HC. unfold parse_fmx_cell. apply quiet_bind; [apply quiet_lift|]. intros wh. apply quiet_insert. }
    destruct (String.eqb _ _).
    { apply HN. unfold parse_fmx_row. apply quiet_bind; [apply quiet_enter|]. intros _. apply quiet_style. }
    destruct (String.eqb _ _); [apply quiet_same; reflexivity|].
    destruct (String.eqb _ _); [apply HN, quiet_title|].
    destruct (String.eqb _ _); [apply HN, quiet_title|].
    destruct (String.eqb _ _).
    { apply HC. unfold parse_fmx_colspec. apply quiet_bind; [apply quiet_get|]. intros s. apply quiet_bind; [apply quiet_lift|]. intros c.
      apply quiet_table. exact (keeps_step (TUpdateStyles Cols _ _)). }
    apply quiet_same. reflexivity.
  Qed.

  (** The events below the table: the attributes of the table do not change. *)
  Definition steady (evs : list fevent) : Prop := forall s s', tame s -> 1 <= ps_depth s -> run evs s = (s', Ok tt) ->
    tame s' /\ ps_depth s' = ps_depth s /\ attrs s' = attrs s.
  Lemma steady_nil : steady [].
  Proof. intros s s' Hs Hd E. injection E as <-. auto. Qed.
  Lemma steady_app l m : steady l -> steady m -> steady (l ++ m).
  Proof.
    intros Hl Hm s s' Hs Hd E. rewrite siter_app in E. unfold sbind in E. destruct (run l s) as [s1 [[]|x]] eqn:E1; [|discriminate].
    destruct (Hl s s1 Hs Hd E1) as (A1 & A2 & A3). destruct (Hm s1 s' A1 ltac:(lia) E) as (B1 & B2 & B3).
    split; [exact B1|]. split; congruence.
  Qed.
  Lemma steady_walks p b cs : (forall c, In c cs -> forall bef, steady (fwalk o p b bef c)) -> forall seen, steady (fwalks o p b seen cs).
  Proof.
    induction cs as [|c cs IH]; intros H seen; cbn [fwalks]; [apply steady_nil|].
    apply steady_app; [apply H; left; reflexivity|]. apply IH. intros d Hd. apply H. right. exact Hd.
  Qed.
  Lemma fevent_cases ev s : fparse_event o ev s =
    (if 1 <? fnew_depth o ev (ps_depth s) then sret tt else if fe_start ev then fon_start o ev else fon_end o ev)
      (with_depth (fnew_depth o ev (ps_depth s)) s).
  Proof. reflexivity. Qed.
  Lemma tame_depth d s : tame s -> tame (with_depth d s).
  Proof. exact (fun H => H). Qed.
  Lemma steady_node n : forall p b bef, steady (fwalk o p b bef n).
  Proof.
    induction n as [tag at0 text children tail IH|? ? ?|? ?] using xnode_ind'; intros p b bef.
    2,3: apply steady_nil.
    rewrite Forall_forall in IH. rewrite fwalk_eq. cbn [x_children]. set (n := XElem tag at0 text children tail) in *.
    assert (HL : steady (fwalks o (Some n) (below o b n) [] children)) by (apply steady_walks; intros c Hc bef'; apply IH, Hc).
    destruct (matching (fmx_elements o) n); [|exact HL].
    intros s s' Hs Hd E. rewrite frun_cons in E. unfold sbind at 1 in E. rewrite fevent_cases in E.
    destruct (String.eqb (ostr (x_tag n)) (fmx o "CORPUS")) eqn:Ec.
    - assert (E1 : forall bf, fnew_depth o (MkFEvent bf n p b bef) (ps_depth s) = if bf then ps_depth s + 1 else ps_depth s - 1)
        by (intros bf; unfold fnew_depth; cbn [fe_elem fe_start]; rewrite Ec; reflexivity).
      rewrite (E1 true) in E. rewrite (proj2 (Z.ltb_lt 1 (ps_depth s + 1))) in E by lia. unfold sret at 1 in E.
      rewrite siter_app in E. unfold sbind at 1 in E.
      destruct (run (fwalks o (Some n) (below o b n) [] children) (with_depth (ps_depth s + 1) s)) as [s2 [[]|x]] eqn:E2; [|discriminate].
      destruct (HL (with_depth (ps_depth s + 1) s) s2 (tame_depth _ s Hs) ltac:(cbn [with_depth ps_depth]; lia) E2) as (A1 & A2 & A3).
      cbn [siter] in E. unfold sbind in E. rewrite fevent_cases in E.
      assert (E3 : fnew_depth o (MkFEvent false n p b bef) (ps_depth s2) = ps_depth s).
      { unfold fnew_depth. cbn [fe_elem fe_start]. rewrite Ec, A2. cbn [with_depth ps_depth]. lia. }
      rewrite E3 in E. cbn [fe_start] in E.
      destruct (1 <? ps_depth s).
      + unfold sret in E. injection E as <-. split; [exact A1|]. split; [reflexivity|exact A3].
      + destruct (quiet_fon_end (MkFEvent false n p b bef) (with_depth (ps_depth s) s2) A1) as (B1 & B2 & B3).
        destruct (fon_end o (MkFEvent false n p b bef) (with_depth (ps_depth s) s2)) as [s3 [[]|x]]; [|discriminate]. injection E as <-. cbn [fst] in *.
        split; [exact B1|]. split; [exact B2|]. etransitivity; [exact B3|exact A3].
    - assert (E1 : forall bf d, fnew_depth o (MkFEvent bf n p b bef) d = d)
        by (intros bf d; unfold fnew_depth; cbn [fe_elem fe_start]; rewrite Ec; reflexivity).
      rewrite E1, with_depth_same in E. cbn [fe_start] in E.
      set (m := if 1 <? ps_depth s then sret tt else fon_start o (MkFEvent true n p b bef)) in *.
      assert (Hm : quiet m) by (unfold m; destruct (1 <? ps_depth s); [apply quiet_same; reflexivity|apply quiet_fon_start; exact Ec]).
      destruct (Hm s Hs) as (A1 & A2 & A3). destruct (m s) as [s1 [[]|x]]; [|discriminate]. cbn [fst] in *.
      rewrite siter_app in E. unfold sbind at 1 in E.
      destruct (run (fwalks o (Some n) (below o b n) [] children) s1) as [s2 [[]|x]] eqn:E2; [|discriminate].
      destruct (HL _ _ A1 ltac:(lia) E2) as (B1 & B2 & B3).
      cbn [siter] in E. unfold sbind in E. rewrite fevent_cases, E1, with_depth_same in E. cbn [fe_start] in E.
      set (m2 := if 1 <? ps_depth s2 then sret tt else fon_end o (MkFEvent false n p b bef)) in *.
      assert (Hm2 : quiet m2) by (unfold m2; destruct (1 <? ps_depth s2); [apply quiet_same; reflexivity|apply quiet_fon_end]).
      destruct (Hm2 s2 B1) as (C1 & C2 & C3). destruct (m2 s2) as [s3 [[]|x]]; [|discriminate]. injection E as <-. cbn [fst] in *.
      split; [exact C1|]. split; congruence.
  Qed.

  (** A table which is read can be made with the methods of [Table]; it has no hole; its attributes are those of the CORPUS. *)
  Theorem parse_formex_ok parent b bef e t : named ns "CORPUS" e -> parse_formex o parent b bef e = Ok t ->
    treachable t /\ (exists bb, table_bounding_box t = Ok (Some bb) /\ forall k, covers bb k -> exists c, In c (table_iter t) /\ covers (c_box c) k) /\
    corpus_style_attrs o e parent = Ok (t_styles t, t_nature t).
  Proof.
    intros He. unfold parse_formex. rewrite (fwalk_named o "CORPUS" parent b bef e ltac:(cbn; tauto) He).
    destruct (siter (fparse_event o) _ pstate_reset) as [sf rf] eqn:Eout.
    rewrite frun_cons in Eout. unfold sbind at 1 in Eout.
    assert (Est : fparse_event o (MkFEvent true e parent b bef) pstate_reset = parse_fmx_corpus o e parent (MkPState 1 0 0 None None)).
    { rewrite fevent_cases. rewrite (fdepth_corpus o _ _ _ _ _ _ He).
      cbn [ps_depth pstate_reset with_depth ps_col ps_row_pos ps_row ps_table fe_start]. change (1 <? 0 + 1) with false. cbv iota.
      rewrite (fon_start_eq o "CORPUS" e parent b bef ltac:(cbn; tauto) He). reflexivity. }
    assert (Ep : parse_fmx_corpus o e parent (MkPState 1 0 0 None None) =
                 match corpus_style_attrs o e parent with
                 | Ok a => (MkPState 1 0 0 None (Some (MkTable [] None None (fst a) (snd a))), Ok tt)
                 | Err x => (MkPState 1 0 0 None None, Err x)
                 end).
    { unfold parse_fmx_corpus, sbind, slift. destruct (corpus_style_attrs o e parent) as [[st na]|x]; reflexivity. }
    rewrite Est, Ep in Eout. destruct (corpus_style_attrs o e parent) as [[st na]|x] eqn:Ea; [|injection Eout as <- <-; discriminate].
    cbn [fst snd] in Eout.
    rewrite siter_app in Eout. unfold sbind at 1 in Eout.
    set (s1 := MkPState 1 0 0 None (Some (MkTable [] None None st na))) in *.
    assert (T1 : tame s1) by (apply (treach_new [] (Some st) na); reflexivity).
    destruct (run (fwalks o (Some e) (below o b e) [] (x_children e)) s1) as [s2 [[]|x]] eqn:E2; [|injection Eout as <- <-; discriminate].
    destruct (steady_walks (Some e) (below o b e) (x_children e) (fun c _ bef' => steady_node c _ _ bef') [] s1 s2 T1 ltac:(cbn; lia) E2) as (A1 & A2 & A3).
    cbn [siter] in Eout. unfold sbind at 1 in Eout.
    assert (Een : fparse_event o (MkFEvent false e parent b bef) s2 = end_corpus o bef (with_depth 0 s2)).
    { rewrite fevent_cases. rewrite (fdepth_corpus o _ _ _ _ _ _ He). rewrite A2.
      cbn [ps_depth s1 fe_start]. change (1 <? 1 - 1) with false. cbv iota.
      rewrite (fon_end_eq o "CORPUS" e _ _ _ He). reflexivity. }
    rewrite Een in Eout. unfold end_corpus in Eout. unfold sbind at 1 in Eout.
    destruct (quiet_notes (filter (fun n => x_has_tag n (fmx o "GR.NOTES")) bef) (with_depth 0 s2) A1) as (B1 & B2 & B3).
    destruct (siter (fun notes => smodify next_row ;;; parse_gr_notes o notes) (filter (fun n => x_has_tag n (fmx o "GR.NOTES")) bef) (with_depth 0 s2))
      as [s3 [[]|x]]; [|injection Eout as <- <-; discriminate]. cbn [fst] in *.
    destruct (quiet_end_table s3 B1) as (C1 & C2 & C3).
    destruct (end_table s3) as [s4 [[]|x]] eqn:E4; [|injection Eout as <- <-; discriminate]. injection Eout as <- <-. cbn [fst rbind] in *.
    assert (HA : attrs s4 = Some (st, na)) by (etransitivity; [exact C3|]; etransitivity; [exact B3|exact A3]).
    unfold attrs in HA. destruct (ps_table s4) as [t4|] eqn:Et4; [|discriminate]. intros [= <-].
    destruct (ps_table s3) as [t3|] eqn:Et3.
    2:{ unfold attrs in C3. rewrite Et4, Et3 in C3. discriminate. }
    unfold tame in B1. rewrite Et3 in B1. destruct (end_table_full s3 t3 s4 _ t4 Et3 B1 E4 eq_refl Et4) as [D1 D2].
    split; [exact D1|]. split; [exact D2|]. cbn in HA. congruence.
  Qed.

  (** ** The attributes of the table *)
  Lemma parent_get tbl name : match tbl with None => None | Some tbl => fget o tbl name end = parent_attribute ns tbl name.
  Proof. destruct tbl; [apply fget_attribute|reflexivity]. Qed.
  Lemma tbl_styles tbl : parse_tbl_styles o tbl =
    (map_style PAGE_SIZES (parent_attribute ns tbl "PAGE.SIZE") "x-sect-orient" [], parent_attribute ns tbl "CLASS").
  Proof. destruct tbl as [tbl|]; cbn [parse_tbl_styles parent_attribute]; [rewrite !fget_attribute|]; reflexivity. Qed.
  Lemma text_text v : text v = text_look v.
  Proof. destruct v; reflexivity. Qed.
  Lemma corpus_attrs_spec e parent :
    match corpus_style_attrs o e parent with
    | Ok a => forall t, t_styles t = fst a -> t_nature t = snd a -> ftable_attributes ns cns parent e t
    | Err _ => ~ frame_known cns e
    end.
  Proof.
    unfold corpus_style_attrs. rewrite tbl_styles, !cget_attribute. pose proof (frame_values (attribute cns e "frame")) as HF.
    destruct (get_frame_styles (attribute cns e "frame")) as [st0|x] eqn:Efr; cbn [rbind].
    2:{ destruct HF as (f & Ef & Hf). intros HR. exact (Hf (HR f Ef)). }
    destruct HF as [HF HK]. cbv zeta. intros t Est Ena. cbn [fst snd] in Est, Ena.
    assert (Hok0 : dict_ok st0).
    { clear -Efr. unfold get_frame_styles, lookup in Efr. destruct (negb _); [injection Efr as <-; apply dict_ok_nil|].
      destruct (dget FRAMES _) as [[[[a1 a2] a3] a4]|]; [|discriminate]. injection Efr as <-. unfold dict_ok. cbn.
      repeat constructor; cbn; intuition discriminate. }
    assert (G : forall k, dget (t_styles t) k =
      or_opt (text (if String.eqb k "background-color" then not_empty (attribute cns e "bgcolor") else None))
     (or_opt (text (if String.eqb k "x-sect-cols" then renamed [("0", "2"); ("1", "1")]%string (attribute cns e "pgwide") else None))
     (or_opt (text (if String.eqb k "x-sect-orient" then renamed [("land", "landscape"); ("port", "portrait")]%string (attribute cns e "orient") else None))
     (or_opt (text (if String.eqb k "x-cell-border-bottom" then separator_line (attribute cns e "rowsep") else None))
     (or_opt (text (if String.eqb k "x-cell-border-right" then separator_line (attribute cns e "colsep") else None))
     (or_opt (dget st0 k) (text (if String.eqb k "x-sect-orient" then page_orient (parent_attribute ns parent "PAGE.SIZE") else None)))))))).
    { intros k. rewrite Est. rewrite dget_text_or, !dget_map_or, !renamed_seps. do 5 f_equal.
      rewrite dget_dupdate by exact Hok0. rewrite dget_map_or. cbn [dget]. unfold page_orient, PAGE_SIZES.
      destruct (dget st0 k); [reflexivity|]. cbn [or_opt]. apply or_none. }
    clear Est. split; [|split].
    - intros s. assert (GS : dget (t_styles t) (side_style s) = dget st0 (side_style s)).
      { rewrite G. destruct s; cbn [side_style String.eqb Ascii.eqb Bool.eqb text or_opt]; apply or_none. }
      rewrite GS. exact (HF s).
    - intros k Hk. rewrite G, (HK k Hk). cbn [or_opt]. unfold ftable_style. cbv zeta. etransitivity; [|apply text_text].
      destruct (String.eqb_spec k "x-cell-border-right") as [->|_]; [cbn [String.eqb Ascii.eqb Bool.eqb text or_opt]; apply or_none|].
      destruct (String.eqb_spec k "x-cell-border-bottom") as [->|_]; [cbn [String.eqb Ascii.eqb Bool.eqb text or_opt]; apply or_none|].
      destruct (String.eqb_spec k "x-sect-orient") as [->|_].
      { cbn [String.eqb Ascii.eqb Bool.eqb text or_opt]. unfold or_else. destruct (renamed _ (attribute cns e "orient")); reflexivity. }
      destruct (String.eqb_spec k "x-sect-cols") as [->|_]; [cbn [String.eqb Ascii.eqb Bool.eqb text or_opt]; apply or_none|].
      destruct (String.eqb k "background-color"); [|reflexivity]. apply or_none.
    - rewrite Ena. unfold ftable_nature.
      destruct (attribute cns e "tabstyle") as [[|c s]|]; cbn [truthy not_empty ostr]; [reflexivity| |reflexivity].
      destruct (parent_attribute ns parent "CLASS") as [[|d u]|]; reflexivity.
  Qed.
End FormexTable.
