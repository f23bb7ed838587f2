(** * Elements at the wrong place *)
From Coq Require Import QArith.
From Verif Require Import Base M_Geometry M_Xml M_Cell M_Grid M_Table M_Str M_Units M_Cals M_CalsParser.
From Verif Require Import S_Geometry S_Grid S_Table S_Units S_Cals S_Int S_CalsParser.
From Verif Require Import P_Geometry P_Grid P_GridFacts P_Table P_TableFacts P_TableMore P_Int P_CalsParser P_CalsLayout P_CalsEvents P_CalsSim P_CalsTable.
Open Scope list_scope.
Open Scope Z_scope.

Section Within.
  Variable o : pcals_opts.
  Notation ns := (pc_ns o).
  Notation tags := (cals_elements o).
  Notation run := (siter (parse_event o)).

  Lemma run_app_inv a b s s' : run (a ++ b) s = (s', Ok tt) -> exists s1, run a s = (s1, Ok tt) /\ run b s1 = (s', Ok tt).
  Proof. rewrite siter_app. unfold sbind. destruct (run a s) as [s1 [[]|x]]; [|discriminate]. intros H. exists s1. auto. Qed.
  Lemma run_cons_inv a b s s' : run (a :: b) s = (s', Ok tt) -> exists s1, parse_event o a s = (s1, Ok tt) /\ run b s1 = (s', Ok tt).
  Proof. rewrite run_cons. unfold sbind. destruct (parse_event o a s) as [s1 [[]|x]]; [|discriminate]. intros H. exists s1. auto. Qed.

  (** The events of a child, at the same depth *)
  Lemma child_run p n cs s s' : In n cs -> tame s -> run (flat_map (walk tags p) cs) s = (s', Ok tt) ->
    exists s1 s2, tame s1 /\ ps_depth s1 = ps_depth s /\ run (walk tags p n) s1 = (s2, Ok tt).
  Proof.
    intros Hin Hs E. apply in_split in Hin as (l1 & l2 & ->). rewrite flat_map_app in E. cbn [flat_map] in E.
    apply run_app_inv in E as (s1 & E1 & E). apply run_app_inv in E as (s2 & E2 & _).
    destruct (run_list_balanced o l1 (fun c _ => balanced o c) p s s1 Hs E1) as [H1 H2]. exists s1, s2. auto.
  Qed.
  Lemma inner_run p n s s' : tame s -> run (walk tags p n) s = (s', Ok tt) -> ~ named ns "table" n ->
    exists s1 s2, tame s1 /\ ps_depth s1 = ps_depth s /\ run (flat_map (walk tags (Some n)) (x_children n)) s1 = (s2, Ok tt).
  Proof.
    intros Hs E Hn. rewrite walk_eq in E. destruct (matching tags n).
    - apply run_cons_inv in E as (s1 & E1 & E). apply run_app_inv in E as (s2 & E2 & _).
      destruct (event_loud o (MkEvent true n p) s Hs) as [H1 H2]. rewrite E1 in H1, H2. cbn [fst] in *.
      rewrite (depth_other o true n p _ Hn) in H2. exists s1, s2. auto.
    - exists s, s'. auto.
  Qed.
  Lemma within_run root p n : within ns root p n -> forall s s', tame s ->
    run (flat_map (walk tags (Some root)) (x_children root)) s = (s', Ok tt) ->
    exists s1 s2, tame s1 /\ ps_depth s1 = ps_depth s /\ run (walk tags (Some p) n) s1 = (s2, Ok tt).
  Proof.
    induction 1 as [root n Hin|root c p n Hin Hc HW IH]; intros s s' Hs E.
    - eapply child_run; eassumption.
    - destruct (child_run (Some root) c _ s s' Hin Hs E) as (s1 & s2 & H1 & H2 & E1).
      destruct (inner_run _ _ _ _ H1 E1 Hc) as (s3 & s4 & H3 & H4 & E3). destruct (IH s3 s4 H3 E3) as (s5 & s6 & H5 & H6 & E5).
      exists s5, s6. split; [exact H5|]. split; [congruence|exact E5].
  Qed.
  Lemma within_start e t p n name : named ns "table" e -> parse_table o e = Ok t -> within ns e p n ->
    In name cals_names -> named ns name n -> name <> "table"%string ->
    exists s s', tame s /\ ps_depth s = 1 /\ on_start o n (Some p) s = (s', Ok tt).
  Proof.
    intros He E HW Hname Hn Ht. unfold parse_table in E. rewrite (walk_named o "table" None e ltac:(cbn; tauto) He) in E.
    destruct (run _ pstate_reset) as [sf [[]|x]] eqn:Er; [|discriminate]. apply run_cons_inv in Er as (s1 & E1 & Er).
    apply run_app_inv in Er as (s2 & E2 & _).
    assert (T0 : tame pstate_reset) by exact I. destruct (event_loud o (MkEvent true e None) pstate_reset T0) as [H1 H2].
    rewrite E1 in H1, H2. cbn [fst] in *. rewrite (depth_table o _ _ _ _ He) in H2. cbn [ps_depth pstate_reset] in H2.
    destruct (within_run _ _ _ HW s1 s2 H1 E2) as (s3 & s4 & H3 & H4 & E3).
    rewrite (walk_named o name (Some p) n Hname Hn) in E3. apply run_cons_inv in E3 as (s5 & E5 & _).
    assert (Hd : ps_depth s3 = 1) by (rewrite H4, H2; reflexivity).
    rewrite (event_start o name n (Some p) s3 Hn Ht Hd) in E5. exists s3, s5. auto.
  Qed.

  Hypothesis Hbrace : no_brace ns.
  Theorem row_misplaced e p n name : named ns "table" e -> within ns e p n -> named ns "row" n ->
    In name cals_names -> named ns name p -> ~ is_section ns p -> exists x, parse_table o e = Err x.
  Proof.
    intros He HW Hn Hname Hp Hsec. destruct (parse_table o e) as [t|x] eqn:E; [exfalso|eauto].
    destruct (within_start e t p n "row" He E HW ltac:(cbn; tauto) Hn ltac:(discriminate)) as (s & s' & _ & _ & Eo).
    rewrite (on_start_eq o "row" n (Some p) Hn) in Eo. cbn [String.eqb Ascii.eqb Bool.eqb] in Eo.
    unfold sbind at 1 in Eo. rewrite smodify_eq in Eo. unfold parse_cals_row, sbind at 1, slift, row_nature in Eo.
    assert (EL : localname (ostr (x_tag p)) = name).
    { apply (localname_of o Hbrace name p Hp). intros c q -> ->. cbn in Hname. intuition discriminate. }
    rewrite EL in Eo. unfold is_section in Hsec. cbn in Hname.
    repeat (destruct Hname as [<-|Hname]; [first [discriminate Eo|exfalso; apply Hsec; tauto]|]). destruct Hname.
  Qed.
  Theorem colspec_misplaced e p n name : named ns "table" e -> within ns e p n -> named ns "colspec" n ->
    In name cals_names -> named ns name p -> ~ named ns "tgroup" p -> ~ named ns "table" p -> exists x, parse_table o e = Err x.
  Proof.
    intros He HW Hn Hname Hp Hsec Htab. destruct (parse_table o e) as [t|x] eqn:E; [exfalso|eauto].
    destruct (within_start e t p n "colspec" He E HW ltac:(cbn; tauto) Hn ltac:(discriminate)) as (s & s' & _ & _ & Eo).
    rewrite (on_start_eq o "colspec" n (Some p) Hn) in Eo. cbn [String.eqb Ascii.eqb Bool.eqb orb] in Eo.
    unfold sbind at 1 in Eo. rewrite smodify_eq in Eo. unfold parse_cals_colspec, sbind at 1, slift in Eo.
    assert (EL : localname (ostr (x_tag p)) = name).
    { apply (localname_of o Hbrace name p Hp). intros c q -> ->. cbn in Hname. intuition discriminate. }
    rewrite EL in Eo. cbn in Hname.
    repeat (destruct Hname as [<-|Hname]; [first [discriminate Eo|exfalso; apply Hsec; exact Hp|exfalso; apply Htab; exact Hp]|]). destruct Hname.
  Qed.
End Within.
