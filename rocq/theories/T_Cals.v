(** * Theorems about the CALS builder (C38-C40, C52, C53) *)
From Coq Require Import QArith.
From Verif Require Import Base M_Geometry M_Xml M_Cell M_Grid M_Table M_Regex M_Str M_Units M_Builder M_Cals.
From Verif Require Import S_Geometry S_Grid S_Table S_Units S_Builder S_Cals.
From Verif Require Import P_Geometry P_Grid P_GridFacts P_Table P_TableStep P_TableFacts P_TableMore P_Str P_Cals T_Table.
Open Scope string_scope.
Open Scope list_scope.
Open Scope Z_scope.

(** ** C38: frames *)

(** From a frame value to the styles (added to any other styles) and back *)
Theorem C38_round_trip : forall f st, In f six_frames ->
    exists borders, get_frame_styles (Some f) = Ok borders /\ get_frame_attr (dupdate st borders) = Ok f.
Proof.
  assert (HD : forall t b l r st,
    get_frame_attr (dupdate st [("border-top", border_of t); ("border-bottom", border_of b); ("border-left", border_of l); ("border-right", border_of r)])
    = Ok (frame_name t b l r)).
  { intros t b l r st. unfold get_frame_attr, has_border, get_border_style. unfold dupdate. cbn [fold_left fst snd].
    rewrite (dget_dset_same _ "border-right"). rewrite !(dget_dset_other _ "border-right") by discriminate.
    rewrite (dget_dset_same _ "border-left"). rewrite !(dget_dset_other _ "border-left") by discriminate.
    rewrite (dget_dset_same _ "border-bottom"). rewrite !(dget_dset_other _ "border-bottom") by discriminate.
    rewrite (dget_dset_same _ "border-top").
    destruct t, b, l, r; reflexivity. }
  intros f st H. cbn in H. repeat destruct H as [<-|H]; try (eexists; split; [reflexivity|apply HD]). destruct H.
Qed.

(** The other values: nothing for an absent or empty frame, KeyError for the others *)
Theorem C38_other_frames : forall f,
    (get_frame_styles f = Ok [] <-> f = None \/ f = Some "") /\
    (get_frame_styles f = Err EKeyError <-> exists s, f = Some s /\ s <> "" /\ ~ In s six_frames).
Proof.
  intros [s|]; [|split; split; try discriminate; auto; intros (s & [=] & _)].
  unfold get_frame_styles. destruct s as [|c s].
  - cbn. split; [tauto|]. split; [discriminate|]. intros (s & [= <-] & N & _). congruence.
  - cbn [truthy negb ostr]. unfold lookup.
    assert (HG : forall x, match dget FRAMES x with Some _ => In x six_frames | None => ~ In x six_frames end).
    { intros x. unfold FRAMES. cbn [dget]. 
      destruct (String.eqb_spec x "none") as [->|]; [cbn; tauto|]. destruct (String.eqb_spec x "all") as [->|]; [cbn; tauto|].
      destruct (String.eqb_spec x "topbot") as [->|]; [cbn; tauto|]. destruct (String.eqb_spec x "sides") as [->|]; [cbn; tauto|].
      destruct (String.eqb_spec x "top") as [->|]; [cbn; tauto|]. destruct (String.eqb_spec x "bottom") as [->|]; [cbn; tauto|].
      cbn. intuition congruence. }
    specialize (HG (String c s)). destruct (dget FRAMES (String c s)) as [[[[t b] l] r]|]; cbn [rbind].
    + split; split; try discriminate; [intros [[=]|[=]]|]. intros (x & [= <-] & _ & N). contradiction.
    + split; split; try discriminate; [intros [[=]|[=]]| |reflexivity]. intros _. exists (String c s). split; [reflexivity|]. split; [discriminate|exact HG].
Qed.

(** The attribute has one of the six values, or an exception is raised because a border is not a text *)
Theorem C38_one_of_six : forall st,
    (exists f, get_frame_attr st = Ok f /\ In f six_frames) \/
    (get_frame_attr st = Err EAttributeError /\ exists s, ~ text_or_absent st (side_style s)).
Proof.
  intros st. pose proof (frame_spec st) as H. destruct (get_frame_attr st) as [f|e].
  - left. exists f. split; [reflexivity|]. destruct H as (bt & bb & bl & br & -> & _). destruct bt, bb, bl, br; cbn; tauto.
  - right. destruct H as [-> H]. auto.
Qed.

(** If one of the six values shows exactly the sides having a border, the attribute does. *)
Theorem C38_exact_partial : forall st f, get_frame_attr st = Ok f ->
    (exists g, In g six_frames /\ forall s, frame_shows g s <-> drawn st s) ->
    forall s, frame_shows f s <-> drawn st s.
Proof.
  intros st f H (g & Hg & HS). pose proof (frame_spec st) as HF. rewrite H in HF.
  destruct HF as (bt & bb & bl & br & -> & Ht & Hb & Hl & Hr).
  replace (frame_name bt bb bl br) with g; [exact HS|].
  rewrite <- (HS TopSide) in Ht. rewrite <- (HS BottomSide) in Hb. rewrite <- (HS LeftSide) in Hl. rewrite <- (HS RightSide) in Hr. clear HS H.
  assert (B : forall b s, (b = true <-> frame_shows g s) -> b = shows_b g s).
  { intros b s [B1 B2]. pose proof (shows_b_spec g s) as HB. destruct b; [symmetry; apply HB, B1, eq_refl|].
    destruct (shows_b g s) eqn:E; [|reflexivity]. apply B2, HB, eq_refl. }
  rewrite (B _ _ Ht), (B _ _ Hb), (B _ _ Hl), (B _ _ Hr). cbn in Hg. repeat (destruct Hg as [<-|Hg]; [reflexivity|]). destruct Hg.
Qed.

(** Otherwise the attribute is "none". *)
Theorem C38_inexpressible : forall st f, get_frame_attr st = Ok f ->
    (forall g, In g six_frames -> ~ (forall s, frame_shows g s <-> drawn st s)) -> f = "none".
Proof.
  intros st f H HN. pose proof (frame_spec st) as HF. rewrite H in HF.
  destruct HF as (bt & bb & bl & br & -> & Ht & Hb & Hl & Hr).
  destruct bt, bb, bl, br; cbn [frame_name] in *; try reflexivity; exfalso.
  - apply (HN "all"); [cbn; tauto|]. intros []; unfold frame_shows; intuition.
  - apply (HN "topbot"); [cbn; tauto|]. intros []; unfold frame_shows; intuition discriminate.
  - apply (HN "top"); [cbn; tauto|]. intros []; unfold frame_shows; intuition discriminate.
  - apply (HN "bottom"); [cbn; tauto|]. intros []; unfold frame_shows; intuition discriminate.
  - apply (HN "sides"); [cbn; tauto|]. intros []; unfold frame_shows; intuition discriminate.
Qed.

(** So the other combinations are lost: a border at the top and at the left gives "none". *)
Theorem C38_exact_refuted : exists st, drawn st TopSide /\ drawn st LeftSide /\ get_frame_attr st = Ok "none".
Proof.
  set (st := [("border-top", SStr "single 1pt"); ("border-left", SStr "#FF0000 double")]). exists st.
  assert (HT := has_border_spec st TopSide). assert (HL := has_border_spec st LeftSide).
  replace (has_border st (side_style TopSide)) with (@Ok bool true) in HT by (vm_compute; reflexivity).
  replace (has_border st (side_style LeftSide)) with (@Ok bool true) in HL by (vm_compute; reflexivity).
  split; [apply HT; reflexivity|]. split; [apply HL; reflexivity|vm_compute; reflexivity].
Qed.

Example C38_ex : exists st, get_frame_attr st = Ok "topbot" /\ exists g, In g six_frames /\ forall s, frame_shows g s <-> drawn st s.
Proof.
  set (st := [("border-top", SStr "single 1pt"); ("border-bottom", SStr "4pt double auto"); ("border-left", SStr "none")]). exists st.
  split; [vm_compute; reflexivity|]. exists "topbot". split; [cbn; tauto|]. intros s. pose proof (has_border_spec st s) as H.
  destruct s; [replace (has_border st (side_style TopSide)) with (@Ok bool true) in H by (vm_compute; reflexivity)
              |replace (has_border st (side_style BottomSide)) with (@Ok bool true) in H by (vm_compute; reflexivity)
              |replace (has_border st (side_style LeftSide)) with (@Ok bool false) in H by (vm_compute; reflexivity)
              |replace (has_border st (side_style RightSide)) with (@Ok bool false) in H by (vm_compute; reflexivity)];
    rewrite <- H; unfold frame_shows; intuition discriminate.
Qed.

(** ** C39: the tree *)

(** The tree shows the columns, and each row exactly once, in a section according to its nature, with
    an entry for each of its cells. *)
Theorem C39_tree : forall o sorting t e, treachable t -> cals_sorting sorting = Ok (co_sorting o) ->
    generate_table_tree o t = Ok e ->
    exists n rows sections,
      view_count Cols t n /\ snd (views_get Rows t) = Ok rows /\
      (forall i v, nth_error rows i = Some v -> reads Rows (Z.of_nat i + 1) t v) /\
      describes_table (co_ns o) n sections e /\ Permutation (List.concat (map snd sections)) rows.
Proof.
  intros o sorting t e HR HS H.
  assert (HB : In "body" (co_sorting o)) by (apply (sorting_ok _ _ HS); cbn; tauto).
  destruct (generate_spec o t e HR HB H) as (cols & rows & Ec & Er & HD).
  exists (Z.of_nat (List.length cols)), rows, (sections_of o rows).
  split; [exists cols; split; [exact Ec|reflexivity]|]. split; [exact Er|].
  split; [apply (table_views_spec _ _ _ HR Er)|]. split; [exact HD|]. apply (arrangement (co_sorting o) rows HB).
Qed.

(** If the rows list each cell once (see C26) each cell of the table has exactly one entry, with its
    spans and its content. *)
Theorem C39_cells_partial : forall o sorting t e, treachable t -> cals_sorting sorting = Ok (co_sorting o) ->
    views_exact Rows t -> generate_table_tree o t = Ok e ->
    exists cells, Permutation cells (table_iter t) /\ Forall2 (describes_cell (co_ns o)) cells (entries (co_ns o) e).
Proof.
  intros o sorting t e HR HS HX H.
  assert (HB : In "body" (co_sorting o)) by (apply (sorting_ok _ _ HS); cbn; tauto).
  destruct (generate_spec o t e HR HB H) as (cols & rows & Ec & Er & HD).
  exists (flat_map v_owned (List.concat (map snd (sections_of o rows)))). split.
  - transitivity (flat_map v_owned rows); [|apply owned_all; assumption]. apply Permutation_flat_map.
    apply (arrangement (co_sorting o) rows HB).
  - eapply table_entries; [|exact HD]. intros c x Hx. apply Hx.
Qed.

(** Otherwise a cell may have two entries: [table = Table(); table[(1, 1)] = cell]. *)
Definition plain : cals_opts := MkCalsOpts None "mm" false default_sorting (fun _ => "").
Theorem C39_cells_refuted : exists t e, treachable t /\ generate_table_tree plain t = Ok e /\
    List.length (table_iter t) = 1%nat /\ List.length (entries None e) = 2%nat.
Proof.
  exists (trun et_start [TSet (PTuple [PInt 1; PInt 1]) (unit_cell (CText "x") None None (Coord 1 1))]). eexists.
  split; [apply et_reachable|]. split; [vm_compute; reflexivity|]. split; vm_compute; reflexivity.
Qed.

(** The tree can be built when the attributes have the right types and values. *)
Theorem C39_succeeds : forall o t, treachable t -> In (co_unit o) unit_names -> ready t ->
    exists e, generate_table_tree o t = Ok e.
Proof. exact generate_total. Qed.

Example C39_ex : exists e, generate_table_tree plain et = Ok e /\ List.length (entries None e) = 5%nat /\
  map (fun n => attribute None n "namest") (entries None e) = [Some "c1"; None; None; None; Some "c4"] /\
  map (fun n => attribute None n "nameend") (entries None e) = [Some "c2"; None; None; None; Some "c5"] /\
  map (fun n => attribute None n "morerows") (entries None e) = [None; Some "1"; None; None; None].
Proof. eexists. split; [vm_compute; reflexivity|]. split; [vm_compute; reflexivity|]. split; [vm_compute; reflexivity|]. split; vm_compute; reflexivity. Qed.

(** A table with styles which can be written *)
Definition et_styled : table :=
  trun et_start [TReadViews Rows; TUpdateStyles Rows 1 [("vertical-align", SStr "middle"); ("x-ins", SBool true)];
    TUpdateStyles Cols 1 [("width", SStr "2.5cm")];
    TInsert Rows 1 (CList [CText "x"; CNode (XElem "p" [] None [] None)]) (Some [("align", SStr "center"); ("border-right", SStr "double 2pt")]) None 2 1;
    TInsert Rows 2 (CText "y") None (Some "body") 1 1].
Example C39_succeeds_ex : treachable et_styled /\ ready et_styled.
Proof.
  split; [apply et_reachable|]. split; [|split; [|split]].
  - unfold styles_ready. split; [intros []; exact I|]. split; [exact I|]. split; [exact I|]. split; [exact I|]. split; exact I.
  - intros c Hc. vm_compute in Hc. destruct Hc as [<-|[<-|[]]]; unfold cell_ready.
    + split; [intros d Hd; cbn in Hd; destruct Hd as [<-|[<-|[]]]; exact I|].
      repeat (split; [cbn; tauto|]). cbn. exact I.
    + repeat (split; [cbn; tauto|]). cbn. exact I.
  - intros p v Hp Hv.
    edestruct (reads_cases Rows p et_styled) as [Hi|Hi]; [apply et_reachable|exact Hp|exact Hv|vm_compute; reflexivity| |].
    + destruct Hi as [<-|[<-|[]]]; unfold row_ready; repeat (split; [cbn; tauto|]); cbn; exact I.
    + unfold row_ready, text_or_absent, one_of. rewrite Hi. cbn. tauto.
  - intros p v Hp Hv.
    edestruct (reads_cases Cols p et_styled) as [Hi|Hi]; [apply et_reachable|exact Hp|exact Hv|vm_compute; reflexivity| |].
    + destruct Hi as [<-|[<-|[]]]; unfold col_ready; (split; [|split; cbn; exact I]); [|cbn; exact I]. unfold width_or_absent. cbn [v_styles dget String.eqb Ascii.eqb Bool.eqb].
      pose proof (P_Units.parse_width_spec "2.5cm" "mm") as H.
      replace (parse_width "2.5cm" "mm") with (Ok ((25 # 10)%Q, "cm")) in H by (vm_compute; reflexivity).
      destruct H as (num & u & H & _). exists num, u. exact H.
    + unfold col_ready, width_or_absent, text_or_absent. rewrite Hi. cbn. tauto.
Qed.

(** ** C40: the order *)

(** The sections come in the order of the sorting list and rows of the same rank in table order. *)
Theorem C40_order : forall o sorting t e, treachable t -> cals_sorting sorting = Ok (co_sorting o) ->
    generate_table_tree o t = Ok e ->
    exists n rows sections,
      snd (views_get Rows t) = Ok rows /\ describes_table (co_ns o) n sections e /\
      sections_sorted (co_sorting o) sections /\ stable (co_sorting o) rows (List.concat (map snd sections)) /\
      (forall v, In v rows -> exists k, rank (co_sorting o) (v_nature v) k).
Proof.
  intros o sorting t e HR HS H.
  assert (HB : In "body" (co_sorting o)) by (apply (sorting_ok _ _ HS); cbn; tauto).
  destruct (generate_spec o t e HR HB H) as (cols & rows & Ec & Er & HD).
  destruct (arrangement (co_sorting o) rows HB) as (_ & H1 & H2 & _).
  exists (Z.of_nat (List.length cols)), rows, (sections_of o rows). split; [exact Er|]. split; [exact HD|].
  split; [exact H1|]. split; [exact H2|]. intros v _. apply sorting_key_rank, HB.
Qed.

(** The option: default, or a list which has the three natures *)
Theorem C40_option : forall sorting,
    (sorting = [] -> cals_sorting sorting = Ok ["header"; "footer"; "body"]) /\
    (sorting <> [] -> (forall n, In n ["header"; "footer"; "body"] -> In n sorting) -> cals_sorting sorting = Ok sorting) /\
    (sorting <> [] -> ~ (forall n, In n ["header"; "footer"; "body"] -> In n sorting) -> cals_sorting sorting = Err EValueError).
Proof.
  intros sorting. split; [intros ->; reflexivity|]. destruct sorting as [|s l]; [split; congruence|].
  unfold cals_sorting. split; intros _ H.
  - rewrite (proj2 (sorting_mem (s :: l))) by exact H. reflexivity.
  - destruct (forallb (fun n => str_mem n (s :: l)) default_sorting) eqn:E; [|reflexivity]. destruct H. apply sorting_mem, E.
Qed.

(** The rows of the table are not in order in the tree: with the default option the footer comes
    before the body. *)
Definition et_sections (n1 n2 n3 : nature) : table :=
  trun et_start [TReadViews Rows; TSetNature Rows 1 n1; TInsert Rows 1 (CText "1") None None 1 1;
                 TSetNature Rows 2 n2; TInsert Rows 2 (CText "2") None None 1 1;
                 TSetNature Rows 3 n3; TInsert Rows 3 (CText "3") None None 1 1].
Definition section_tags (e : xnode) : list (option string) :=
  map x_tag (filter (fun n => negb (x_has_tag n "colspec")) (flat_map x_children (x_children e))).
Example C40_ex : exists e, generate_table_tree plain (et_sections (Some "header") None (Some "footer")) = Ok e /\
  section_tags e = [Some "thead"; Some "tfoot"; Some "tbody"] /\
  map x_text (entries None e) = [Some "1"; Some "3"; Some "2"].
Proof. eexists. split; [vm_compute; reflexivity|]. split; vm_compute; reflexivity. Qed.

(** ** C52: one section of each kind *)

(** Rows of the same nature which are not contiguous give several sections of the same kind. *)
Theorem C52_one_section_refuted : exists t e, treachable t /\ generate_table_tree plain t = Ok e /\
    section_tags e = [Some "thead"; Some "thead"; Some "tbody"].
Proof.
  exists (et_sections (Some "header") (Some "body") (Some "header")). eexists. split; [apply et_reachable|].
  split; [vm_compute; reflexivity|]. vm_compute. reflexivity.
Qed.

(** With contiguous natures there is one section of each nature. *)
Theorem C52_one_section_partial : forall o sorting t e rows, treachable t -> cals_sorting sorting = Ok (co_sorting o) ->
    generate_table_tree o t = Ok e -> snd (views_get Rows t) = Ok rows ->
    (forall a u b v c, rows = a ++ u :: b ++ v :: c -> v_nature u = v_nature v ->
       forall w, In w b -> v_nature w = v_nature u) ->
    exists n sections, describes_table (co_ns o) n sections e /\ NoDup (map fst sections).
Proof.
  intros o sorting t e rows HR HS H Er HC.
  assert (HB : In "body" (co_sorting o)) by (apply (sorting_ok _ _ HS); cbn; tauto).
  destruct (generate_spec o t e HR HB H) as (cols & rows' & Ec & Er' & HD).
  assert (rows' = rows) by (unfold table_views in Er'; congruence). subst rows'.
  exists (Z.of_nat (List.length cols)), (sections_of o rows). split; [exact HD|].
  eapply Permutation_NoDup; [apply Permutation_map; symmetry; apply sort_by_perm|]. apply group_NoDup, HC.
Qed.

Example C52_ex : exists rows, snd (views_get Rows (et_sections (Some "header") (Some "header") None)) = Ok rows /\
  forall a u b v c, rows = a ++ u :: b ++ v :: c -> v_nature u = v_nature v -> forall w, In w b -> v_nature w = v_nature u.
Proof.
  eexists. split; [vm_compute; reflexivity|]. intros a u b v c E Hn w Hw.
  destruct a as [|? [|? [|? a]]]; cbn in E; injection E as <- E; subst.
  - destruct b as [|? [|? b]]; [destruct Hw| |].
    + cbn in E. injection E as <- <- <-. cbn in Hn. discriminate.
    + cbn in E. injection E as <- <- E. destruct b; discriminate.
  - destruct b as [|? b]; [destruct Hw|]. destruct b; discriminate.
  - destruct b; discriminate.
  - destruct a; discriminate.
Qed.

(** ** C53: separators *)

Theorem C53_separators_partial : forall o sorting t e bb, treachable t -> cals_sorting sorting = Ok (co_sorting o) ->
    generate_table_tree o t = Ok e -> table_bounding_box t = Ok (Some bb) ->
    exists cells colsep rowsep,
      default_separators (co_in_tgroup o) (co_ns o) e colsep rowsep /\
      Forall2 (fun c n => describes_cell (co_ns o) c n /\ separated (co_ns o) bb colsep rowsep c n) cells (entries (co_ns o) e) /\
      (forall c, In c cells <-> In c (table_iter t)) /\
      (views_exact Rows t -> Permutation cells (table_iter t)).
Proof.
  intros o sorting t e bb HR HS H Eb.
  assert (HB : In "body" (co_sorting o)) by (apply (sorting_ok _ _ HS); cbn; tauto).
  destruct (generate_built o t e HR HB H) as (cols & rows & cs & rs & Ec & Er & HD & HF).
  exists (flat_map v_owned (List.concat (map snd (sections_of o rows)))), cs, rs. split; [exact HF|].
  assert (HP : Permutation (flat_map v_owned (List.concat (map snd (sections_of o rows)))) (flat_map v_owned rows))
    by apply Permutation_flat_map, (arrangement (co_sorting o) rows HB).
  split; [|split].
  - eapply Forall2_weaken; [|eapply table_entries; [|exact HD]].
    + intros c x Hx. split; [eapply built_describes, Hx|]. destruct Hx as (b & E & Hx).
      assert (b = Some bb) by congruence. subst b. apply build_cell_separated, Hx.
    + intros c x Hx. apply built_describes in Hx. apply Hx.
  - intros c. transitivity (In c (flat_map v_owned rows)).
    + split; apply Permutation_in; [|symmetry]; exact HP.
    + apply owned_members; assumption.
  - intros HX. rewrite HP. apply owned_all; assumption.
Qed.

(** In CALS an entry without colsep takes the one of its column before the one of the table.  The
    builder compares with the table only: here the cell has no border, and its column says "1". *)
Theorem C53_separators_refuted : exists t e c n spec, treachable t /\ generate_table_tree plain t = Ok e /\
    In c (table_iter t) /\ In n (entries None e) /\ describes_cell None c n /\
    line_of (c_styles c) "border-right" "none" /\ attribute None n "colsep" = None /\
    In spec (flat_map x_children (x_children e)) /\ describes_column None (cx (bmin (c_box c))) spec /\
    attribute None spec "colsep" = Some "1".
Proof.
  set (st := [("border-right", SStr "none")]).
  set (t := trun et_start [TReadViews Rows; TReadViews Cols; TUpdateStyles Cols 1 [("border-right", SStr "single")];
                           TInsert Rows 1 (CText "x") (Some st) None 1 1; TInsert Rows 1 (CText "y") None None 1 1]).
  exists t. eexists. exists (MkCell (CText "x") st None (MkBox (Coord 1 1) (Coord 1 1))). eexists. eexists.
  split; [apply et_reachable|]. split; [vm_compute; reflexivity|]. split; [vm_compute; tauto|].
  split; [vm_compute; left; reflexivity|]. split.
  { split; [reflexivity|]. split; [reflexivity|]. split; [|reflexivity]. cbn. split; [lia|]. split; [auto|]. split; [lia|auto]. }
  split.
  { pose proof (border_spec st "border-right") as H. replace (get_border_style st "border-right") with (Ok (Some "none")) in H by (vm_compute; reflexivity).
    apply H. }
  split; [reflexivity|]. split; [vm_compute; left; reflexivity|]. split; [|reflexivity].
  split; [reflexivity|]. split; [reflexivity|]. split; [reflexivity|]. auto.
Qed.

Print Assumptions C38_round_trip.
Print Assumptions C38_other_frames.
Print Assumptions C38_one_of_six.
Print Assumptions C38_exact_partial.
Print Assumptions C38_inexpressible.
Print Assumptions C38_exact_refuted.
Print Assumptions C39_tree.
Print Assumptions C39_cells_partial.
Print Assumptions C39_cells_refuted.
Print Assumptions C39_succeeds.
Print Assumptions C40_order.
Print Assumptions C40_option.
Print Assumptions C52_one_section_refuted.
Print Assumptions C52_one_section_partial.
Print Assumptions C53_separators_partial.
Print Assumptions C53_separators_refuted.
