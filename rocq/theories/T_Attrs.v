(** * The styles of the tables shown by the builders: C59, C60, C61 *)
From Coq Require Import QArith Permutation.
From Verif Require Import Base M_Geometry M_Xml M_Cell M_Grid M_Table M_Regex M_Str M_Units M_Builder M_Cals M_Formex.
From Verif Require Import S_Geometry S_Table S_Units S_Int S_Builder S_Cals S_CalsParser S_Formex S_Attrs.
From Verif Require Import P_Table P_TableMore P_TableFacts P_TableRefine P_Cals P_Formex P_Attrs T_Table T_Cals T_Formex.
Open Scope string_scope.
Open Scope list_scope.
Open Scope Z_scope.

(** ** C59: the page of a Formex table *)

Theorem C59_page : forall o n t e, generate_tbl o n t = Ok e -> page_shown (t_styles t) (x_get e "PAGE.SIZE").
Proof.
  intros o n t e H. unfold generate_tbl in H. bind H as cols Ec. bind H as a Ea. bind H as attrs Em. bind H as ch Eh. injection H as <-.
  unfold x_get. cbn [x_attrs]. rewrite (make_attrs_get _ _ _ Em). apply (page_look _ _ _ Ea). reflexivity.
Qed.

(** ** C60: the attributes of the CALS tables *)

(** The attributes of the table, the columns, the rows and the entries are those of the styles; a
    separator is written where it is not the one of the table. *)
Theorem C60_cals : forall o sorting t bb e, treachable t -> (table_iter t <> [] -> bounds (table_iter t) bb) -> cals_sorting sorting = Ok (co_sorting o) ->
    generate_table_tree o t = Ok e ->
    table_look (co_ns o) (co_unit o) (co_fmt o) t e /\
    exists cols rows (sections : list (nature * list view)) tg specs bodies colsep rowsep,
      table_views Cols t = Ok cols /\ table_views Rows t = Ok rows /\ Permutation (List.concat (map snd sections)) rows /\
      x_children e = [tg] /\ x_children tg = specs ++ bodies /\
      (let d := if co_in_tgroup o then tg else e in
       attribute (co_ns o) d "colsep" = Some colsep /\ attribute (co_ns o) d "rowsep" = Some rowsep /\
       attribute (co_ns o) d (if co_in_tgroup o then "tgroupstyle" else "tabstyle") = t_nature t) /\
      separators_of t colsep rowsep /\
      Forall2 (column_look (co_ns o) (co_unit o) (co_fmt o) colsep rowsep) cols specs /\
      Forall2 (fun s e => exists items, x_children e = List.concat items /\
        Forall2 (row_rendered (expanded (co_ns o) "row") (co_ns o) bb colsep rowsep (fun _ _ => True)
                   (fun c en => as_is (dget (c_styles c) "cellstyle") (attribute (co_ns o) en "cellstyle"))) (snd s) items) sections bodies.
Proof.
  intros o sorting t bb e HR HB HS H. destruct (tree_looks o t bb e HR HB H) as (HT & cols & rows & tg & specs & bodies & cs & rs & Ec & Er & E1 & E2 & HA & HSep & HC & HX).
  split; [exact HT|]. exists cols, rows, (sections_of o rows), tg, specs, bodies, cs, rs.
  split; [exact Ec|]. split; [exact Er|]. split; [apply (arrangement (co_sorting o) rows); apply (sorting_ok _ _ HS); cbn; tauto|].
  split; [exact E1|]. split; [exact E2|]. split; [exact HA|]. split; [exact HSep|]. split; [exact HC|exact HX].
Qed.

(** ** C61: the same attributes of the Formex tables *)

Theorem C61_cals : forall o n t bb e, treachable t -> (table_iter t <> [] -> bounds (table_iter t) bb) -> fo_use_cals o = true -> generate_tbl o n t = Ok e ->
    let co := fo_cals o in
    exists corpus cols rows shown colsep rowsep specs items,
      children_named "CORPUS" [e] = [corpus] /\ table_views Cols t = Ok cols /\ table_views Rows t = Ok rows /\ rows_shown (fo_titles o) t rows shown /\
      table_look (co_ns co) (co_unit co) (co_fmt co) t corpus /\ attribute (co_ns co) corpus "tabstyle" = t_nature t /\
      attribute (co_ns co) corpus "colsep" = Some colsep /\ attribute (co_ns co) corpus "rowsep" = Some rowsep /\ separators_of t colsep rowsep /\
      x_children corpus = specs ++ List.concat items /\
      Forall2 (column_look (co_ns co) (co_unit co) (co_fmt co) colsep rowsep) cols specs /\
      Forall2 (row_rendered "ROW" (co_ns co) bb colsep rowsep
                 (fun v e => as_is (dget (v_styles v) "background-color") (attribute (co_ns co) e "bgcolor")) (fun _ _ => True)) shown items.
Proof.
  intros o n t bb e HR HB HU H. unfold generate_tbl in H. bind H as cols0 Ec0. bind H as a Ea. bind H as attrs Em. bind H as ch Eh. injection H as <-.
  destruct (build_corpus_spec _ _ _ HR Eh) as (cols' & rows' & tr' & corpus' & Er' & Et' & El & _ & HD).
  destruct (corpus_looks o HU t bb ch HR HB Eh) as (corpus & cols & rows & tr & cs & rs & specs & Er & Ec & Et & -> & HT & HN & H1 & H2 & HS & HC & items & E1 & HI).
  assert (rows' = rows) as -> by congruence. assert (tr' = tr) as -> by congruence.
  apply app_inv_head in El. injection El as ->.
  cbv zeta. exists corpus', cols, rows, (snd tr), cs, rs, specs, items.
  pose proof (split_title_spec _ _ _ _ HR Et) as HX.
  split; [|split; [congruence|split; [exact Er|split; [|repeat (split; [assumption|]); exact HI]]]].
  - unfold children_named. cbn [flat_map x_children]. rewrite app_nil_r, filter_app. cbn [filter]. rewrite (tag_has _ "CORPUS" (proj1 HD)).
    destruct (fo_titles o).
    + destruct HX as [(_ & title & first & others & _ & -> & _ & (parts & -> & _))|(_ & -> & _)]; reflexivity.
    + destruct HX as [-> _]. reflexivity.
  - split.
    + intros [Ht HH]. rewrite Ht in HX. destruct HX as [(_ & title & first & others & -> & _ & -> & _)|(HH' & _)]; [exists first; reflexivity|contradiction].
    + intros HH. destruct (fo_titles o); [|apply HX]. destruct HX as [(Hh & _)|(_ & _ & E)]; [exfalso; apply HH; auto|exact E].
Qed.

(** ** Examples *)

Definition page_table (orient : option string) (size : option (Z * Z)) : table :=
  MkTable [] None None (match orient with Some o => [("x-sect-orient", SStr o)] | None => [] end ++
                        match size with Some (w, h) => [("x-sect-size", SPair w h)] | None => [] end) None.
Example C59_ex :
  map (fun os => match generate_tbl fplain 1 (page_table (fst os) (snd os)) with Ok e => Ok (x_get e "PAGE.SIZE") | Err x => Err x end)
    [(Some "landscape", None); (Some "portrait", None); (None, Some (1191, 842)); (Some "landscape", Some (1191, 842));
     (Some "portrait", Some (842, 1191)); (Some "landscape", Some (842, 595)); (Some "landscape", Some (649, 918)); (Some "landscape", Some (650, 918))]
  = map Ok [Some "SINGLE.LANDSCAPE"; None; None; Some "DOUBLE.LANDSCAPE"; Some "DOUBLE.PORTRAIT"; Some "SINGLE.LANDSCAPE"; Some "SINGLE.LANDSCAPE"; Some "DOUBLE.LANDSCAPE"].
Proof. vm_compute. reflexivity. Qed.

Definition look_start : table :=
  MkTable [] None None [("border-top", SStr "solid 1pt black"); ("border-bottom", SStr "double 1pt"); ("x-cell-border-right", SStr "solid 1pt #000000"); ("width", SStr "2.5cm");
                        ("x-sect-orient", SStr "landscape"); ("x-sect-cols", SStr "1")] (Some "grid").
Definition look_table : table :=
  trun look_start [TReadViews Rows; TReadViews Cols;
    TUpdateStyles Rows 1 [("vertical-align", SStr "baseline"); ("x-ins", SBool true); ("x-ins-id", SStr "7"); ("x-ins-author", SStr "A & B"); ("border-bottom", SStr "solid 1pt"); ("background-color", SStr "red")];
    TUpdateStyles Cols 2 [("width", SStr "1in"); ("align", SStr "right"); ("border-right", SStr "none")];
    TInsert Rows 1 (CText "x") (Some [("align", SStr "center"); ("border-right", SStr "none"); ("border-bottom", SStr "dotted 1pt"); ("vertical-align", SStr "w-both"); ("cellstyle", SStr "HEADER")]) None 1 2;
    TInsert Rows 1 (CText "y") (Some [("border-right", SStr "none"); ("background-color", SStr "blue")]) None 2 1;
    TInsert Rows 2 (CText "z") None (Some "body") 1 1].
Lemma look_reachable : treachable look_table.
Proof. apply trun_treachable. apply (treach_new [] (Some (t_styles look_start)) (Some "grid")). reflexivity. Qed.
Definition attributes_of (ns : option string) (e : xnode) (names : list string) : list (option string) := map (attribute ns e) names.
Example C60_ex : exists e, treachable look_table /\ generate_table_tree plain look_table = Ok e /\
  attributes_of None e ["frame"; "orient"; "pgwide"; "tabstyle"; "colsep"; "rowsep"] = [Some "topbot"; Some "land"; Some "1"; Some "grid"; Some "1"; Some "0"] /\
  map (fun n => attributes_of None n ["align"; "colsep"; "colwidth"]) (children_named "colspec" (x_children e)) =
    [[None; None; None]; [Some "right"; Some "0"; Some "mm"]; [None; None; None]] /\
  map (fun n => attributes_of None n ["valign"; "align"; "colsep"; "rowsep"; "morerows"; "nameend"; "bgcolor"; "cellstyle"]) (entries None e) =
    [[Some "bottom"; Some "center"; Some "0"; None; Some "1"; None; None; Some "HEADER"]; [None; None; None; None; None; Some "c3"; Some "blue"; None];
     [None; None; None; None; None; None; None; None]] /\
  map (fun n => match n with XPI t d _ => Some (t, d) | _ => None end) (flat_map x_children (flat_map x_children (x_children e))) =
    [Some ("change-start", "type=" ++ quote ++ "row:insertion" ++ quote ++ " change-id=" ++ quote ++ "ct7" ++ quote ++ " creator=" ++ quote ++ "A &amp; B" ++ quote)%string; None;
     Some ("change-end", "type=" ++ quote ++ "row:insertion" ++ quote ++ " change-id=" ++ quote ++ "ct7" ++ quote)%string; None].
Proof.
  eexists. split; [exact look_reachable|]. split; [vm_compute; reflexivity|]. split; [vm_compute; reflexivity|]. split; [vm_compute; reflexivity|].
  split; vm_compute; reflexivity.
Qed.
Example C61_ex : exists e, generate_tbl fcals 1 look_table = Ok e /\
  map (fun n => attributes_of (Some "urn:cals") n ["frame"; "orient"; "pgwide"; "tabstyle"; "colsep"; "rowsep"]) (children_named "CORPUS" [e]) =
    [[Some "topbot"; Some "land"; Some "1"; Some "grid"; Some "1"; Some "0"]] /\
  map (fun n => attributes_of (Some "urn:cals") n ["valign"; "rowsep"; "bgcolor"]) (children_named "ROW" (children_named "CORPUS" [e])) =
    [[Some "bottom"; Some "1"; Some "red"]; [None; None; None]] /\
  map (fun n => attributes_of (Some "urn:cals") n ["valign"; "align"; "colsep"; "rowsep"; "morerows"; "nameend"; "bgcolor"; "cellstyle"]) (tbl_cells e) =
    [[Some "bottom"; Some "center"; Some "0"; None; Some "1"; None; None; None]; [None; None; None; None; None; Some "c3"; Some "blue"; None];
     [None; None; None; None; None; None; None; None]].
Proof. eexists. split; [vm_compute; reflexivity|]. split; [vm_compute; reflexivity|]. split; vm_compute; reflexivity. Qed.

Print Assumptions C59_page.
Print Assumptions C60_cals.
Print Assumptions C61_cals.
