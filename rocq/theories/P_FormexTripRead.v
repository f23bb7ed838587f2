(** * Writing a table as Formex and reading it back: the layout of a tree made from rows and notes *)
From Coq Require Import QArith.
From Verif Require Import Base M_Geometry M_Xml M_Cell M_Grid M_Table M_Str M_Units M_Builder M_Cals M_CalsParser M_Formex M_FormexParser M_FormexRead.
From Verif Require Import S_Geometry S_Grid S_Table S_Units S_Builder S_Cals S_Int S_CalsParser S_RoundTrip S_Formex S_Attrs S_FormexRead S_FormexTrip.
From Verif Require Import P_Geometry P_Grid P_GridFacts P_Table P_TableFacts P_TableMore P_Str P_Int P_Cals P_CalsParser P_CalsLayout P_CalsEvents P_CalsSim P_CalsTable P_CalsMore P_RoundTrip P_Formex P_FormexEvents P_FormexSim P_FormexTrip.
Open Scope list_scope.
Open Scope Z_scope.

Lemma stranger_filling ns cns n : stranger ns cns n -> filling ns cns n.
Proof.
  induction 1 as [n Hn Hc IH]. apply filling_other; [exact Hn| |exact IH].
  intros c d Hin Hnm _ _. specialize (Hc c Hin). inversion Hc as [? HX _]; subst. apply HX. left. exists "CORPUS"%string. split; [cbn; tauto|exact Hnm].
Qed.
Lemma stranger_corpus ns cns n : stranger ns cns n -> ~ holds_corpus ns n.
Proof.
  induction 1 as [n Hn Hc IH]. intros H. inversion H as [? Hnm|? c Hin Hh]; subst.
  - apply Hn. left. exists "CORPUS"%string. split; [cbn; tauto|exact Hnm].
  - exact (IH c Hin Hh).
Qed.
Lemma strangers_fill ns cns e : (forall n, In n (x_children e) -> stranger ns cns n) -> fills ns cns e.
Proof.
  intros H. split; [|intros c Hc; apply stranger_filling, H, Hc].
  intros c d Hin Hnm _ _. specialize (H c Hin). inversion H as [? HX _]; subst. apply HX. left. exists "CORPUS"%string. split; [cbn; tauto|exact Hnm].
Qed.
Lemma stranger_pi ns cns a b c : stranger ns cns (XPI a b c).
Proof. constructor; [intros [(name & _ & H)|H]; discriminate|intros x []]. Qed.
Lemma stranger_tail ns cns n x : stranger ns cns (x_set_tail n x) -> stranger ns cns n.
Proof.
  intros H. inversion H as [? H1 H2]; subst. constructor.
  - intros HX. apply H1. destruct HX as [(name & Hin & Hn)|Hn]; [left; exists name; split; [exact Hin|]|right]; unfold named; rewrite set_tail_tag; assumption.
  - intros c Hc. apply H2. rewrite set_tail_children. exact Hc.
Qed.

(** The content read in [e] is the one of [c]. *)
Definition content_shown (c : cell) (e : xnode) : Prop :=
  (shown_empty c -> fcontent_of None e = CText "") /\
  (~ shown_empty c -> content_pieces (fcontent_of None e) = content_pieces (c_content c)).

Section Read.
  Variable cns : option string.
  Variable em : bool.
  Variable t : table.
  Variables n m : Z.
  Hypothesis HR : treachable t.
  Hypothesis HT : tiles (table_iter t) n m.
  Hypothesis HO : rows_ordered t.
  Variable RB : view -> xnode -> Prop.
  Variable B : view -> xnode -> cell -> xnode -> Prop.
  Variable N : view -> xnode -> cell -> Prop.

  Definition readable_cell (c : cell) (e : xnode) : Prop :=
    x_tag e = Some "CELL"%string /\ fcell_span None cns e (cx (bmax (c_box c)) - col_of c + 1) (cy (bmax (c_box c)) - row_of c + 1) /\
    (forall x, In x (x_children e) -> stranger None cns x).
  Hypothesis HB : forall v row c e, B v row c e -> In c (table_iter t) -> readable_cell c e.

  Definition line_of_view (v : view) (row : xnode) : Prop :=
    x_tag row = Some "ROW"%string /\ RB v row /\ Forall2 (B v row) (v_owned v) (x_children row).
  Definition items_of_view (v : view) (its : list xnode) : Prop :=
    exists row, line_of_view v row /\ (its = [row] \/ exists a b, its = [XPI "change-start" a None; row; XPI "change-end" b None]).
  Definition note_of_view (v : view) (e : xnode) : Prop :=
    exists c, v_owned v = [c] /\ cx (bmax (c_box c)) - col_of c + 1 = n /\ cy (bmax (c_box c)) = row_of c /\ N v e c.

  Definition fcell_read_nature (row e : xnode) : nature :=
    Some (match nature_of_type (attribute None e "TYPE") with Some n => n | None => line_nature None row end).
  Definition Shown (lk : look) (ct : content) (na : nature) (c : cell) : Prop :=
    exists v, reads Rows (row_of c) t v /\ In c (v_owned v) /\
      ((exists row e, line_of_view v row /\ B v row c e /\ lk = fcell_style None cns row e /\ ct = fcontent_of None e /\ na = fcell_read_nature row e) \/
       (exists e, N v e c /\ lk = (fun k => text_look (given cns e k)) /\ ct = (if em then CList [CNode e] else fcontent_of None e) /\ na = Some "footer"%string)).

  Lemma cell_row : forall e, x_tag e = Some "CELL"%string -> named None "CELL" e.
  Proof. intros e H. exact H. Qed.

  Lemma line_asks r v row : 1 <= r -> reads Rows r t v -> line_of_view v row ->
    exists qs, asks None cns row qs /\ Forall2 (asked None Shown) (v_owned v) qs.
  Proof.
    intros Hr Hv HL. pose proof HL as (Hrow & _ & HF). destruct (view_membership Rows r t v HR Hr Hv) as (_ & Hown & _).
    assert (K : forall l es, (forall c, In c l -> In c (v_owned v)) -> Forall2 (B v row) l es ->
       (forall e, In e es -> named None "CELL" e) /\ exists qs, Forall2 (cell_request None cns row) es qs /\ Forall2 (asked None Shown) l qs).
    { intros l es Hin HFl. induction HFl as [|c e l es HBc HFl IH]; [split; [intros e []|exists []; split; constructor]|].
      destruct IH as (IH1 & qs & IH2 & IH3); [intros x Hx; apply Hin; right; exact Hx|].
      assert (Hc : In c (v_owned v)) by (apply Hin; left; reflexivity). pose proof (proj1 (Hown c) Hc) as [Hct Hst].
      destruct (HB v row c e HBc Hct) as (H1 & H2 & H3). split; [intros x [<-|Hx]; [exact H1|exact (IH1 x Hx)]|].
      eexists (_ :: qs). split; [constructor; [apply (cell_asks None cns row e _ _ H2)|exact IH2]|]. constructor; [|exact IH3].
      split; [reflexivity|]. split; [reflexivity|]. split.
      - cbn [q_elem]. intros e0 x [= <-] Hx. apply (stranger_corpus None cns), H3, Hx.
      - cbn [q_look q_content q_nature]. exists v. cbn in Hst. split; [rewrite Hst; exact Hv|]. split; [exact Hc|]. left. exists row, e.
        split; [exact HL|]. split; [exact HBc|]. split; [reflexivity|]. split; reflexivity. }
    destruct (K _ _ (fun c H => H) HF) as (K1 & qs & K2 & K3). exists qs. split; [|exact K3].
    apply asks_cells; [exact Hrow|]. rewrite (of_name_all None "CELL"); [exact K2|exact K1].
  Qed.

  Lemma notes_ok rows notes : Forall2 note_of_view rows notes -> forall r, 1 <= r ->
    (forall i v, nth_error rows i = Some v -> reads Rows (r + Z.of_nat i + 1) t v) ->
    lines_ok None cns em (table_iter t) Shown n r (map FNotes notes).
  Proof.
    induction 1 as [|v e rows notes (c & Ec & Hw & Hh & HN) H IH]; intros r Hr HX; [constructor|].
    pose proof (HX 0%nat v eq_refl) as Hv. replace (r + Z.of_nat 0 + 1) with (r + 1) in Hv by lia.
    destruct (view_membership Rows (r + 1) t v HR ltac:(lia) Hv) as (_ & Hown & _). rewrite Ec in Hown.
    cbn [map]. apply (lo_notes None cns em (table_iter t) Shown n r e (map FNotes notes) c).
    - exact Hr.
    - split; [cbn [q_width notes_request]; lia|]. split; [cbn [q_height notes_request]; lia|]. split; [cbn [q_elem notes_request]; discriminate|].
      cbn [q_look q_content q_nature notes_request]. exists v. pose proof (proj1 (Hown c) (or_introl eq_refl)) as [_ Hst]. cbn in Hst.
      split; [rewrite Hst; exact Hv|]. split; [rewrite Ec; left; reflexivity|]. right. exists e. split; [exact HN|]. split; [reflexivity|]. split; reflexivity.
    - exact Hown.
    - apply IH; [lia|]. intros i w Hi. specialize (HX (S i) w Hi). replace (r + 1 + Z.of_nat i + 1) with (r + Z.of_nat (S i) + 1) by lia. exact HX.
  Qed.

  Definition line_at (p : Z * xnode) : fitem := FLine (fst p) (snd p).
  Lemma lines_views_at rows lines : Forall2 (fun v p => line_of_view v (snd p)) rows lines -> forall r rows2 notes, 0 <= r -> Forall2 note_of_view rows2 notes ->
    (1 <= r \/ lines <> []) ->
    (forall i v, nth_error (rows ++ rows2) i = Some v -> reads Rows (r + Z.of_nat i + 1) t v) ->
    lines_ok None cns em (table_iter t) Shown n r (map line_at lines ++ map FNotes notes).
  Proof.
    induction 1 as [|v [b row] rows lines HL H IH]; intros r rows2 notes Hr HF Hne HX.
    - cbn [app map] in *. apply (notes_ok rows2); [exact HF| |exact HX]. destruct Hne as [Hne|Hne]; [exact Hne|congruence].
    - cbn [snd] in HL. pose proof (HX 0%nat v eq_refl) as Hv. replace (r + Z.of_nat 0 + 1) with (r + 1) in Hv by lia.
      destruct (view_membership Rows (r + 1) t v HR ltac:(lia) Hv) as (_ & Hown & _).
      destruct (line_asks (r + 1) v row ltac:(lia) Hv HL) as (qs & Q1 & Q2). cbn [map app].
      apply (lo_line None cns em (table_iter t) Shown n r b row _ (v_owned v) qs).
      + exact Q1.
      + exact Q2.
      + exact (HO (r + 1) v ltac:(lia) Hv).
      + exact Hown.
      + apply (IH (r + 1) rows2 notes); [lia|exact HF|left; lia|]. intros i w Hi. specialize (HX (S i) w Hi).
        replace (r + 1 + Z.of_nat i + 1) with (r + Z.of_nat (S i) + 1) by lia. exact HX.
  Qed.

  (** *** The tree *)
  Lemma row_colspec row : x_tag row = Some "ROW"%string -> has_name cns "colspec" row = false.
  Proof. intros H. apply (apart (MkPFmxOpts None cns false) "ROW" row); [cbn; tauto|exact H]. Qed.
  Lemma fparts_row b row : x_tag row = Some "ROW"%string -> fparts None cns b row = [FLine b row].
  Proof.
    intros H. pose proof (row_colspec row H) as Hc. pose proof (tag_named None row "ROW" "ROW" H) as Hr.
    destruct row as [tag at0 tx ch tl| |]; try discriminate H. cbn [fparts]. rewrite Hc, Hr. reflexivity.
  Qed.
  Lemma fparts_column b e i : describes_column cns i e -> fparts None cns b e = [FColumn e].
  Proof.
    intros (H & _). pose proof (tag_named cns e "colspec" "colspec" H) as Hc.
    destruct e as [tag at0 tx ch tl| |]; try discriminate H. cbn [fparts]. rewrite Hc. reflexivity.
  Qed.
  Lemma fparts_pi b x y z : fparts None cns b (XPI x y z) = [].
  Proof. reflexivity. Qed.

  Definition tree_shape (corpus : xnode) (specs : list xnode) (items : list (list xnode)) : Prop :=
    x_tag corpus = Some "CORPUS"%string /\ x_children corpus = specs ++ List.concat items /\
    (specs = [] \/ Forall2 (describes_column cns) (zrange 1 (n + 1)) specs).

  Lemma shape_items corpus specs items rows b before : tree_shape corpus specs items -> Forall2 items_of_view rows items ->
    exists lines, Forall2 line_of_view rows lines /\
      fitems None cns b before corpus = map FColumn specs ++ map (FLine b) lines ++ map FNotes (of_name None "GR.NOTES" before).
  Proof.
    intros (_ & Ech & HS) HF.
    assert (ES : flat_map (fparts None cns b) specs = map FColumn specs).
    { destruct HS as [->|HS]; [reflexivity|]. clear Ech. induction HS as [|i e l specs Hd HS IH]; [reflexivity|]. cbn [flat_map map]. rewrite (fparts_column b e i Hd), IH. reflexivity. }
    assert (EI : exists lines, Forall2 line_of_view rows lines /\ flat_map (fparts None cns b) (List.concat items) = map (FLine b) lines).
    { clear Ech. induction HF as [|v its rows items (row & HL & Hi) HF IH]; [exists []; split; [constructor|reflexivity]|].
      destruct IH as (lines & I1 & I2). exists (row :: lines). split; [constructor; assumption|]. cbn [List.concat]. rewrite flat_map_app, I2. cbn [map].
      change (FLine b row :: map (FLine b) lines) with ([FLine b row] ++ map (FLine b) lines). f_equal.
      destruct Hi as [->|(x & y & ->)]; cbn [flat_map]; rewrite ?fparts_pi, (fparts_row b row (proj1 HL)); reflexivity. }
    destruct EI as (lines & I1 & I2). exists lines. split; [exact I1|]. unfold fitems. rewrite Ech, flat_map_app, ES, I2, <- app_assoc. reflexivity.
  Qed.

  Lemma shape_proper corpus specs items rows : tree_shape corpus specs items -> Forall2 items_of_view rows items ->
    (forall v c, In v rows -> In c (v_owned v) -> In c (table_iter t)) -> proper_corpus None cns corpus.
  Proof.
    intros (Htag & Ech & HS) HF Hin. split; [exact Htag|]. intros x Hx. rewrite Ech in Hx. apply in_app_iff in Hx as [Hx|Hx].
    - destruct HS as [->|HS]; [destruct Hx|]. destruct (Forall2_In_r _ _ _ x HS Hx) as (i & Hi & H1 & H2 & _ & H3 & _). apply in_zrange in Hi.
      apply pp_colspec; [exact H1|rewrite H3; intros y []|]. intros s k Hs Hk. rewrite H2 in Hs. injection Hs as <-. pose proof (int_text_fun _ _ _ Hk (int_text_str i)). lia.
    - apply in_concat in Hx as (its & Hits & Hx). destruct (Forall2_In_r _ _ _ its HF Hits) as (v & Hv & row & (H1 & _ & H2) & Hi).
      assert (HX : x = row \/ exists a b c, x = XPI a b c).
      { destruct Hi as [->|(a & b & ->)]; cbn [In] in Hx; [destruct Hx as [<-|[]]; auto|]. destruct Hx as [<-|[<-|[<-|[]]]]; eauto. }
      destruct HX as [->|(a & b & c & ->)]; [|apply pp_other, stranger_pi].
      apply pp_row; [exact H1|]. intros e He. right. destruct (Forall2_In_r _ _ _ e H2 He) as (c & Hc & Hb).
      destruct (HB v row c e Hb (Hin v c Hv Hc)) as (B1 & _ & B3). split; [exact B1|]. apply strangers_fill, B3.
  Qed.

  Lemma tree_laid_at b before corpus specs lines rows rows1 rows2 : table_views Rows t = Ok rows -> Z.of_nat (List.length rows) = m -> rows = rows1 ++ rows2 -> rows1 <> [] ->
    (specs = [] \/ Forall2 (describes_column cns) (zrange 1 (n + 1)) specs) -> Forall2 (fun v p => line_of_view v (snd p)) rows1 lines ->
    Forall2 note_of_view rows2 (of_name None "GR.NOTES" before) ->
    fitems None cns b before corpus = map FColumn specs ++ map line_at lines ++ map FNotes (of_name None "GR.NOTES" before) ->
    exists l g P, flaid_out None cns em true b before corpus l g /\ f_cols l = n /\ Forall2 (laid Shown) g P /\ Permutation P (table_iter t).
  Proof.
    intros Er Em -> Hne HSp HL HF2 Eit. destruct (table_views_spec _ _ _ HR Er) as [_ Hrd].
    destruct (flaid_out_tiling None cns em (table_iter t) Shown n m HT b before corpus specs _ Eit) as (l & g & P & H1 & H2 & H3 & H4).
    + exact HSp.
    + apply (lines_views_at rows1 lines HL 0 rows2 (of_name None "GR.NOTES" before)); [lia|exact HF2| |].
      * right. intros E. subst lines. inversion HL. subst. congruence.
      * intros i v Hi. exact (Hrd i v Hi).
    + rewrite app_length, !map_length. rewrite app_length in Em. rewrite <- (Forall2_len _ _ _ HL), <- (Forall2_len _ _ _ HF2). exact Em.
    + exists l, g, P. auto.
  Qed.
  Lemma tree_laid b before corpus specs items rows rows1 rows2 : table_views Rows t = Ok rows -> Z.of_nat (List.length rows) = m -> rows = rows1 ++ rows2 -> rows1 <> [] ->
    tree_shape corpus specs items -> Forall2 items_of_view rows1 items -> Forall2 note_of_view rows2 (of_name None "GR.NOTES" before) ->
    proper_corpus None cns corpus /\
    exists lines l g P, Forall2 line_of_view rows1 lines /\
      fitems None cns b before corpus = map FColumn specs ++ map (FLine b) lines ++ map FNotes (of_name None "GR.NOTES" before) /\
      flaid_out None cns em true b before corpus l g /\ f_cols l = n /\ Forall2 (laid Shown) g P /\ Permutation P (table_iter t).
  Proof.
    intros Er Em E12 Hne HSh HF1 HF2. split.
    - apply (shape_proper corpus specs items rows1 HSh HF1). intros v c Hv Hc. apply (owned_members t rows c HR Er). apply in_flat_map.
      exists v. split; [rewrite E12; apply in_app_iff; left; exact Hv|exact Hc].
    - destruct (shape_items corpus specs items rows1 b before HSh HF1) as (lines & HL & Eit). exists lines.
      destruct (tree_laid_at b before corpus specs (map (fun x => (b, x)) lines) rows rows1 rows2 Er Em E12 Hne (proj2 (proj2 HSh))) as (l & g & P & H); [|exact HF2| |].
      + clear - HL. induction HL as [|v row rows lines H0 HL IH]; cbn [map]; constructor; [exact H0|exact IH].
      + rewrite map_map. exact Eit.
      + exists l, g, P. split; [exact HL|]. split; [exact Eit|exact H].
  Qed.
End Read.
