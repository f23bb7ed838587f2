(** * Writing a table as Formex and reading it back: the layout *)
From Coq Require Import QArith.
From Verif Require Import Base M_Geometry M_Xml M_Cell M_Grid M_Table M_Str M_Units M_Builder M_Cals M_CalsParser M_Formex M_FormexRead.
From Verif Require Import S_Geometry S_Grid S_Table S_Units S_Builder S_Cals S_Int S_CalsParser S_RoundTrip S_Formex S_Attrs S_FormexRead S_FormexTrip.
From Verif Require Import P_Geometry P_Grid P_GridFacts P_Table P_TableFacts P_TableMore P_Str P_Int P_Cals P_CalsParser P_CalsLayout P_CalsEvents P_CalsSim P_CalsTable P_CalsMore P_RoundTrip P_Formex P_FormexSim.
Open Scope list_scope.
Open Scope Z_scope.

Lemma covered_none bb na g : (forall k, covers bb k -> ~ free (map snd g) k) -> covered bb na g g.
Proof.
  intros H. exists []. split; [|reflexivity].
  assert (HA : forall k, In k (area bb) -> ~ free (map snd g) k) by (intros k Hk; apply H, area_in, Hk).
  clear H. revert HA. generalize (area bb) as l. induction l as [|a l IH]; intros HA; [constructor|]. apply sel_out; [apply HA; left; reflexivity|].
  apply IH. intros k Hk. apply HA. right. exact Hk.
Qed.

Section Tiling.
  Variables ns cns : option string.
  Variable em : bool.
  Variable cells : list cell.
  Variable Shows : look -> content -> nature -> cell -> Prop.
  Variables n m : Z.
  Hypothesis HT : tiles cells n m.

  Definition laid (s : tile) (c : cell) : Prop :=
    exists lk ct na, s = (lk, bare ct na (c_box c)) /\ Shows lk ct na c.
  (** What is asked for is the cell. *)
  Definition asked (c : cell) (q : request) : Prop :=
    q_width q = cx (bmax (c_box c)) - col_of c + 1 /\ q_height q = cy (bmax (c_box c)) - row_of c + 1 /\
    (forall e x, q_elem q = Some e -> In x (x_children e) -> ~ holds_corpus ns x) /\
    Shows (q_look q) (q_content q) (q_nature q) c.

  Let Hval : forall c, In c cells -> valid (c_box c).
  Proof. destruct HT as (_ & _ & HV & _). unfold all_valid in HV. rewrite Forall_forall in HV. exact HV. Qed.
  Let Hin : forall c, In c cells -> 1 <= col_of c /\ cx (bmax (c_box c)) <= n /\ 1 <= row_of c /\ cy (bmax (c_box c)) <= m.
  Proof.
    intros c Hc. destruct HT as (_ & _ & _ & _ & HS & _). pose proof (Hval c Hc) as HV. unfold valid in HV.
    pose proof (HS c Hc (bmin (c_box c))) as H1. pose proof (HS c Hc (bmax (c_box c))) as H2. unfold covers in *. cbn in H1, H2. lia.
  Qed.
  Let Hone : forall c d k, In c cells -> In d cells -> covers (c_box c) k -> covers (c_box d) k -> c = d.
  Proof.
    intros c d k Hc Hd H1 H2. destruct HT as (_ & _ & _ & HO & _).
    destruct (ForallOrdPairs_In HO c d Hc Hd) as [E|[HX|HX]]; [exact E| |]; exfalso; apply HX; exists k; auto.
  Qed.
  Let Hcov : forall x y, 1 <= x <= n -> 1 <= y <= m -> exists c, In c cells /\ covers (c_box c) (Coord x y).
  Proof. intros x y H1 H2. destruct HT as (_ & _ & _ & _ & _ & HC). apply HC. unfold covers. cbn. lia. Qed.

  Lemma laid_boxes g P : Forall2 laid g P -> map c_box (map snd g) = map c_box P.
  Proof. induction 1 as [|s c g P (lk & ct & na & -> & _) H IH]; [reflexivity|]. cbn. f_equal. exact IH. Qed.
  Lemma laid_free g P k : Forall2 laid g P -> (free (map snd g) k <-> forall c, In c P -> ~ covers (c_box c) k).
  Proof.
    intros H. pose proof (laid_boxes g P H) as E. unfold free. split; intros HX d Hd HC.
    - apply (in_map c_box) in Hd. rewrite <- E in Hd. apply in_map_iff in Hd as (d' & Ed & Hd'). apply (HX d' Hd'). rewrite Ed. exact HC.
    - apply (in_map c_box) in Hd. rewrite E in Hd. apply in_map_iff in Hd as (d' & Ed & Hd'). apply (HX d' Hd'). rewrite Ed. exact HC.
  Qed.

  Lemma seated_tiling r todo : forall qs k done g P,
    Forall2 asked todo qs -> StronglySorted (fun a b => col_of a < col_of b) (done ++ todo) ->
    (forall c, In c (done ++ todo) <-> In c cells /\ row_of c = r) ->
    Forall2 laid g P -> NoDup P -> (forall c, In c P <-> In c cells /\ (row_of c < r \/ In c done)) -> k <= n ->
    exists k' g' P', seated ns true r qs k g k' g' /\ Forall2 laid g' P' /\ NoDup P' /\
      (forall c, In c P' <-> In c cells /\ (row_of c < r \/ In c (done ++ todo))) /\
      k <= k' <= n /\ (forall c, In c todo -> cx (bmax (c_box c)) <= k').
  Proof.
    induction todo as [|c todo IH]; intros qs k done g P Hqs Hsort Hmem HR HN HP Hk.
    - inversion Hqs; subst. exists k, g, P. split; [constructor|]. split; [exact HR|]. split; [exact HN|]. rewrite app_nil_r.
      split; [exact HP|]. split; [lia|]. intros c [].
    - inversion Hqs as [|? q ? qs' Hcq Hqs']; subst.
      assert (Hc : In c cells /\ row_of c = r) by (apply Hmem, in_app_iff; right; left; reflexivity). destruct Hc as [Hc Er].
      pose proof (Hval c Hc) as HV. destruct (Hin c Hc) as (B1 & B2 & B3 & B4). unfold valid in HV.
      assert (Hnd : ~ In c P).
      { intros Hx. apply HP in Hx as [_ [Hx|Hx]]; [lia|]. apply in_split in Hx as (l1 & l2 & ->).
        rewrite <- app_assoc in Hsort. clear - Hsort. induction l1 as [|a l1 IHl]; cbn in Hsort; inversion Hsort as [|? ? HS HF]; subst; [|exact (IHl HS)].
        rewrite Forall_forall in HF. assert (Hx : In c (l2 ++ c :: todo)) by (apply in_app_iff; right; left; reflexivity). specialize (HF c Hx). cbn in HF. lia. }
      assert (Hearly : forall d, In d cells -> row_of d = r -> col_of d < col_of c -> In d done).
      { intros d Hd Hr Hlt. assert (Hx : In d (done ++ c :: todo)) by (apply Hmem; auto). apply in_app_iff in Hx as [Hx|[->|Hx]]; [exact Hx|lia|].
        exfalso. clear - Hsort Hx Hlt. induction done as [|a l IHl]; cbn in Hsort; inversion Hsort as [|? ? HS HF]; subst; [|exact (IHl HS)].
        rewrite Forall_forall in HF. specialize (HF d Hx). cbn in HF. lia. }
      destruct Hcq as (Q1 & Q2 & Q3 & Q4).
      set (s := (q_look q, bare (q_content q) (q_nature q) (c_box c)) : tile).
      assert (Hseat : seat Rows r (col_of c) (q_width q) (q_height q) = c_box c).
      { rewrite Q1, Q2. clear - Er. destruct (c_box c) as [[x1 y1] [x2 y2]]. cbn in *. subst r. do 2 f_equal; lia. }
      destruct (IH qs' (Z.max k (col_of c + q_width q - 1)) (done ++ [c]) (s :: g) (c :: P)) as (k' & g' & P' & H1 & H2 & H3 & H4 & H5 & H6).
      + exact Hqs'.
      + rewrite <- app_assoc. exact Hsort.
      + rewrite <- app_assoc. exact Hmem.
      + constructor; [exists (q_look q), (q_content q), (q_nature q); split; [reflexivity|exact Q4]|exact HR].
      + constructor; assumption.
      + intros d. cbn [In]. rewrite HP, in_app_iff. cbn [In]. split.
        * intros [<-|[Hd [Hlt|Hdn]]]; auto.
        * intros [Hd [Hlt|[Hdn|[->|[]]]]]; auto.
      + lia.
      + exists k', g', P'. split; [|split; [exact H2|split; [exact H3|split; [rewrite <- app_assoc in H4; exact H4|split; [lia|]]]]].
        2:{ intros d [<-|Hd]; [lia|exact (H6 d Hd)]. }
        eapply (seated_cons ns true r q qs' k g (col_of c)).
        * lia.
        * lia.
        * split; [lia|]. cbn [place]. split.
          -- apply (laid_free g P); [exact HR|]. intros d Hd Hcv. apply Hnd.
             assert (Ed : d = c); [|subst d; exact Hd].
             apply (Hone d c (Coord (col_of c) r)); [apply HP in Hd; apply Hd|exact Hc|exact Hcv|]. unfold covers. cbn. lia.
          -- intros j Hj Hfr. destruct (Hcov j r ltac:(lia) ltac:(lia)) as (d & Hd & Hcv).
             assert (HdP : In d P).
             { apply HP. split; [exact Hd|]. unfold covers in Hcv. cbn in Hcv.
               destruct (Z_lt_ge_dec (row_of d) r) as [Hlt|Hge]; [left; exact Hlt|right]. apply Hearly; [exact Hd|lia|lia]. }
             exact (proj1 (laid_free g P (Coord j r) HR) Hfr d HdP Hcv).
        * rewrite Hseat. intros d Hd Hcl. apply (in_map c_box) in Hd. rewrite (laid_boxes g P HR) in Hd.
          apply in_map_iff in Hd as (d' & Ed & Hd'). rewrite <- Ed in Hcl. assert (Hd2 : In d' cells) by (apply HP in Hd'; apply Hd').
          apply (clash_overlap _ _ (Hval d' Hd2) (Hval c Hc)) in Hcl as (kk & K1 & K2).
          pose proof (Hone d' c kk Hd2 Hc K1 K2) as ->. contradiction.
        * rewrite Hseat. apply settles_plain. intros (_ & e0 & x & He0 & Hx & Hne). exact (Q3 e0 x He0 Hx Hne).
        * exact H1.
  Qed.

  (** The items of the rows from [r + 1] on *)
  Inductive lines_ok : Z -> list fitem -> Prop :=
  | lo_nil r : lines_ok r []
  | lo_line r b e its own qs :
      asks ns cns e qs -> Forall2 asked own qs -> StronglySorted (fun a b => col_of a < col_of b) own ->
      (forall c, In c own <-> In c cells /\ row_of c = r + 1) ->
      lines_ok (r + 1) its -> lines_ok r (FLine b e :: its)
  | lo_notes r e its c :
      1 <= r -> asked c (notes_request ns cns em e n) ->
      (forall d, In d [c] <-> In d cells /\ row_of d = r + 1) ->
      lines_ok (r + 1) its -> lines_ok r (FNotes e :: its).

  Lemma laid_bounds r g P : 1 <= r <= m -> Forall2 laid g P -> (forall c, In c P <-> In c cells /\ row_of c <= r) ->
    exists bb, bounds (map snd g) bb /\ cx (bmin bb) = 1 /\ cx (bmax bb) = n.
  Proof.
    intros Hr HR HP.
    assert (HV : all_valid (map snd g)).
    { apply Forall_forall. intros d Hd. apply (in_map c_box) in Hd. rewrite (laid_boxes _ _ HR) in Hd. apply in_map_iff in Hd as (d' & <- & Hd'). apply Hval. apply HP in Hd'. apply Hd'. }
    assert (HC : forall x, 1 <= x <= n -> exists d, In d (map snd g) /\ covers (c_box d) (Coord x 1)).
    { intros x Hx. destruct (Hcov x 1 Hx ltac:(lia)) as (c & Hc & Hcv). assert (Hp : In c P).
      { apply HP. split; [exact Hc|]. unfold covers in Hcv. cbn in Hcv. lia. }
      apply (in_map c_box) in Hp. rewrite <- (laid_boxes _ _ HR) in Hp. apply in_map_iff in Hp as (d & Ed & Hd). exists d. split; [exact Hd|]. rewrite Ed. exact Hcv. }
    assert (Hn : 1 <= n) by (destruct HT; assumption).
    assert (Hne : map snd g <> []) by (destruct (HC 1 ltac:(lia)) as (d & Hd & _); intros E; rewrite E in Hd; destruct Hd).
    destruct (bounds_exist _ HV Hne) as (bb & Hbb). exists bb. split; [exact Hbb|]. destruct Hbb as (Vb & H1 & H2).
    destruct (HC 1 ltac:(lia)) as (d1 & Hd1 & C1). destruct (HC n ltac:(lia)) as (d2 & Hd2 & C2). apply (H1 d1 Hd1) in C1. apply (H1 d2 Hd2) in C2.
    assert (HS : subarea bb (MkBox (Coord 1 1) (Coord n m))).
    { apply H2; [destruct HT; unfold valid; cbn; lia|]. intros d Hd. apply (in_map c_box) in Hd. rewrite (laid_boxes _ _ HR) in Hd.
      apply in_map_iff in Hd as (d' & <- & Hd'). destruct HT as (_ & _ & _ & _ & HS & _). apply HS. apply HP in Hd'. apply Hd'. }
    pose proof (HS (bmin bb)) as S1. pose proof (HS (bmax bb)) as S2. unfold covers, valid in *. cbn in *. lia.
  Qed.

  Lemma flays_tiling its : forall r k c0 g cs P, lines_ok r its -> Z.of_nat (List.length its) = m - r -> 0 <= r ->
    Forall2 laid g P -> NoDup P -> (forall c, In c P <-> In c cells /\ row_of c <= r) ->
    c0 <= n -> (r = 0 \/ c0 = n) ->
    exists l P', flays ns cns em true its (MkFLayout r k c0 g cs) l /\ f_cols l = n /\ Forall2 laid (f_tiles l) P' /\ NoDup P' /\
      (forall c, In c P' <-> In c cells) /\ f_looks l = cs.
  Proof.
    induction its as [|it its IH]; intros r k c0 g cs P HO Hlen H0 HR HN HP Hc0 Hr0.
    - exists (MkFLayout r k c0 g cs), P. cbn in Hlen. split; [constructor|]. split; [destruct HT; cbn; lia|]. split; [exact HR|]. split; [exact HN|]. split; [|reflexivity].
      intros c. rewrite HP. split; [intros [H _]; exact H|]. intros Hc. split; [exact Hc|].
      destruct (Hin c Hc) as (_ & _ & B3 & B4). pose proof (Hval c Hc) as HV. unfold valid in HV. lia.
    - cbn [List.length] in Hlen. inversion HO as [|? b e ? own qs Hask Hes Hsort Hmem HO'|? e ? c Hr1 Hask Hmem HO']; subst.
      + destruct (seated_tiling (r + 1) own qs c0 [] g P Hes Hsort Hmem HR HN) as (c1 & g1 & P1 & Hp & HR1 & HN1 & HP1 & Hc1 & Hmax); [|exact Hc0|].
        { intros c. rewrite HP. cbn [In]. split; intros [Hc Hx]; (split; [exact Hc|]); [left|destruct Hx as [Hx|[]]]; lia. }
        cbn [app] in HP1.
        assert (HP1' : forall c, In c P1 <-> In c cells /\ row_of c <= r + 1).
        { intros c. rewrite HP1, Hmem. split; [intros [Hc [Hx|[_ Hx]]]; (split; [exact Hc|lia])|]. intros [Hc Hx]. split; [exact Hc|].
          destruct (Z_lt_ge_dec (row_of c) (r + 1)); [left; assumption|right; split; [exact Hc|lia]]. }
        assert (E1 : c1 = n).
        { destruct Hr0 as [-> | ->]; [|lia]. assert (Hn : 1 <= n) by (destruct HT; assumption). destruct (Hcov n 1 ltac:(lia) ltac:(lia)) as (d & Hd & Hcv).
          unfold covers in Hcv. cbn in Hcv. assert (Ho : In d own) by (apply Hmem; split; [exact Hd|destruct (Hin d Hd); lia]). specialize (Hmax d Ho). lia. }
        subst c1.
        destruct (IH (r + 1) (Z.of_nat (List.length (of_name ns "CELL" (x_children e)))) n g1 cs P1 HO' ltac:(lia) ltac:(lia) HR1 HN1 HP1' ltac:(lia) ltac:(right; reflexivity))
          as (l & P' & HL & HX). exists l, P'. split; [|exact HX]. econstructor; [exact Hask|exact Hp|destruct HT; lia| |exact HL].
        apply covered_none. intros [x y] Hk Hfr. unfold covers in Hk. cbn in Hk.
        destruct (Hcov x y ltac:(lia) ltac:(lia)) as (d & Hd & Hcv).
        refine (proj1 (laid_free g1 P1 _ HR1) Hfr d _ Hcv). apply HP1'. split; [exact Hd|]. unfold covers in Hcv. cbn in Hcv. lia.
      + destruct (laid_bounds r g P ltac:(lia) HR HP) as (bb & Hbb & Hb1 & Hb2).
        assert (Hes : Forall2 asked [c] [notes_request ns cns em e n]) by (constructor; [exact Hask|constructor]).
        destruct (seated_tiling (r + 1) [c] _ c0 [] g P Hes) as (c1 & g1 & P1 & Hp & HR1 & HN1 & HP1 & Hc1 & Hmax).
        { cbn. constructor; [constructor|constructor]. }
        { exact Hmem. }
        { exact HR. }
        { exact HN. }
        { intros d. rewrite HP. cbn [In]. split; intros [Hc Hx]; (split; [exact Hc|]); [left|destruct Hx as [Hx|[]]]; lia. }
        { exact Hc0. }
        assert (c1 = n) as -> by lia. cbn [app] in HP1.
        assert (HP1' : forall c, In c P1 <-> In c cells /\ row_of c <= r + 1).
        { intros d. rewrite HP1, Hmem. split; [intros [Hc [Hx|[_ Hx]]]; (split; [exact Hc|lia])|]. intros [Hc Hx]. split; [exact Hc|].
          destruct (Z_lt_ge_dec (row_of d) (r + 1)); [left; assumption|right; split; [exact Hc|lia]]. }
        destruct (IH (r + 1) 0 n g1 cs P1 HO' ltac:(lia) ltac:(lia) HR1 HN1 HP1' ltac:(lia) ltac:(right; reflexivity)) as (l & P' & HL & HX).
        exists l, P'. split; [|exact HX]. econstructor; [exact Hbb| |exact HL]. rewrite Hb1, Hb2. replace (n - 1 + 1) with n by lia. exact Hp.
  Qed.

  Lemma flays_specs specs : forall i k g cs, Forall2 (describes_column cns) (zrange i (i + Z.of_nat (List.length specs))) specs -> 1 <= i ->
    exists cs', flays ns cns em true (map FColumn specs) (MkFLayout 0 k (i - 1) g cs)
      (MkFLayout 0 (k + Z.of_nat (List.length specs)) (i - 1 + Z.of_nat (List.length specs)) g cs').
  Proof.
    induction specs as [|e specs IH]; intros i k g cs H Hi; cbn [List.length map] in *.
    - exists cs. replace (k + Z.of_nat 0) with k by lia. replace (i - 1 + Z.of_nat 0) with (i - 1) by lia. constructor.
    - rewrite zrange_cons in H by lia. replace (i + Z.of_nat (S (List.length specs))) with (i + 1 + Z.of_nat (List.length specs)) in H by lia.
      inversion H as [|? ? ? ? H1 H2]; subst.
      destruct (IH (i + 1) (k + 1) g (looks_with cns i e cs) H2 ltac:(lia)) as (cs' & HL). exists cs'.
      econstructor; [apply number_given, H1|].
      replace (Z.max (i - 1) i) with (i + 1 - 1) by lia. replace (k + Z.of_nat (S (List.length specs))) with (k + 1 + Z.of_nat (List.length specs)) by lia.
      replace (i - 1 + Z.of_nat (S (List.length specs))) with (i + 1 - 1 + Z.of_nat (List.length specs)) by lia. exact HL.
  Qed.

  Lemma flaid_out_tiling b before e specs its : fitems ns cns b before e = map FColumn specs ++ its ->
    (specs = [] \/ Forall2 (describes_column cns) (zrange 1 (n + 1)) specs) -> lines_ok 0 its -> Z.of_nat (List.length its) = m ->
    exists l g P, flaid_out ns cns em true b before e l g /\ f_cols l = n /\ Forall2 laid g P /\ Permutation P cells.
  Proof.
    intros Eit Hspecs HO Hlen.
    assert (HL1 : exists k c0 cs', flays ns cns em true (map FColumn specs) no_layout (MkFLayout 0 k c0 [] cs') /\ c0 <= n).
    { destruct Hspecs as [->|Hspecs]; [exists 0, 0; eexists; split; [constructor|destruct HT; lia]|].
      assert (El : Z.of_nat (List.length specs) = n).
      { pose proof (Forall2_len _ _ _ Hspecs) as HE. rewrite zrange_length in HE. destruct HT. lia. }
      replace (n + 1) with (1 + Z.of_nat (List.length specs)) in Hspecs by lia.
      destruct (flays_specs specs 1 0 [] (fun _ => no_look) Hspecs ltac:(lia)) as (cs' & HL1). rewrite El in HL1.
      do 3 eexists. split; [exact HL1|]. lia. }
    destruct HL1 as (k0 & c0 & cs' & HL1 & Hc0).
    destruct (flays_tiling its 0 k0 c0 [] cs' [] HO ltac:(lia) ltac:(lia) (Forall2_nil _) (NoDup_nil _)) as (l & P & HL & Hc & HR & HN & HP & _).
    { intros c. cbn [In]. split; [intros []|]. intros [Hc Hr]. destruct (Hin c Hc). lia. }
    { exact Hc0. }
    { left. reflexivity. }
    assert (Hperm : Permutation P cells).
    { apply NoDup_Permutation; [exact HN| |exact HP]. destruct HT as (_ & _ & HV & HNO & _). apply no_overlap_NoDup; assumption. }
    exists l, (f_tiles l), P. split; [|auto]. split; [rewrite Eit; eapply flays_app; eassumption|].
    destruct (laid_bounds m (f_tiles l) P) as (bb & Hbb & _).
    { destruct HT as (? & ? & _). lia. }
    { exact HR. }
    { intros c. rewrite HP. split; [|intros [H _]; exact H]. intros H. split; [exact H|]. destruct (Hin c H). pose proof (Hval c H) as HV. unfold valid in HV. lia. }
    exists bb. split; [exact Hbb|]. apply covered_none. intros k Hk.
    assert (Hk' : covers (MkBox (Coord 1 1) (Coord n m)) k).
    { destruct Hbb as (_ & _ & Hl). apply (Hl (MkBox (Coord 1 1) (Coord n m))); [destruct HT as (? & ? & _); unfold valid; cbn; lia| |exact Hk].
      intros d Hd. apply (in_map c_box) in Hd. rewrite (laid_boxes _ _ HR) in Hd. apply in_map_iff in Hd as (d' & <- & Hd').
      destruct HT as (_ & _ & _ & _ & HS & _). apply HS, HP, Hd'. }
    destruct HT as (_ & _ & _ & _ & _ & HC). destruct (HC k Hk') as (c & Hcc & Hcv).
    rewrite (laid_free _ _ _ HR). intros Hx. apply (Hx c); [apply HP, Hcc|exact Hcv].
  Qed.
End Tiling.
