(** * Writing a table and reading it back: the layout *)
From Coq Require Import QArith.
From Verif Require Import Base M_Geometry M_Xml M_Cell M_Grid M_Table M_Str M_Units M_Builder M_Cals M_CalsParser.
From Verif Require Import S_Geometry S_Grid S_Table S_Units S_Builder S_Cals S_Int S_CalsParser S_RoundTrip.
From Verif Require Import P_Geometry P_Grid P_GridFacts P_Table P_TableFacts P_TableMore P_Str P_Int P_Cals P_CalsParser P_CalsLayout P_CalsEvents P_CalsSim P_CalsTable P_CalsMore.
Open Scope list_scope.
Open Scope Z_scope.

Notation row_of c := (cy (bmin (c_box c))).
Notation col_of c := (cx (bmin (c_box c))).

(** ** Trees *)

Lemma set_tail_children n x : x_children (x_set_tail n x) = x_children n.
Proof. destruct n; reflexivity. Qed.
Lemma set_tail_tag n x : x_tag (x_set_tail n x) = x_tag n.
Proof. destruct n; reflexivity. Qed.
Lemma foreign_tail ns n x : foreign ns (x_set_tail n x) -> foreign ns n.
Proof.
  intros H. inversion H as [? H1 H2]; subst. constructor.
  - intros (name & Hin & Hn). apply H1. exists name. split; [exact Hin|]. unfold named. rewrite set_tail_tag. exact Hn.
  - intros c Hc. apply H2. rewrite set_tail_children. exact Hc.
Qed.
Lemma foreign_hosts ns n : foreign ns n -> hosts ns n.
Proof. induction 1 as [n Hn _ IH]. apply hosts_other; assumption. Qed.
Lemma foreign_nests ns n : foreign ns n -> ~ nests ns n.
Proof.
  induction 1 as [n Hn _ IH]. intros H. inversion H as [? Ht|? c Hc Hne]; subst.
  - apply Hn. exists "table"%string. split; [cbn; tauto|exact Ht].
  - exact (IH c Hc Hne).
Qed.
Lemma foreign_pi ns a b c : foreign ns (XPI a b c).
Proof. constructor; [intros (name & _ & H); discriminate|intros x []]. Qed.

Lemma entry_child e n : In n (x_children e) -> In (Node (x_set_tail n None)) (elem_pieces e).
Proof.
  intros H. unfold elem_pieces. apply in_app_iff. right. apply in_flat_map. exists n. split; [exact H|]. left. reflexivity.
Qed.
Lemma entry_children ns cells c e : plain_contents ns cells -> In c cells -> describes_cell ns c e ->
  forall n, In n (x_children e) -> foreign ns n.
Proof.
  intros HP Hc (_ & _ & _ & Ep) n Hn. apply (foreign_tail ns n None). apply (HP c); [exact Hc|]. rewrite <- Ep. apply entry_child, Hn.
Qed.
Lemma content_read e : content_pieces (content_of e) = elem_pieces e.
Proof.
  unfold content_of, elem_pieces. cbn [content_pieces]. rewrite flat_map_app. f_equal.
  - unfold text_of. destruct (x_text e) as [[|a s]|]; [reflexivity| |reflexivity]. cbn [flat_map content_pieces]. apply app_nil_r.
  - induction (x_children e) as [|n l IH]; cbn; [reflexivity|]. f_equal. f_equal. exact IH.
Qed.

(** ** Spans *)

Lemma digit_c : forall c, In c (list_ascii_of_string "c") -> ~ digit c.
Proof. intros c [<-|[]]. vm_compute. intuition discriminate. Qed.
Lemma described_span ns c e k : describes_cell ns c e -> valid (c_box c) -> 0 <= col_of c ->
  entry_span ns e k (cx (bmax (c_box c)) - col_of c + 1) (cy (bmax (c_box c)) - row_of c + 1).
Proof.
  intros (_ & _ & H & _) HV H0. destruct (c_box c) as [[x1 y1] [x2 y2]]. cbn in *. unfold valid in HV. cbn in HV. destruct H as (H1 & H2 & H3 & H4). split.
  - destruct (Z_lt_ge_dec x1 x2) as [Hlt|Hge].
    + destruct (H1 Hlt) as [E1 E2]. exists x1, x2. unfold names_column. rewrite E1, E2.
      split; [apply (first_number_column "c"); [apply digit_c|lia]|]. split; [apply (first_number_column "c"); [apply digit_c|lia]|]. lia.
    + destruct (H2 ltac:(lia)) as [E1 E2]. exists k, k. unfold names_column. rewrite E1, E2. split; [reflexivity|]. split; [reflexivity|]. lia.
  - destruct (Z_lt_ge_dec y1 y2) as [Hlt|Hge].
    + rewrite (H3 Hlt). replace (y2 - y1 + 1 - 1) with (y2 - y1) by lia. apply int_text_str.
    + rewrite (H4 ltac:(lia)). lia.
Qed.

(** ** The layout of a tiling *)

Lemma overlap_two cells c d : no_overlap cells -> In c cells -> In d cells -> c <> d -> ~ overlap (c_box c) (c_box d).
Proof.
  intros H Hc Hd Hne HO. pose proof (ForallOrdPairs_In H c d Hc Hd) as [E|[HX|HX]]; [congruence|exact (HX HO)|].
  apply HX. destruct HO as (k & H1 & H2). exists k. auto.
Qed.
Lemma no_overlap_NoDup cells : all_valid cells -> no_overlap cells -> NoDup cells.
Proof.
  intros HV H. induction H as [|c cells Hc H IH]; [constructor|]. inversion HV as [|? ? V1 V2]; subst. constructor; [|apply IH, V2].
  intros Hin. rewrite Forall_forall in Hc. apply (Hc c Hin). exists (bmin (c_box c)). unfold valid in V1. unfold covers. lia.
Qed.

Lemma Forall2_len {A B} (R : A -> B -> Prop) l l' : Forall2 R l l' -> List.length l = List.length l'.
Proof. induction 1; cbn; congruence. Qed.
Lemma zrange_cons a b : a < b -> zrange a b = a :: zrange (a + 1) b.
Proof.
  intros H. unfold zrange. replace (Z.to_nat (b - a)) with (S (Z.to_nat (b - (a + 1)))) by lia. cbn [seq map].
  f_equal; [lia|]. rewrite <- seq_shift, map_map. apply map_ext. intros i. lia.
Qed.

Section Tiling.
  Variable ns : option string.
  Variable D : cell -> xnode -> Prop.
  Variable cells : list cell.
  Variable natf : Z -> string.
  Variables n m : Z.
  Hypothesis HD : forall c e, D c e -> describes_cell ns c e.
  Hypothesis HT : tiles cells n m.
  Hypothesis Hplain : plain_contents ns cells.

  Definition shown_by (s : spot) (c : cell) : Prop :=
    exists en, s = (Some en, bare (content_of en) (Some (natf (row_of c))) (c_box c)) /\ D c en.

  Let Hval : forall c, In c cells -> valid (c_box c).
  Proof. destruct HT as (_ & _ & HV & _). unfold all_valid in HV. rewrite Forall_forall in HV. exact HV. Qed.
  Let Hin : forall c, In c cells -> 1 <= col_of c /\ cx (bmax (c_box c)) <= n /\ 1 <= row_of c /\ cy (bmax (c_box c)) <= m.
  Proof.
    intros c Hc. destruct HT as (_ & _ & _ & _ & HS & _). pose proof (Hval c Hc) as HV. unfold valid in HV.
    pose proof (HS c Hc (bmin (c_box c))) as H1. pose proof (HS c Hc (bmax (c_box c))) as H2. unfold covers in *. cbn in H1, H2. lia.
  Qed.
  Let Hone : forall c d k, In c cells -> In d cells -> covers (c_box c) k -> covers (c_box d) k -> c = d.
  Proof.
    intros c d k Hc Hd H1 H2. destruct HT as (_ & _ & _ & HO & _).
    destruct (ForallOrdPairs_In HO c d Hc Hd) as [E|[HX|HX]]; [exact E| |]; exfalso; apply HX; exists k; auto.
  Qed.
  Let Hcov : forall x y, 1 <= x <= n -> 1 <= y <= m -> exists c, In c cells /\ covers (c_box c) (Coord x y).
  Proof. intros x y H1 H2. destruct HT as (_ & _ & _ & _ & _ & HC). apply HC. unfold covers. cbn. lia. Qed.

  Lemma shown_boxes g P : Forall2 shown_by g P -> map c_box (map snd g) = map c_box P.
  Proof. induction 1 as [|s c g P (en & -> & _) H IH]; [reflexivity|]. cbn. f_equal. exact IH. Qed.
  Lemma shown_free g P k : Forall2 shown_by g P -> (free (map snd g) k <-> forall c, In c P -> ~ covers (c_box c) k).
  Proof.
    intros H. pose proof (shown_boxes g P H) as E. unfold free. split; intros HX d Hd HC.
    - apply (in_map c_box) in Hd. rewrite <- E in Hd. apply in_map_iff in Hd as (d' & Ed & Hd'). apply (HX d' Hd'). rewrite Ed. exact HC.
    - apply (in_map c_box) in Hd. rewrite E in Hd. apply in_map_iff in Hd as (d' & Ed & Hd'). apply (HX d' Hd'). rewrite Ed. exact HC.
  Qed.

  Lemma clash_overlap a b : valid a -> valid b -> clash a b -> overlap a b.
  Proof.
    intros Va Vb H. unfold valid in *.
    unfold clash in H. destruct H as [H|[H|[H|H]]]; [exists (bmin a)|exists (bmax a)|exists (bmin b)|exists (bmax b)]; split; try exact H; unfold covers; lia.
  Qed.

  Lemma placed_tiling r todo : forall es k done g P,
    Forall2 D todo es -> StronglySorted (fun a b => col_of a < col_of b) (done ++ todo) ->
    (forall c, In c (done ++ todo) <-> In c cells /\ row_of c = r) ->
    Forall2 shown_by g P -> NoDup P -> (forall c, In c P <-> In c cells /\ (row_of c < r \/ In c done)) ->
    exists g' P', placed ns true r (Some (natf r)) k es n g n g' /\ Forall2 shown_by g' P' /\ NoDup P' /\
      (forall c, In c P' <-> In c cells /\ (row_of c < r \/ In c (done ++ todo))).
  Proof.
    induction todo as [|c todo IH]; intros es k done g P Hes Hsort Hmem HR HN HP.
    - inversion Hes; subst. exists g, P. split; [constructor|]. split; [exact HR|]. split; [exact HN|]. rewrite app_nil_r. exact HP.
    - inversion Hes as [|? e ? es' Hce Hes']; subst.
      assert (Hc : In c cells /\ row_of c = r) by (apply Hmem, in_app_iff; right; left; reflexivity). destruct Hc as [Hc Er].
      pose proof (Hval c Hc) as HV. destruct (Hin c Hc) as (B1 & B2 & B3 & B4). unfold valid in HV.
      assert (Hnd : ~ In c P).
      { intros Hx. apply HP in Hx as [_ [Hx|Hx]]; [lia|]. apply in_split in Hx as (l1 & l2 & ->).
        rewrite <- app_assoc in Hsort. clear - Hsort. induction l1 as [|a l1 IHl]; cbn in Hsort; inversion Hsort as [|? ? HS HF]; subst; [|exact (IHl HS)].
        rewrite Forall_forall in HF. assert (Hx : In c (l2 ++ c :: todo)) by (apply in_app_iff; right; left; reflexivity). specialize (HF c Hx). cbn in HF. lia. }
      assert (Hearly : forall d, In d cells -> row_of d = r -> col_of d < col_of c -> In d done).
      { intros d Hd Hr Hlt. assert (Hx : In d (done ++ c :: todo)) by (apply Hmem; auto). apply in_app_iff in Hx as [Hx|[->|Hx]]; [exact Hx|lia|].
        exfalso. clear - Hsort Hx Hlt. induction done as [|a l IHl]; cbn in Hsort; inversion Hsort as [|? ? HS HF]; subst; [|exact (IHl HS)].
        rewrite Forall_forall in HF. specialize (HF d Hx). cbn in HF. lia. }
      set (s := (Some e, bare (content_of e) (Some (natf r)) (c_box c)) : spot).
      assert (Hseat : seat Rows r (col_of c) (cx (bmax (c_box c)) - col_of c + 1) (cy (bmax (c_box c)) - row_of c + 1) = c_box c).
      { clear - Er. destruct (c_box c) as [[x1 y1] [x2 y2]]. cbn in *. subst r. do 2 f_equal; lia. }
      destruct (IH es' (k + 1) (done ++ [c]) (s :: g) (c :: P)) as (g' & P' & H1 & H2 & H3 & H4).
      + exact Hes'.
      + rewrite <- app_assoc. exact Hsort.
      + rewrite <- app_assoc. exact Hmem.
      + constructor; [exists e; unfold s; rewrite Er; auto|exact HR].
      + constructor; assumption.
      + intros d. cbn [In]. rewrite HP, in_app_iff. cbn [In]. split.
        * intros [<-|[Hd [Hlt|Hdn]]]; auto.
        * intros [Hd [Hlt|[Hdn|[->|[]]]]]; auto.
      + exists g', P'. split; [|split; [exact H2|split; [exact H3|rewrite <- app_assoc in H4; exact H4]]].
        eapply (placed_cons ns true r (Some (natf r)) k e es' n g (col_of c)).
        * apply described_span; [apply HD, Hce|exact (Hval c Hc)|lia].
        * lia.
        * lia.
        * split; [lia|]. cbn [place]. split.
          -- apply (shown_free g P); [exact HR|]. intros d Hd Hcv. apply Hnd.
             assert (Ed : d = c); [|subst d; exact Hd].
             apply (Hone d c (Coord (col_of c) r)); [apply HP in Hd; apply Hd|exact Hc|exact Hcv|]. unfold covers. cbn. lia.
          -- intros j Hj Hfr. destruct (Hcov j r ltac:(lia) ltac:(lia)) as (d & Hd & Hcv).
             assert (HdP : In d P).
             { apply HP. split; [exact Hd|]. unfold covers in Hcv. cbn in Hcv.
               destruct (Z_lt_ge_dec (row_of d) r) as [Hlt|Hge]; [left; exact Hlt|right]. apply Hearly; [exact Hd|lia|lia]. }
             exact (proj1 (shown_free g P (Coord j r) HR) Hfr d HdP Hcv).
        * rewrite Hseat. intros d Hd Hcl. apply (in_map c_box) in Hd. rewrite (shown_boxes g P HR) in Hd.
          apply in_map_iff in Hd as (d' & Ed & Hd'). rewrite <- Ed in Hcl. assert (Hd2 : In d' cells) by (apply HP in Hd'; apply Hd').
          apply (clash_overlap _ _ (Hval d' Hd2) (Hval c Hc)) in Hcl as (kk & K1 & K2).
          pose proof (Hone d' c kk Hd2 Hc K1 K2) as ->. contradiction.
        * rewrite Hseat. apply settled_plain. intros (_ & x & Hx & Hne).
          exact (foreign_nests ns x (entry_children ns cells c e Hplain Hc (HD c e Hce) x Hx) Hne).
        * replace (Z.max n (col_of c + (cx (bmax (c_box c)) - col_of c + 1) - 1)) with n by lia. exact H1.
  Qed.

  (** The items of the rows from [r + 1] on *)
  Inductive rows_ok : Z -> list item -> Prop :=
  | ro_nil r : rows_ok r []
  | ro_row r sec row its own :
      Forall2 D own (of_name ns "entry" (x_children row)) -> StronglySorted (fun a b => col_of a < col_of b) own ->
      (forall c, In c own <-> In c cells /\ row_of c = r + 1) ->
      rows_ok (r + 1) its -> rows_ok r (Row (natf (r + 1)) sec row :: its).

  Lemma lays_tiling its : forall r k g cs P, rows_ok r its -> Z.of_nat (List.length its) = m - r -> 0 <= r ->
    Forall2 shown_by g P -> NoDup P -> (forall c, In c P <-> In c cells /\ row_of c <= r) ->
    exists l P', lays ns true its (MkLayout r k n g cs) l /\ l_cols l = n /\ Forall2 shown_by (l_spots l) P' /\ NoDup P' /\
      forall c, In c P' <-> In c cells.
  Proof.
    induction its as [|it its IH]; intros r k g cs P HO Hlen H0 HR HN HP.
    - exists (MkLayout r k n g cs), P. split; [constructor|]. split; [reflexivity|]. split; [exact HR|]. split; [exact HN|].
      intros c. rewrite HP. cbn in Hlen. split; [intros [H _]; exact H|]. intros Hc. split; [exact Hc|].
      destruct (Hin c Hc) as (_ & _ & B3 & B4). pose proof (Hval c Hc) as HV. unfold valid in HV. lia.
    - inversion HO as [|? sec row ? own Hes Hsort Hmem HO']; subst. cbn [List.length] in Hlen.
      destruct (placed_tiling (r + 1) own _ 0 [] g P Hes Hsort Hmem HR HN) as (g1 & P1 & Hp & HR1 & HN1 & HP1).
      { intros c. rewrite HP. cbn [In]. split; intros [Hc Hx]; (split; [exact Hc|]); [left|destruct Hx as [Hx|[]]]; lia. }
      cbn [app] in HP1.
      assert (HP1' : forall c, In c P1 <-> In c cells /\ row_of c <= r + 1).
      { intros c. rewrite HP1, Hmem. split; [intros [Hc [Hx|[_ Hx]]]; (split; [exact Hc|lia])|]. intros [Hc Hx]. split; [exact Hc|].
        destruct (Z_lt_ge_dec (row_of c) (r + 1)); [left; assumption|right; split; [exact Hc|lia]]. }
      destruct (IH (r + 1) (Z.of_nat (List.length (of_name ns "entry" (x_children row)))) g1 cs P1 HO' ltac:(lia) ltac:(lia) HR1 HN1 HP1')
        as (l & P' & HL & Hcols & HR' & HN' & HP').
      exists l, P'. split; [|auto]. econstructor; [exact Hp|destruct HT; lia| |exact HL].
      apply filled_none. intros [x y] Hk Hfr. unfold covers in Hk. cbn in Hk. destruct (Hcov x y ltac:(lia) ltac:(lia)) as (d & Hd & Hcv).
      refine (proj1 (shown_free g1 P1 _ HR1) Hfr d _ Hcv). apply HP1'. split; [exact Hd|]. unfold covers in Hcv. cbn in Hcv. lia.
  Qed.

  (** ** Columns *)

  Lemma number_given e i k : describes_column ns i e -> column_number ns e k i.
  Proof.
    intros (_ & E & _). unfold column_number. rewrite E. pose proof (int_text_str i) as H. destruct (py_str_int i); [|exact H].
    apply py_int_spec in H. discriminate.
  Qed.
  Lemma lays_specs specs : forall i k g cs, Forall2 (describes_column ns) (zrange i (i + Z.of_nat (List.length specs))) specs -> 1 <= i ->
    exists cs', lays ns true (map Column specs) (MkLayout 0 k (i - 1) g cs)
      (MkLayout 0 (k + Z.of_nat (List.length specs)) (i - 1 + Z.of_nat (List.length specs)) g cs').
  Proof.
    induction specs as [|e specs IH]; intros i k g cs H Hi; cbn [List.length map] in *.
    - exists cs. replace (k + Z.of_nat 0) with k by lia. replace (i - 1 + Z.of_nat 0) with (i - 1) by lia. constructor.
    - rewrite zrange_cons in H by lia. replace (i + Z.of_nat (S (List.length specs))) with (i + 1 + Z.of_nat (List.length specs)) in H by lia.
      inversion H as [|? ? ? ? H1 H2]; subst.
      destruct (IH (i + 1) (k + 1) g (colstyles_with ns i e cs) H2 ltac:(lia)) as (cs' & HL). exists cs'.
      econstructor; [apply number_given, H1|].
      replace (Z.max (i - 1) i) with (i + 1 - 1) by lia. replace (k + Z.of_nat (S (List.length specs))) with (k + 1 + Z.of_nat (List.length specs)) by lia.
      replace (i - 1 + Z.of_nat (S (List.length specs))) with (i + 1 - 1 + Z.of_nat (List.length specs)) by lia. exact HL.
  Qed.

  Lemma laid_out_tiling e specs its : items ns e = map Column specs ++ its ->
    Forall2 (describes_column ns) (zrange 1 (n + 1)) specs -> rows_ok 0 its -> Z.of_nat (List.length its) = m ->
    exists l g P, laid_out ns true e l g /\ l_cols l = n /\ Forall2 shown_by g P /\ Permutation P cells.
  Proof.
    intros Eit Hspecs HO Hlen.
    assert (El : Z.of_nat (List.length specs) = n).
    { pose proof (Forall2_len _ _ _ Hspecs) as HE. rewrite zrange_length in HE. destruct HT. lia. }
    replace (n + 1) with (1 + Z.of_nat (List.length specs)) in Hspecs by lia.
    destruct (lays_specs specs 1 0 [] (fun _ _ => None) Hspecs ltac:(lia)) as (cs' & HL1). rewrite El in HL1.
    replace (1 - 1) with 0 in HL1 by lia. replace (0 + n) with n in HL1 by lia.
    destruct (lays_tiling its 0 n [] cs' [] HO ltac:(lia) ltac:(lia) (Forall2_nil _) (NoDup_nil _)) as (l & P & HL & Hc & HR & HN & HP).
    { intros c. cbn [In]. split; [intros []|]. intros [Hc Hr]. destruct (Hin c Hc). lia. }
    assert (Hperm : Permutation P cells).
    { apply NoDup_Permutation; [exact HN| |exact HP]. destruct HT as (_ & _ & HV & HNO & _). apply no_overlap_NoDup; assumption. }
    exists l, (l_spots l), P. split; [|auto]. split; [rewrite Eit; eapply lays_app; eassumption|].
    assert (HV : all_valid (map snd (l_spots l))).
    { apply Forall_forall. intros d Hd. apply (in_map c_box) in Hd. rewrite (shown_boxes _ _ HR) in Hd. apply in_map_iff in Hd as (d' & <- & Hd'). apply Hval, HP, Hd'. }
    assert (Hne : map snd (l_spots l) <> []).
    { destruct HT as (Hn & Hm & _). destruct (Hcov 1 1 ltac:(lia) ltac:(lia)) as (c & Hcc & _). apply HP in Hcc. intros E.
      pose proof (shown_boxes _ _ HR) as Eb. rewrite E in Eb. destruct P; [destruct Hcc|discriminate]. }
    destruct (bounds_exist _ HV Hne) as (bb & Hbb). exists bb. split; [exact Hbb|]. apply filled_none. intros k Hk.
    assert (Hk' : covers (MkBox (Coord 1 1) (Coord n m)) k).
    { destruct Hbb as (_ & _ & Hl). apply (Hl (MkBox (Coord 1 1) (Coord n m))); [destruct HT as (? & ? & _); unfold valid; cbn; lia| |exact Hk].
      intros d Hd. apply (in_map c_box) in Hd. rewrite (shown_boxes _ _ HR) in Hd. apply in_map_iff in Hd as (d' & <- & Hd').
      destruct HT as (_ & _ & _ & _ & HS & _). apply HS, HP, Hd'. }
    destruct HT as (_ & _ & _ & _ & _ & HC). destruct (HC k Hk') as (c & Hcc & Hcv).
    rewrite (shown_free _ _ _ HR). intros Hx. apply (Hx c); [apply HP, Hcc|exact Hcv].
  Qed.
End Tiling.

(** ** The items of a generated table *)

Lemma has_name_eq ns name n x : named ns name n -> has_name ns x n = String.eqb name x.
Proof.
  intros H. unfold has_name, x_has_tag. unfold named in H. destruct n as [tag at0 tx ch tl|? ? ?|? ?]; try discriminate H. cbn in H. injection H as ->.
  destruct (String.eqb_spec name x) as [->|Hne]; [apply String.eqb_refl|]. apply String.eqb_neq. intros E. apply Hne.
  set (n := XElem (expanded ns name) at0 tx ch tl). apply (named_fun (MkPCalsOpts ns "mm" (fun _ => ""%string)) name x n); [reflexivity|]. unfold named. cbn. rewrite E. reflexivity.
Qed.
Lemma of_name_all ns name l : (forall n, In n l -> named ns name n) -> of_name ns name l = l.
Proof.
  induction l as [|n l IH]; intros H; [reflexivity|]. cbn. assert (E : x_has_tag n (expanded ns name) = true).
  { change (has_name ns name n = true). rewrite (has_name_eq ns name n name (H n (or_introl eq_refl))). apply String.eqb_refl. }
  rewrite E. f_equal. apply IH. intros x Hx. apply H. right. exact Hx.
Qed.

Section Items.
  Variable ns : option string.
  Variable D : cell -> xnode -> Prop.
  Hypothesis HD : forall c e, D c e -> describes_cell ns c e.

  Lemma Forall2_In_r {A B} (R : A -> B -> Prop) l l' b : Forall2 R l l' -> In b l' -> exists a, In a l /\ R a b.
  Proof.
    induction 1 as [|a b' l l' HR H IH]; intros Hb; [destruct Hb|]. destruct Hb as [<-|Hb]; [exists a; split; [left; reflexivity|exact HR]|].
    destruct (IH Hb) as (a' & Ha & Hr). exists a'. split; [right; exact Ha|exact Hr].
  Qed.

  Definition row_item (v : view) (it : item) : Prop :=
    exists sec row, it = Row (kept_nature (v_nature v)) sec row /\ Forall2 D (v_owned v) (of_name ns "entry" (x_children row)).

  Lemma section_rows vs items : Forall2 (row_with D ns) vs items -> forall na sec, (forall v, In v vs -> kept_nature (v_nature v) = na) ->
    Forall2 row_item vs (map (Row na sec) (of_name ns "row" (List.concat items))).
  Proof.
    induction 1 as [|v it vs items (row & Hn & _ & _ & HF & Hit) H IH]; intros na sec Hna; [constructor|].
    cbn [List.concat]. unfold of_name in *. rewrite filter_app, map_app.
    assert (E : filter (fun e => x_has_tag e (expanded ns "row")) it = [row]).
    { assert (Er : x_has_tag row (expanded ns "row") = true).
      { change (has_name ns "row" row = true). rewrite (has_name_eq ns "row" row "row" Hn). reflexivity. }
      destruct (dget (v_styles v) "x-ins"); [destruct Hit as (a & b & ->)|subst it]; cbn; rewrite Er; reflexivity. }
    rewrite E. cbn [map app]. constructor.
    - exists sec, row. rewrite (Hna v (or_introl eq_refl)). split; [reflexivity|]. rewrite of_name_all; [exact HF|].
      intros x Hx. destruct (Forall2_In_r _ _ _ x HF Hx) as (c & _ & Hc). apply (HD c x Hc).
    - apply IH. intros x Hx. apply Hna. right. exact Hx.
  Qed.
  Lemma section_items s sec : section_with D ns s sec -> Forall2 row_item (snd s) (part_items ns sec).
  Proof.
    intros (Hn & _ & _ & _ & Hna & items & HF & Hc). unfold part_items. rewrite !(has_name_eq ns _ sec _ Hn), Hc.
    unfold section_of in *. destruct (fst s) as [x|] eqn:Ex.
    - destruct (String.eqb x "header") eqn:E1; [|destruct (String.eqb x "footer") eqn:E2]; cbn [String.eqb Ascii.eqb Bool.eqb];
        apply section_rows; try exact HF; intros v Hv; rewrite (Hna v Hv); unfold kept_nature; [rewrite E1|rewrite E1, E2|rewrite E1, E2]; reflexivity.
    - cbn [String.eqb Ascii.eqb Bool.eqb]. apply section_rows; [exact HF|]. intros v Hv. rewrite (Hna v Hv). reflexivity.
  Qed.
  Lemma table_items n sections e : table_with D ns n sections e ->
    exists specs its, items ns e = map Column specs ++ its /\ Forall2 (describes_column ns) (zrange 1 (n + 1)) specs /\
      Forall2 row_item (List.concat (map snd sections)) its.
  Proof.
    intros (_ & tg & specs & bodies & Ec & Htg & _ & Etg & HS & HB). exists specs, (flat_map (part_items ns) bodies).
    split; [|split; [exact HS|]].
    - unfold items. rewrite Ec, of_name_all by (intros x [<-|[]]; exact Htg). cbn [flat_map]. rewrite app_nil_r, Etg, flat_map_app. f_equal.
      clear - HS. induction HS as [|i s l specs Hs H IH]; [reflexivity|]. cbn [flat_map map]. rewrite IH.
      unfold part_items. rewrite (has_name_eq ns "colspec" s _ (proj1 Hs)). reflexivity.
    - clear - HD HB. induction HB as [|s b sections bodies Hs H IH]; [constructor|]. cbn [map List.concat flat_map].
      apply Forall2_app; [apply section_items, Hs|exact IH].
  Qed.

  (** The generated tables are regular. *)
  Lemma table_regular cells n sections e : table_with D ns n sections e -> plain_contents ns cells -> 0 <= n ->
    (forall s v c, In s sections -> In v (snd s) -> In c (v_owned v) -> In c cells) -> regular ns e.
  Proof.
    intros (Hn & tg & specs & bodies & Ec & Htg & _ & Etg & HS & HB) HP H0 HC. split; [exact Hn|]. rewrite Ec. intros x [<-|[]]. right.
    split; [exact Htg|]. intros x Hx. rewrite Etg in Hx. apply in_app_iff in Hx as [Hx|Hx]; right; [left|right].
    - destruct (Forall2_In_r _ _ _ x HS Hx) as (i & Hi & H1 & H2 & _ & H3 & _). apply in_zrange in Hi. split; [exact H1|]. split; [rewrite H3; intros y []|].
      intros s m Hs Hm. rewrite H2 in Hs. injection Hs as <-. pose proof (int_text_fun _ _ _ Hm (int_text_str i)). lia.
    - destruct (Forall2_In_r _ _ _ x HB Hx) as (s & Hs & H1 & _ & _ & _ & _ & its & HF & Hch). split.
      + unfold is_section, section_of in *. destruct (fst s) as [y|]; [|auto]. destruct (String.eqb y "header"); [auto|]. destruct (String.eqb y "footer"); auto.
      + intros r Hr. rewrite Hch in Hr. apply in_concat in Hr as (it & Hit & Hr). destruct (Forall2_In_r _ _ _ it HF Hit) as (v & Hv & row & Hrn & _ & _ & HE & Eit).
        assert (Hrow : named ns "row" row /\ regular_row ns row).
        { split; [exact Hrn|]. intros en Hen. right. destruct (Forall2_In_r _ _ _ en HE Hen) as (c & Hc & Hd). split; [apply (HD c en Hd)|].
          intros y Hy. apply foreign_hosts. eapply entry_children; [exact HP|eapply HC; eauto|apply HD, Hd|exact Hy]. }
        destruct (dget (v_styles v) "x-ins"); [destruct Eit as (a & b & ->)|subst it].
        * destruct Hr as [<-|[<-|[<-|[]]]]; [left; apply foreign_pi|right; exact Hrow|left; apply foreign_pi].
        * destruct Hr as [<-|[]]. right. exact Hrow.
  Qed.
End Items.

(** ** The rows of the table *)

Lemma rows_ok_views ns D natf t its : treachable t -> rows_ordered t -> forall rows r, 0 <= r -> Forall2 (row_item ns D) rows its ->
  (forall i v, nth_error rows i = Some v -> reads Rows (r + Z.of_nat i + 1) t v /\ natf (r + Z.of_nat i + 1) = kept_nature (v_nature v)) ->
  rows_ok ns D (table_iter t) natf r its.
Proof.
  intros HR HO rows r H0 HF. revert r H0. induction HF as [|v it rows its (sec & row & -> & HD) HF IH]; intros r H0 HX; [constructor|].
  destruct (HX 0%nat v eq_refl) as [Hv Hna]. replace (r + Z.of_nat 0 + 1) with (r + 1) in * by lia. rewrite <- Hna.
  destruct (view_membership Rows (r + 1) t v HR ltac:(lia) Hv) as (_ & Hown & _).
  apply (ro_row ns D (table_iter t) natf r sec row its (v_owned v)).
  - exact HD.
  - exact (HO (r + 1) v ltac:(lia) Hv).
  - exact Hown.
  - apply IH; [lia|]. intros i w Hw. specialize (HX (S i) w Hw). replace (r + 1 + Z.of_nat i + 1) with (r + Z.of_nat (S i) + 1) by lia. exact HX.
Qed.

(** Sorted groups stay in place. *)
Lemma insert_by_head {A} (key : A -> Z) a l : (forall b, In b l -> key a <= key b) -> insert_by key a l = a :: l.
Proof. destruct l as [|b l]; [reflexivity|]. intros H. cbn. specialize (H b (or_introl eq_refl)). apply Z.leb_le in H. rewrite H. reflexivity. Qed.
Lemma sort_by_id {A} (key : A -> Z) l : StronglySorted (fun a b => key a <= key b) l -> sort_by key l = l.
Proof.
  induction 1 as [|a l HS IH HF]; [reflexivity|]. cbn [sort_by fold_right]. unfold sort_by in IH. rewrite IH. apply insert_by_head.
  rewrite Forall_forall in HF. exact HF.
Qed.
Lemma concat_sorted (key : nature -> Z) (gs : list (nature * list view)) :
  StronglySorted (fun u v => key (v_nature u) <= key (v_nature v)) (List.concat (map snd gs)) ->
  (forall g, In g gs -> snd g <> [] /\ forall v, In v (snd g) -> v_nature v = fst g) ->
  StronglySorted (fun a b => key (fst a) <= key (fst b)) gs.
Proof.
  induction gs as [|g gs IH]; intros HS HG; [constructor|]. cbn [map List.concat] in HS.
  destruct (HG g (or_introl eq_refl)) as [Hne Hna]. destruct (snd g) as [|u us] eqn:Eg; [congruence|]. cbn [app] in HS.
  inversion HS as [|? ? HS' HF]; subst. constructor.
  - apply IH; [|intros x Hx; apply HG; right; exact Hx]. clear - HS'. induction us as [|a us IH]; [exact HS'|]. cbn [app] in HS'. inversion HS'; subst. apply IH. assumption.
  - apply Forall_forall. intros x Hx. destruct (HG x (or_intror Hx)) as [Hnx Hnax]. destruct (snd x) as [|w ws] eqn:Exx; [congruence|].
    rewrite <- (Hna u (or_introl eq_refl)), <- (Hnax w (or_introl eq_refl)). rewrite Forall_forall in HF. apply HF. apply in_app_iff. right.
    apply in_concat. exists (snd x). split; [apply in_map, Hx|rewrite Exx; left; reflexivity].
Qed.
Lemma sorted_nth {A} (R : A -> A -> Prop) l : (forall i j a b, (i < j)%nat -> nth_error l i = Some a -> nth_error l j = Some b -> R a b) -> StronglySorted R l.
Proof.
  induction l as [|a l IH]; intros H; constructor.
  - apply IH. intros i j x y Hij Hx Hy. apply (H (S i) (S j)); [lia|exact Hx|exact Hy].
  - apply Forall_forall. intros b Hb. apply In_nth_error in Hb as (j & Hj). apply (H 0%nat (S j)); [lia|reflexivity|exact Hj].
Qed.
Lemma sections_stay o t rows : treachable t -> In "body"%string (co_sorting o) -> table_views Rows t = Ok rows ->
  rows_grouped (co_sorting o) t -> List.concat (map snd (sections_of o rows)) = rows.
Proof.
  intros HR HB Er HG. unfold sections_of. rewrite sort_by_id; [apply group_concat|].
  apply (concat_sorted (sorting_key (co_sorting o))); [|apply group_same]. rewrite group_concat. apply sorted_nth.
  intros i j u v Hij Hu Hv. destruct (table_views_spec _ _ _ HR Er) as [_ HX].
  destruct (sorting_key_rank (co_sorting o) (v_nature u) HB) as (ku & Hku). destruct (sorting_key_rank (co_sorting o) (v_nature v) HB) as (kv & Hkv).
  assert (Hj : (j < List.length rows)%nat) by (apply nth_error_Some; congruence).
  pose proof (HG (Z.of_nat (List.length rows)) (Z.of_nat i + 1) (Z.of_nat j + 1) u v ku kv (ex_intro _ rows (conj Er eq_refl)) ltac:(lia) ltac:(lia) (HX i u Hu) (HX j v Hv) Hku Hkv) as Hle.
  apply sorting_key_spec in Hku; [|exact HB]. apply sorting_key_spec in Hkv; [|exact HB]. lia.
Qed.
