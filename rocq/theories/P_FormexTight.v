(** * Nested Formex tables which come when the enclosing table has no hole *)
From Verif Require Import Base M_Geometry M_Xml M_Cell M_Grid M_Table M_Regex M_Str M_Units M_Cals M_CalsParser M_FormexParser M_FormexRead.
From Verif Require Import S_Geometry S_Grid S_Table S_Units S_Cals S_Int S_CalsParser S_FormexRead.
From Verif Require Import P_Geometry P_Cell P_Grid P_GridFacts P_Table P_TableStep P_TableFacts P_TableMore P_Units P_Str P_Cals P_Int P_CalsParser P_CalsLayout P_CalsEvents P_CalsSim P_CalsMore P_Reading P_FormexEvents P_FormexSim P_FormexMore.
Open Scope list_scope.
Open Scope Z_scope.

Lemma covered_none bb na g g' : (forall k, covers bb k -> ~ free (map snd g) k) -> covered bb na g g' -> g' = g.
Proof.
  intros H (ks & Hs & ->). destruct ks as [|k ks]; [reflexivity|]. exfalso.
  assert (K : In k (area bb) /\ free (map snd g) k) by (apply (selects_In _ _ _ k Hs); left; reflexivity).
  destruct K as [K1 K2]. apply area_in in K1. exact (H k K1 K2).
Qed.
Lemma none_covered bb na g : (forall k, covers bb k -> ~ free (map snd g) k) -> covered bb na g g.
Proof.
  intros H. exists []. split; [|reflexivity].
  assert (HX : forall l, (forall k, In k l -> covers bb k) -> selects (free (map snd g)) l []).
  { induction l as [|k l IH]; intros Hl; [constructor|]. apply sel_out; [apply H, Hl; left; reflexivity|]. apply IH. intros x Hx. apply Hl. right. exact Hx. }
  apply HX. intros k. apply area_in.
Qed.
Lemma settles_false ns e g g' : settles ns false e g g' -> g' = g.
Proof. intros [e0 n bb g1 H _ _ _ _ _|_]; [discriminate|reflexivity]. Qed.
Lemma false_settles ns e g : settles ns false e g g.
Proof. apply settles_plain. intros [H _]. discriminate H. Qed.
Lemma holds_dec ns n : holds_corpus ns n \/ ~ holds_corpus ns n.
Proof.
  induction n as [tag at0 text children tail IH|? ? ?|? ?] using xnode_ind'.
  - destruct (named_dec ns "CORPUS" (XElem tag at0 text children tail)) as [H|H]; [left; apply holds_here, H|].
    assert (D : (exists c, In c children /\ holds_corpus ns c) \/ ~ (exists c, In c children /\ holds_corpus ns c)).
    { clear H. induction IH as [|c l Hc _ IHl]; [right; intros (c & [] & _)|]. destruct Hc as [Hc|Hc]; [left; exists c; split; [left; reflexivity|exact Hc]|].
      destruct IHl as [(d & Hd & Hd')|Hno]; [left; exists d; split; [right; exact Hd|exact Hd']|]. right. intros (d & [<-|Hd] & Hd'); [contradiction|]. apply Hno. eauto. }
    destruct D as [(c & Hc & Hn)|Hno]; [left; eapply holds_below; eauto|]. right. intros HN. inversion HN as [? Ht|? c Hc Hn]; subst; [contradiction|]. apply Hno. eauto.
  - right. intros HN. inversion HN as [? Ht|? c Hc Hn]; subst; [discriminate Ht|destruct Hc].
  - right. intros HN. inversion HN as [? Ht|? c Hc Hn]; subst; [discriminate Ht|destruct Hc].
Qed.
Lemma has_corpus_dec ns e : has_corpus ns e \/ ~ has_corpus ns e.
Proof.
  unfold has_corpus. induction (x_children e) as [|c l IH]; [right; intros (n & [] & _)|]. destruct (holds_dec ns c) as [Hc|Hc]; [left; exists c; split; [left; reflexivity|exact Hc]|].
  destruct IH as [(n & H1 & H2)|H]; [left; exists n; split; [right; exact H1|exact H2]|]. right. intros (n & [<-|H1] & H2); [contradiction|]. apply H. eauto.
Qed.
(** nothing happens when there is no hole *)
Lemma settles_full ns e g g' : (forall e0, e = Some e0 -> has_corpus ns e0 -> no_hole (map snd g)) -> settles ns true e g g' -> g' = g.
Proof.
  intros H [e0 n bb g1 _ He Hin Hn Hb Hc|_]; [|reflexivity]. apply (covered_none bb None); [|exact Hc]. intros k. apply (H e0 He); [exists n; auto|exact Hb].
Qed.
Definition valid_tiles (g : list tile) : Prop := forall s, In s g -> valid (c_box (snd s)).
Lemma full_settles ns e g : valid_tiles g -> g <> [] -> (forall e0, e = Some e0 -> has_corpus ns e0 -> no_hole (map snd g)) -> settles ns true e g g.
Proof.
  intros HV Hne H. destruct e as [e0|]; [|apply settles_plain; intros (_ & e0 & n & He & _); discriminate He].
  destruct (has_corpus_dec ns e0) as [Hc|Hc]; [|apply settles_plain; intros (_ & e1 & n & [= <-] & Hn); apply Hc; exists n; exact Hn].
  destruct (bounds_exist (map snd g)) as (bb & Hb).
  - apply Forall_forall. intros c Hc'. apply in_map_iff in Hc' as (s & <- & Hs). apply HV, Hs.
  - destruct g; [congruence|discriminate].
  - destruct Hc as (n & Hin & Hn). eapply settles_nested; eauto. apply none_covered. intros k Hk. apply (H e0 eq_refl) with (bb := bb); [exists n; auto|exact Hb|exact Hk].
Qed.

Section Tight.
  Variables (ns cns : option string) (em : bool) (blks : Z) (before : list xnode) (corpus : xnode).
  Hypothesis tight : forall e g, freaches ns cns em blks before corpus e g -> has_corpus ns e -> no_hole (map snd g).
  Notation its := (fitems ns cns blks before corpus).

  Lemma valid_seat r i w h ct na lk : 1 <= r -> 1 <= i -> 1 <= w -> 1 <= h -> valid (c_box (snd ((lk, bare ct na (seat Rows r i w h)) : tile))).
  Proof. intros. unfold valid. cbn. lia. Qed.
  Lemma valid_seated watch r qs n g n1 g1 : 1 <= r -> seated ns watch r qs n g n1 g1 -> valid_tiles g -> valid_tiles g1.
  Proof.
    intros Hr HS HV. refine (all_seated ns watch (fun s => valid (c_box (snd s))) _ r qs n g n1 g1 Hr _ HS HV).
    - intros na k H1 H2. unfold valid. cbn. lia.
    - intros q _ i r' Hi Hr' Hw Hh. apply valid_seat; assumption.
  Qed.
  Lemma flays_valid watch i l l' : flays ns cns em watch i l l' -> 0 <= f_row l -> valid_tiles (f_tiles l) -> 0 <= f_row l' /\ valid_tiles (f_tiles l').
  Proof.
    assert (HC : forall bb na g g', 1 <= cx (bmin bb) -> 1 <= cy (bmin bb) -> covered bb na g g' -> valid_tiles g -> valid_tiles g').
    { intros bb na g g' H1 H2. apply (all_covered (fun s => valid (c_box (snd s)))); [|exact H1|exact H2]. intros na' k H3 H4. unfold valid. cbn. lia. }
    induction 1 as [l|c i r k n g cs m l' Hm H IH|b e i r k n g cs qs n1 g1 g2 l' Ha Hp Hn1 Hf H IH|e i r k n g cs bb n1 g1 l' Hb Hp H IH]; cbn [f_row f_tiles] in *; intros Hr HV.
    - auto.
    - apply IH; assumption.
    - apply IH; [lia|]. refine (HC _ _ _ _ _ _ Hf _); [cbn; lia|cbn; lia|]. apply (valid_seated _ (r + 1) _ _ _ _ _ ltac:(lia) Hp HV).
    - apply IH; [lia|]. apply (valid_seated _ (r + 1) _ _ _ _ _ ltac:(lia) Hp HV).
  Qed.

  (** the row being laid out *)
  Section Line.
    Variables (its1 its2 : list fitem) (b : Z) (line : xnode) (l : flayout) (all : list request).
    Hypothesis Hits : its = its1 ++ FLine b line :: its2.
    Hypothesis HL : flays ns cns em false its1 no_layout l.
    Hypothesis HA : asks ns cns line all.
    Lemma line_start : 0 <= f_row l /\ valid_tiles (f_tiles l).
    Proof. apply (flays_valid false its1 no_layout l HL); [cbn; lia|intros s []]. Qed.
    Lemma at_request qs1 q qs2 n g : all = qs1 ++ q :: qs2 -> seated ns false (f_row l + 1) (qs1 ++ [q]) (f_cols l) (f_tiles l) n g ->
      forall e0, q_elem q = Some e0 -> has_corpus ns e0 -> no_hole (map snd g).
    Proof.
      intros E HS e0 He Hc. apply (tight e0 g); [|exact Hc]. exists its1, b, line, its2, l, qs1, q, qs2, n. rewrite <- E. auto.
    Qed.
    Lemma seated_tight qs2 : forall qs1 n g n2 g2, all = qs1 ++ qs2 -> seated ns false (f_row l + 1) qs1 (f_cols l) (f_tiles l) n g ->
      (seated ns true (f_row l + 1) qs2 n g n2 g2 <-> seated ns false (f_row l + 1) qs2 n g n2 g2).
    Proof.
      destruct line_start as [Hr HV].
      induction qs2 as [|q qs2 IH]; intros qs1 n g n2 g2 E H1; [split; intros H; inversion H; subst; constructor|].
      assert (K : forall i, 1 <= q_width q -> 1 <= q_height q -> first_free Rows (f_row l + 1) i (map snd g) ->
        (forall d, In d (map snd g) -> ~ clash (c_box d) (seat Rows (f_row l + 1) i (q_width q) (q_height q))) ->
        seated ns false (f_row l + 1) (qs1 ++ [q]) (f_cols l) (f_tiles l) (Z.max n (i + q_width q - 1))
          ((q_look q, bare (q_content q) (q_nature q) (seat Rows (f_row l + 1) i (q_width q) (q_height q))) :: g)).
      { intros i Hw Hh Hf Hc. eapply seated_app; [exact H1|]. eapply seated_cons; eauto; [apply false_settles|constructor]. }
      split; intros H; apply seated_inv in H as (i & g1 & Hw & Hh & Hf & Hc & Hset & Hp); specialize (K i Hw Hh Hf Hc).
      - assert (Eg : g1 = (q_look q, bare (q_content q) (q_nature q) (seat Rows (f_row l + 1) i (q_width q) (q_height q))) :: g).
        { eapply settles_full; [|exact Hset]. exact (at_request qs1 q qs2 _ _ E K). }
        subst g1. eapply seated_cons; eauto; [apply false_settles|]. apply (IH (qs1 ++ [q])); [rewrite <- app_assoc; exact E|exact K|exact Hp].
      - apply settles_false in Hset. subst g1. eapply seated_cons; eauto.
        + apply full_settles; [apply (valid_seated _ (f_row l + 1) _ _ _ _ _ ltac:(lia) K HV)|discriminate|]. exact (at_request qs1 q qs2 _ _ E K).
        + apply (IH (qs1 ++ [q])); [rewrite <- app_assoc; exact E|exact K|exact Hp].
    Qed.
  End Line.

  Lemma flays_tight its2 : forall its1 l l', its = its1 ++ its2 -> flays ns cns em false its1 no_layout l ->
    (flays ns cns em true its2 l l' <-> flays ns cns em false its2 l l').
  Proof.
    induction its2 as [|[c|b line|e] its2 IH]; intros its1 l l' E HL; destruct l as [r k n g cs].
    - split; intros H; inversion H; subst; constructor.
    - split; intros H; apply flays_column_inv in H as (m & Hm & H); (econstructor; [exact Hm|]);
        (apply (IH (its1 ++ [FColumn c])); [rewrite <- app_assoc; exact E| |exact H]; eapply flays_app; [exact HL|]; econstructor; [exact Hm|constructor]).
    - assert (S : forall w qs n1 g1 g2, asks ns cns line qs -> seated ns w (r + 1) qs n g n1 g1 -> 1 <= n1 ->
        covered (MkBox (Coord 1 (r + 1)) (Coord n1 (r + 1))) (Some (line_nature ns line)) g1 g2 ->
        seated ns true (r + 1) qs n g n1 g1 /\ seated ns false (r + 1) qs n g n1 g1 /\
        flays ns cns em false (its1 ++ [FLine b line]) no_layout (MkFLayout (r + 1) (Z.of_nat (List.length (of_name ns "CELL" (x_children line)))) n1 g2 cs)).
      { intros w qs n1 g1 g2 Ha Hp Hn1 Hf. destruct (seated_tight its1 its2 b line (MkFLayout r k n g cs) qs E HL Ha qs [] n g n1 g1 eq_refl ltac:(constructor)) as [T1 T2]. cbn [f_row] in T1, T2.
        assert (X : seated ns true (r + 1) qs n g n1 g1 /\ seated ns false (r + 1) qs n g n1 g1) by (destruct w; auto).
        destruct X as [X1 X2]. split; [exact X1|]. split; [exact X2|]. eapply flays_app; [exact HL|]. econstructor; [exact Ha|exact X2|exact Hn1|exact Hf|constructor]. }
      split; intros H; apply flays_line_inv in H as (qs & n1 & g1 & g2 & Ha & Hp & Hn1 & Hf & H); destruct (S _ qs n1 g1 g2 Ha Hp Hn1 Hf) as (S1 & S2 & S3);
        (econstructor; [exact Ha|first [exact S2|exact S1]|exact Hn1|exact Hf|]); (apply (IH (its1 ++ [FLine b line])); [rewrite <- app_assoc; exact E|exact S3|exact H]).
    - assert (S : forall w bb n1 g1, seated ns w (r + 1) [notes_request ns cns em e (cx (bmax bb) - cx (bmin bb) + 1)] n g n1 g1 ->
        forall w', seated ns w' (r + 1) [notes_request ns cns em e (cx (bmax bb) - cx (bmin bb) + 1)] n g n1 g1).
      { intros w bb n1 g1 H w'. eapply seated_watch; [|exact H]. intros q [<-|[]] e0 m Hq0. discriminate. }
      split; intros H; apply flays_notes_inv in H as (bb & n1 & g1 & Hb & Hp & H);
        (econstructor; [exact Hb|exact (S _ _ _ _ Hp _)|]); (apply (IH (its1 ++ [FNotes e])); [rewrite <- app_assoc; exact E| |exact H]);
        (eapply flays_app; [exact HL|]; econstructor; [exact Hb|exact (S _ _ _ _ Hp _)|constructor]).
  Qed.
  Lemma flaid_tight l g : flaid_out ns cns em true blks before corpus l g <-> flaid_out ns cns em false blks before corpus l g.
  Proof.
    unfold flaid_out. rewrite (flays_tight its [] no_layout l eq_refl ltac:(constructor)). reflexivity.
  Qed.
End Tight.

(** ** Nested tables in the first row *)
Lemma seated_flush ns qs : forall n g n2 g2 m,
  seated ns false 1 qs n g n2 g2 -> (forall q, In q qs -> q_height q = 1) -> 0 <= m -> flush m (map snd g) ->
  exists m', m + Z.of_nat (List.length qs) <= m' /\ flush m' (map snd g2).
Proof.
  induction qs as [|q qs IH]; intros n g n2 g2 m H Hm H0 HF.
  - inversion H; subst. exists m. cbn. split; [lia|exact HF].
  - apply seated_inv in H as (i & g1 & Hw & Hh & Hf & Hc & Hset & Hp). apply settles_false in Hset. subst g1.
    rewrite (Hm q (or_introl eq_refl)) in Hp. destruct HF as [H1 H2].
    assert (Ei : i = m + 1).
    { eapply first_free_fun; [exact Hf|]. split; [lia|]. split; [|intros i' Hi'; apply H2; lia].
      intros d Hd Hk. apply H1 in Hk; [|exact Hd]. cbn in Hk. lia. }
    subst i. apply (IH _ _ _ _ (m + q_width q)) in Hp as (m' & Hle & HF').
    + exists m'. cbn [List.length]. split; [lia|exact HF'].
    + intros x Hx. apply Hm. right. exact Hx.
    + lia.
    + split; cbn [map snd].
      * intros d [<-|Hd] k' Hk'; [unfold covers in Hk'; cbn in Hk'; lia|]. specialize (H1 d Hd k' Hk'). lia.
      * intros i Hi Hfr. destruct (Z_le_gt_dec i m) as [Hle|Hgt].
        -- apply (H2 i ltac:(lia)). intros d Hd. apply Hfr. right. exact Hd.
        -- eapply Hfr; [left; reflexivity|]. unfold covers. cbn. lia.
Qed.
Lemma flays_columns ns cns em watch its : forall l l', (forall i, In i its -> exists c, i = FColumn c) -> flays ns cns em watch its l l' -> f_row l' = f_row l /\ f_tiles l' = f_tiles l.
Proof.
  induction its as [|i its IH]; intros l l' Hr H; [inversion H; auto|]. destruct (Hr i (or_introl eq_refl)) as (c & ->). destruct l as [r k n g cs].
  apply flays_column_inv in H as (m & _ & H). apply IH in H; [exact H|]. intros j Hj. apply Hr. right. exact Hj.
Qed.
Lemma low_cell ns cns e w h : attribute ns e "ROWSPAN" = None -> attribute cns e "morerows" = None -> fcell_span ns cns e w h -> h = 1.
Proof.
  intros H1 H2 (w0 & h0 & _ & Hh & _ & Hm). rewrite H1 in Hh. rewrite H2 in Hm. cbn in Hh, Hm. congruence.
Qed.
Lemma low_requests ns cns line qs : (forall c, In c (of_name ns "CELL" (x_children line)) -> attribute ns c "ROWSPAN" = None /\ attribute cns c "morerows" = None) ->
  asks ns cns line qs -> forall q, In q qs -> q_height q = 1.
Proof.
  intros H [qs' Hrow HF|a b Ht _ _] q Hq.
  - clear Hrow. revert Hq. induction HF as [|c q' l ql Hc HF IH]; intros Hq; [destruct Hq|]. destruct Hq as [<-|Hq].
    + destruct Hc as [w h Hs]. destruct (H c (or_introl eq_refl)). cbn [q_height]. eapply low_cell; eauto.
    + apply IH; [|exact Hq]. intros d Hd. apply H. right. exact Hd.
  - apply in_app_iff in Hq as [Hq|[<-|[]]]; [apply repeat_spec in Hq; subst q|]; reflexivity.
Qed.
Lemma first_line_tight ns cns em blks before corpus its0 b line its :
  fitems ns cns blks before corpus = its0 ++ FLine b line :: its -> (forall i, In i its0 -> exists c, i = FColumn c) ->
  (forall c, In c (of_name ns "CELL" (x_children line)) -> attribute ns c "ROWSPAN" = None /\ attribute cns c "morerows" = None) ->
  (forall b' line', In (FLine b' line') its -> no_nested ns line') ->
  forall e g, freaches ns cns em blks before corpus e g -> has_corpus ns e -> no_hole (map snd g).
Proof.
  intros E H0 Hlow Hn e g (its1 & b1 & line1 & its2 & l & qs1 & q & qs2 & n & E1 & HL & HA & Hq & HS) (m & Hm & Hc). rewrite E in E1.
  assert (HX : ((forall i, In i its1 -> exists c, i = FColumn c) /\ line1 = line) \/ In (FLine b1 line1) its).
  { clear E HL HS Hlow Hn. revert its1 E1. induction its0 as [|it its0 IH]; intros its1 E1; destruct its1 as [|it1 its1]; cbn in E1.
    - injection E1 as _ -> _. left. split; [intros i []|reflexivity].
    - injection E1 as <- ->. right. apply in_app_iff. right. left. reflexivity.
    - injection E1 as -> _. destruct (H0 _ (or_introl eq_refl)) as (c & [=]).
    - injection E1 as <- E1. destruct (IH ltac:(intros i Hi; apply H0; right; exact Hi) its1 E1) as [[Ha Hb]|Ha]; [left|right; exact Ha]. split; [|exact Hb].
      intros i [<-|Hi]; [apply H0; left; reflexivity|apply Ha, Hi]. }
  destruct HX as [[Hcol ->]|HX].
  - destruct (flays_columns _ _ _ _ _ _ _ Hcol HL) as [Er Eg]. cbn in Er, Eg. rewrite Er, Eg in HS. cbn in HS.
    apply (seated_flush _ _ _ _ _ _ 0) in HS as (m' & Hle & HF).
    + rewrite app_length in Hle. cbn in Hle. apply (flush_no_hole m'); [lia|exact HF].
    + intros x Hx. apply (low_requests ns cns line _ Hlow HA). apply in_app_iff in Hx as [Hx|[<-|[]]]; apply in_app_iff; [left; exact Hx|right; left; reflexivity].
    + lia.
    + split; [intros d []|intros i Hi; lia].
  - exfalso. specialize (Hn b1 line1 HX). assert (Hin : In q (qs1 ++ q :: qs2)) by (apply in_app_iff; right; left; reflexivity).
    pose proof HA as [qs0 Hrow _|x y Ht _ _].
    + destruct (row_requests _ _ _ _ _ Hrow HA Hin) as (c & Hc1 & _ & Ec). rewrite Hq in Ec. injection Ec as ->. exact (Hn c (or_introl Hc1) m Hm Hc).
    + pose proof (title_elem _ _ _ _ _ _ Ht HA Hin Hq) as ->. exact (Hn _ (or_intror (conj eq_refl Ht)) m Hm Hc).
Qed.
