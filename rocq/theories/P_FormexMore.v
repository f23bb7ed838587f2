(** * More about the layout of Formex tables: flat tiles, nested tables, notes *)
From Verif Require Import Base M_Geometry M_Xml M_Cell M_Grid M_Table M_Regex M_Str M_Units M_Cals M_CalsParser M_FormexParser M_FormexRead.
From Verif Require Import S_Geometry S_Grid S_Table S_Units S_Cals S_Int S_CalsParser S_FormexRead.
From Verif Require Import P_Geometry P_Cell P_Grid P_GridFacts P_Table P_TableStep P_TableFacts P_TableMore P_Units P_Str P_Cals P_Int P_CalsParser P_CalsLayout P_CalsEvents P_CalsSim P_CalsMore P_Reading P_FormexEvents P_FormexSim.
Open Scope list_scope.
Open Scope Z_scope.

(** ** A property of all the tiles *)
Section Tiles.
  Variables (ns cns : option string) (em watch : bool).
  Variable P : tile -> Prop.
  Hypothesis Punit : forall na k, 1 <= cx k -> 1 <= cy k -> P (no_look, bare CNone na (MkBox k k)).
  Definition fit (q : request) : Prop := forall i r, 1 <= i -> 1 <= r -> 1 <= q_width q -> 1 <= q_height q ->
    P (q_look q, bare (q_content q) (q_nature q) (seat Rows r i (q_width q) (q_height q))).
  Definition all_tiles (g : list tile) : Prop := forall s, In s g -> P s.

  Lemma all_covered bb na g g' : 1 <= cx (bmin bb) -> 1 <= cy (bmin bb) -> covered bb na g g' -> all_tiles g -> all_tiles g'.
  Proof.
    intros H1 H2 (ks & Hsel & ->) H s Hs. apply in_app_iff in Hs as [Hs|Hs]; [|apply H, Hs].
    apply in_map_iff in Hs as (k & <- & Hk).
    assert (Hin : In k (area bb)).
    { clear -Hsel Hk. induction Hsel as [|a g0' l0' Pa Hsel IH|a g0' l0' Pa Hsel IH]; [destruct Hk| |right; auto]. destruct Hk as [<-|Hk]; [left; reflexivity|right; auto]. }
    apply area_in in Hin. unfold covers in Hin. apply Punit; lia.
  Qed.
  Lemma bounds_positive g bb : bounds g bb -> (1 <= cx (bmin bb)) /\ 1 <= cy (bmin bb).
  Proof. intros (V & _). unfold valid in V. lia. Qed.
  Lemma all_settles e g g' : settles ns watch e g g' -> all_tiles g -> all_tiles g'.
  Proof.
    intros [e0 n bb g1 _ _ _ _ Hb Hc|_] H; [|exact H]. destruct (bounds_positive _ _ Hb). eapply all_covered; eauto.
  Qed.
  Lemma all_seated r qs n g n' g' : 1 <= r -> (forall q, In q qs -> fit q) -> seated ns watch r qs n g n' g' -> all_tiles g -> all_tiles g'.
  Proof.
    intros Hr Hq HS. induction HS as [n g|q qs n g i g1 n2 g2 Hw Hh Hf _ Hset HS IH]; intros H; [exact H|].
    apply IH; [intros q' Hq'; apply Hq; right; exact Hq'|]. eapply all_settles; [exact Hset|]. intros s [<-|Hs]; [|apply H, Hs].
    apply Hq; [left; reflexivity| |exact Hr|exact Hw|exact Hh]. apply Hf.
  Qed.
  Definition item_fit (i : fitem) : Prop :=
    match i with
    | FColumn _ => True
    | FLine _ e => forall qs, asks ns cns e qs -> forall q, In q qs -> fit q
    | FNotes e => forall w, fit (notes_request ns cns em e w)
    end.
  Lemma all_flays its l l' : flays ns cns em watch its l l' -> (forall i, In i its -> item_fit i) -> 0 <= f_row l -> all_tiles (f_tiles l) -> all_tiles (f_tiles l').
  Proof.
    intros HL. induction HL as [l|c its r k n g cs m l' Hm H IH|b e its r k n g cs qs n1 g1 g2 l' Ha Hp Hn Hf H IH|e its r k n g cs bb n1 g1 l' Hb Hp H IH];
      intros Hi Hr Hg; [exact Hg| | |]; cbn [f_row f_tiles] in *; (apply IH; [intros i Hin; apply Hi; right; exact Hin|lia|]).
    - exact Hg.
    - eapply all_covered; [| |exact Hf|]; [cbn; lia|cbn; lia|].
      eapply all_seated; [|exact (Hi _ (or_introl eq_refl) qs Ha)|exact Hp|exact Hg]. lia.
    - eapply all_seated; [| |exact Hp|exact Hg]; [lia|]. intros q [<-|[]]. apply (Hi _ (or_introl eq_refl)).
  Qed.
  Lemma all_laid_out b bef e l g : flaid_out ns cns em watch b bef e l g -> (forall i, In i (fitems ns cns b bef e) -> item_fit i) -> all_tiles g.
  Proof.
    intros (HL & bb & Hb & Hc) Hi. destruct (bounds_positive _ _ Hb). eapply all_covered; [| |exact Hc|]; auto.
    eapply all_flays; [exact HL|exact Hi|cbn; lia|]. intros s [].
  Qed.
End Tiles.

(** ** Flat tables *)
Lemma title_requests ns cns e qs q : is_title ns e -> asks ns cns e qs -> In q qs -> q_height q = 1.
Proof.
  intros Ht [qs' Hr _|a b _ _ _] Hq.
  - exfalso. destruct Ht as [Ht|Ht]; pose proof (named_one _ _ _ _ Ht Hr); discriminate.
  - apply in_app_iff in Hq as [Hq|[<-|[]]]; [|reflexivity]. apply repeat_spec in Hq. subst q. reflexivity.
Qed.
Lemma title_elem ns cns e qs q e0 : is_title ns e -> asks ns cns e qs -> In q qs -> q_elem q = Some e0 -> e0 = e.
Proof.
  intros Ht [qs' Hr _|a b _ _ _] Hq.
  - exfalso. destruct Ht as [Ht|Ht]; pose proof (named_one _ _ _ _ Ht Hr); discriminate.
  - apply in_app_iff in Hq as [Hq|[<-|[]]]; [|cbn; congruence]. apply repeat_spec in Hq. subst q. discriminate.
Qed.
Lemma row_requests ns cns e qs q : named ns "ROW" e -> asks ns cns e qs -> In q qs ->
  exists c, In c (of_name ns "CELL" (x_children e)) /\ fcell_span ns cns c (q_width q) (q_height q) /\ q_elem q = Some c.
Proof.
  intros Hr [qs' _ HF|a b Ht _ _] Hq.
  - revert Hq. induction HF as [|c q' l ql [w h Hs] HF IH]; intros Hq; [destruct Hq|]. destruct Hq as [<-|Hq].
    + exists c. split; [left; reflexivity|]. split; [exact Hs|reflexivity].
    + destruct (IH Hq) as (c' & H1 & H2). exists c'. split; [right; exact H1|exact H2].
  - exfalso. destruct Ht as [Ht|Ht]; pose proof (named_one _ _ _ _ Ht Hr); discriminate.
Qed.
Lemma flat_tiles ns cns em watch b bef e l g :
  flaid_out ns cns em watch b bef e l g ->
  (forall b' row c, In (FLine b' row) (fitems ns cns b bef e) -> In c (of_name ns "CELL" (x_children row)) ->
     attribute ns c "ROWSPAN" = None /\ attribute cns c "morerows" = None) ->
  forall s, In s g -> cy (bmin (c_box (snd s))) = cy (bmax (c_box (snd s))).
Proof.
  intros HL Hflat. refine (all_laid_out ns cns em watch (fun s => cy (bmin (c_box (snd s))) = cy (bmax (c_box (snd s)))) (fun na k _ _ => eq_refl) b bef e l g HL _).
  intros [c|b' row|n] Hin; cbn [item_fit]; [exact I| |].
  - intros qs Ha q Hq i r Hi Hr Hw Hh. assert (Eh : q_height q = 1); [|cbn; lia].
    pose proof Ha as [qs0 Hrow _|x y Ht _ _]; [|eapply title_requests; eauto].
    destruct (row_requests _ _ _ _ _ Hrow Ha Hq) as (c & Hc & (w0 & h0 & _ & Hh0 & _ & Hm) & _).
    destruct (Hflat b' row c Hin Hc) as [E1 E2]. rewrite E1 in Hh0. rewrite E2 in Hm. cbn in Hh0, Hm. lia.
  - intros w i r _ _ _ _. cbn. lia.
Qed.

(** ** Styles which are texts *)
Definition texts (lk : look) : Prop := forall k v, lk k = Some v -> exists x, v = SStr x.
Lemma text_look_texts v x : text_look v = Some x -> exists y, x = SStr y.
Proof. destruct v; [intros [= <-]; eauto|discriminate]. Qed.
Lemma text_tiles ns cns em watch b bef e l g :
  flaid_out ns cns em watch b bef e l g ->
  (forall b' row c, In (FLine b' row) (fitems ns cns b bef e) -> In c (of_name ns "CELL" (x_children row)) ->
     attribute ns c "TYPE" <> None \/ type_or_normal (attribute ns row "TYPE") = "NORMAL"%string) ->
  forall s, In s g -> texts (fst s).
Proof.
  intros HL Hty. refine (all_laid_out ns cns em watch (fun s => texts (fst s)) (fun na k _ _ => _) b bef e l g HL _).
  { intros x v Hv. discriminate. }
  intros [c|b' row|n] Hin; cbn [item_fit]; [exact I| |].
  - intros qs Ha q Hq i r _ _ _ _. cbn [fst].
    destruct Ha as [qs Hrow HF|x y Ht _ _].
    + specialize (Hty b' row). revert Hq Hty. induction HF as [|c q' lc lq Hc HF IH]; intros Hq Hty; [destruct Hq|].
      destruct Hq as [<-|Hq]; [|apply IH; [exact Hq|]; intros c' Hi Hc'; apply Hty; [exact Hi|right; exact Hc']].
      destruct Hc as [w h _]. cbn [q_look]. intros k v Hv. unfold fcell_style in Hv. cbv zeta in Hv.
      destruct (String.eqb k "cellstyle"); [|eapply text_look_texts; exact Hv].
      destruct (String.eqb_spec (type_or_normal (attribute ns c "TYPE")) (type_or_normal (attribute ns row "TYPE"))) as [_|Hd]; [discriminate|].
      injection Hv as <-. destruct (Hty c Hin (or_introl eq_refl)) as [H|H]; [destruct (attribute ns c "TYPE"); [eauto|congruence]|].
      rewrite H in Hd. destruct (attribute ns c "TYPE"); [eauto|]. exfalso. apply Hd. reflexivity.
    + apply in_app_iff in Hq as [Hq|[<-|[]]]; [apply repeat_spec in Hq; subst q|]; intros k v Hv; discriminate.
  - intros w i r _ _ _ _ k v Hv. cbn in Hv. eapply text_look_texts; exact Hv.
Qed.

(** ** Nested tables *)
Lemma settles_same ns watch e g g' : (forall e0 n, e = Some e0 -> In n (x_children e0) -> ~ holds_corpus ns n) -> settles ns watch e g g' -> g' = g.
Proof. intros H [e0 n bb g1 _ He Hin Hn _ _|_]; [exfalso; eapply H; eauto|reflexivity]. Qed.
Lemma settles_other ns watch' e g : (forall e0 n, e = Some e0 -> In n (x_children e0) -> ~ holds_corpus ns n) -> settles ns watch' e g g.
Proof. intros H. apply settles_plain. intros (_ & e0 & n & He & Hin & Hn). eapply H; eauto. Qed.
Lemma seated_watch ns watch watch' r qs n g n' g' :
  (forall q, In q qs -> forall e0 m, q_elem q = Some e0 -> In m (x_children e0) -> ~ holds_corpus ns m) ->
  seated ns watch r qs n g n' g' -> seated ns watch' r qs n g n' g'.
Proof.
  intros Hq HS. induction HS as [n g|q qs n g i g1 n2 g2 Hw Hh Hf Hc Hset HS IH]; [constructor|].
  assert (g1 = (q_look q, bare (q_content q) (q_nature q) (seat Rows r i (q_width q) (q_height q))) :: g)
    by (eapply settles_same; [|exact Hset]; apply Hq; left; reflexivity). subst g1.
  eapply seated_cons; eauto.
  - apply settles_other. apply Hq. left. reflexivity.
  - apply IH. intros q' Hq'. apply Hq. right. exact Hq'.
Qed.
Lemma flays_watch ns cns em watch watch' its l l' :
  (forall b e, In (FLine b e) its -> no_nested ns e) ->
  flays ns cns em watch its l l' -> flays ns cns em watch' its l l'.
Proof.
  intros Hn HL. induction HL as [l|c its r k n g cs m l' Hm H IH|b e its r k n g cs qs n1 g1 g2 l' Ha Hp Hn1 Hf H IH|e its r k n g cs bb n1 g1 l' Hb Hp H IH].
  - constructor.
  - econstructor; [exact Hm|]. apply IH. intros b e Hin. apply (Hn b e). right. exact Hin.
  - econstructor; [exact Ha| |exact Hn1|exact Hf|].
    + eapply seated_watch; [|exact Hp]. intros q Hq e0 m Hq0 Hm. specialize (Hn b e (or_introl eq_refl)).
      pose proof Ha as [qs0 Hrow _|x y Ht _ _].
      * destruct (row_requests _ _ _ _ _ Hrow Ha Hq) as (c & Hc & _ & Ec). rewrite Hq0 in Ec. injection Ec as ->. eapply Hn; eauto.
      * rewrite (title_elem _ _ _ _ _ _ Ht Ha Hq Hq0) in Hm. eapply Hn; eauto.
    + apply IH. intros b' e' Hin. apply (Hn b' e'). right. exact Hin.
  - econstructor; [exact Hb| |].
    + eapply seated_watch; [|exact Hp]. intros q [<-|[]] e0 m Hq0. discriminate.
    + apply IH. intros b' e' Hin. apply (Hn b' e'). right. exact Hin.
Qed.

(** ** Notes *)
Lemma bounds_below (g : list tile) bb (s : tile) : bounds (map snd g) bb -> cx (bmin bb) = 1 ->
  c_box (snd s) = MkBox (Coord 1 (cy (bmax bb) + 1)) (Coord (cx (bmax bb)) (cy (bmax bb) + 1)) ->
  bounds (map snd (s :: g)) (MkBox (bmin bb) (Coord (cx (bmax bb)) (cy (bmax bb) + 1))).
Proof.
  intros (V & H1 & H2) H3 Es. unfold valid in V. split; [unfold valid; cbn; lia|]. split.
  - intros c [<-|Hc]; [rewrite Es; intros k Hk; unfold covers in *; cbn in *; lia|].
    intros k Hk. specialize (H1 c Hc k Hk). unfold covers in *. cbn in *. lia.
  - intros b Vb Hb. assert (Hs : subarea bb b) by (apply H2; [exact Vb|]; intros c Hc; apply Hb; right; exact Hc).
    pose proof (Hb (snd s) (or_introl eq_refl)) as Hs2. rewrite Es in Hs2.
    pose proof (Hs2 (Coord (cx (bmax bb)) (cy (bmax bb) + 1)) ltac:(unfold covers; cbn; lia)) as K1.
    pose proof (Hs (bmin bb) ltac:(unfold covers; lia)) as K2.
    intros k Hk. unfold covers in *. cbn in *. lia.
Qed.
Lemma notes_laid ns cns em watch l : forall r k n g cs l' bb,
  flays ns cns em watch (map FNotes l) (MkFLayout r k n g cs) l' ->
  bounds (map snd g) bb -> cx (bmin bb) = 1 -> cy (bmax bb) = r ->
  f_tiles l' = rev (note_tiles ns cns em (cx (bmax bb)) (r + 1) l) ++ g /\
  bounds (map snd (f_tiles l')) (MkBox (bmin bb) (Coord (cx (bmax bb)) (r + Z.of_nat (List.length l)))).
Proof.
  induction l as [|e l IH]; intros r k n g cs l' bb HL Hb H1 Hr.
  - inversion HL; subst. cbn [f_tiles note_tiles rev app List.length]. split; [reflexivity|].
    replace (MkBox (bmin bb) (Coord (cx (bmax bb)) (cy (bmax bb) + Z.of_nat 0))) with bb; [exact Hb|].
    destruct bb as [b1 [x y]]. cbn. do 2 f_equal. lia.
  - cbn [map] in HL. apply flays_notes_inv in HL as (bb' & n1 & g1 & Hb' & Hp & HL).
    rewrite (bounds_fun _ _ _ Hb' Hb) in Hp. apply seated_inv in Hp as (i & g2 & _ & _ & Hf & _ & Hset & Hp). cbn [notes_request q_elem q_look q_content q_nature q_width q_height] in *.
    inversion Hp; subst n1 g1. apply settles_same in Hset; [|discriminate].
    assert (Hi : i = 1).
    { eapply first_free_fun; [exact Hf|]. split; [lia|]. split; [|lia]. intros d Hd Hcov. destruct Hb as (_ & Hb & _). specialize (Hb d Hd _ Hcov).
      unfold covers, place in Hb. cbn in Hb. lia. }
    subst i g2.
    assert (Ebox : seat Rows (r + 1) 1 (cx (bmax bb) - cx (bmin bb) + 1) 1 = MkBox (Coord 1 (r + 1)) (Coord (cx (bmax bb)) (r + 1))).
    { unfold seat. rewrite H1. do 2 f_equal; lia. }
    rewrite Ebox in HL.
    set (s := (fun k0 => text_look (given cns e k0), bare (if em then CList [CNode e] else fcontent_of ns e) (Some "footer"%string) (MkBox (Coord 1 (r + 1)) (Coord (cx (bmax bb)) (r + 1))))) in *.
    assert (Hb2 : bounds (map snd (s :: g)) (MkBox (bmin bb) (Coord (cx (bmax bb)) (r + 1)))).
    { subst r. apply bounds_below; [exact Hb|exact H1|reflexivity]. }
    destruct (IH _ _ _ _ _ _ _ HL Hb2 H1 eq_refl) as [E B]. cbn [bmin bmax cx cy] in E, B. split.
    + rewrite E. cbn [note_tiles rev]. fold s. rewrite <- app_assoc. reflexivity.
    + cbn [List.length]. replace (r + Z.of_nat (S (List.length l))) with (r + 1 + Z.of_nat (List.length l)) by lia. exact B.
Qed.

Lemma selects_same {A} (P Q : A -> Prop) l m : (forall a, In a l -> (P a <-> Q a)) -> selects P l m -> selects Q l m.
Proof.
  intros H HS. induction HS as [|a g l Pa HS IH|a g l Pa HS IH]; [constructor|apply sel_in|apply sel_out].
  - apply H; [left; reflexivity|exact Pa].
  - apply IH. intros x Hx. apply H. right. exact Hx.
  - intros HQ. apply Pa, H; [left; reflexivity|exact HQ].
  - apply IH. intros x Hx. apply H. right. exact Hx.
Qed.
Lemma selects_none {A} (P : A -> Prop) l : (forall a, In a l -> ~ P a) -> selects P l [].
Proof. induction l as [|a l IH]; intros H; [constructor|]. apply sel_out; [apply H; left; reflexivity|]. apply IH. intros x Hx. apply H. right. exact Hx. Qed.
Lemma zrange_app a b c : a <= b -> b <= c -> zrange a c = zrange a b ++ zrange b c.
Proof.
  intros H1 H2. unfold zrange. replace (Z.to_nat (c - a)) with (Z.to_nat (b - a) + Z.to_nat (c - b))%nat by lia.
  generalize (Z.to_nat (c - b)). intros m. rewrite seq_app, map_app. f_equal. cbn [plus].
  replace (Z.to_nat (b - a)) with (Z.to_nat (b - a) + 0)%nat at 1 by lia. generalize 0%nat.
  induction m as [|m IH]; intros j; [reflexivity|]. cbn [seq map]. f_equal; [lia|]. rewrite <- IH. f_equal. f_equal. lia.
Qed.
Lemma area_app bb h : valid bb -> 0 <= h ->
  area (MkBox (bmin bb) (Coord (cx (bmax bb)) (cy (bmax bb) + h))) =
  area bb ++ flat_map (fun y => map (fun x => Coord x y) (zrange (cx (bmin bb)) (cx (bmax bb) + 1))) (zrange (cy (bmax bb) + 1) (cy (bmax bb) + h + 1)).
Proof.
  intros V Hh. unfold area. cbn [bmin bmax cx cy]. unfold valid in V. rewrite (zrange_app (cy (bmin bb)) (cy (bmax bb) + 1)) by lia. apply flat_map_app.
Qed.
Lemma note_tiles_row ns cns em w l : forall r y, r <= y < r + Z.of_nat (List.length l) ->
  exists s, In s (note_tiles ns cns em w r l) /\ c_box (snd s) = MkBox (Coord 1 y) (Coord w y).
Proof.
  induction l as [|e l IH]; intros r y Hy; cbn [List.length] in Hy; [lia|]. cbn [note_tiles].
  destruct (Z.eq_dec y r) as [->|Hne]; [eexists; split; [left; reflexivity|reflexivity]|].
  destruct (IH (r + 1) y ltac:(lia)) as (s & Hs & E). exists s. split; [right; exact Hs|exact E].
Qed.
Lemma note_tiles_in ns cns em w l : forall r s, In s (note_tiles ns cns em w r l) -> exists y, r <= y /\ c_box (snd s) = MkBox (Coord 1 y) (Coord w y).
Proof.
  induction l as [|e l IH]; intros r s Hs; [destruct Hs|]. destruct Hs as [<-|Hs]; [exists r; split; [lia|reflexivity]|].
  destruct (IH _ _ Hs) as (y & Hy & E). exists y. split; [lia|exact E].
Qed.

(** When no cell hangs below the last row, the notes are below the table. *)
Lemma notes_covered ns cns em l g bb g0 g2 :
  bounds (map snd g) bb -> cx (bmin bb) = 1 ->
  covered bb None g g0 ->
  covered (MkBox (bmin bb) (Coord (cx (bmax bb)) (cy (bmax bb) + Z.of_nat (List.length l)))) None
    (rev (note_tiles ns cns em (cx (bmax bb)) (cy (bmax bb) + 1) l) ++ g) g2 ->
  Permutation g2 (note_tiles ns cns em (cx (bmax bb)) (cy (bmax bb) + 1) l ++ g0).
Proof.
  intros Hb H1 (ks & Hk & ->) (ks2 & Hk2 & ->).
  set (nt := note_tiles ns cns em (cx (bmax bb)) (cy (bmax bb) + 1) l) in *.
  assert (HF : forall k, free (map snd (rev nt ++ g)) k <-> (forall s, In s nt -> ~ covers (c_box (snd s)) k) /\ free (map snd g) k).
  { intros k. unfold free. split.
    - intros H. split.
      + intros s Hs. apply H. rewrite map_app. apply in_app_iff. left. apply in_map. apply in_rev in Hs. exact Hs.
      + intros d Hd. apply H. rewrite map_app. apply in_app_iff. right. exact Hd.
    - intros [Hn Hg] d Hd. rewrite map_app in Hd. apply in_app_iff in Hd as [Hd|Hd]; [|apply Hg, Hd].
      apply in_map_iff in Hd as (s & <- & Hs). apply Hn. apply in_rev. exact Hs. }
  assert (ks2 = ks).
  { refine (selects_fun (free (map snd (rev nt ++ g))) _ _ _ Hk2 _). rewrite area_app by (try apply Hb; lia).
    rewrite <- (app_nil_r ks). apply selects_app.
    - eapply selects_same; [|exact Hk]. intros k Hin. apply area_in in Hin. rewrite HF. split; [|tauto]. intros Hfr. split; [|exact Hfr].
      intros s Hs Hcov. apply note_tiles_in in Hs as (y & Hy & E). rewrite E in Hcov. unfold covers in *. cbn in Hcov. lia.
    - apply selects_none. intros k Hin Hfr. apply HF in Hfr as [Hfr _]. apply in_flat_map in Hin as (y & Hy & Hx).
      apply in_map_iff in Hx as (x & <- & Hx). apply in_zrange in Hy. apply in_zrange in Hx.
      destruct (note_tiles_row ns cns em (cx (bmax bb)) l (cy (bmax bb) + 1) y ltac:(lia)) as (s & Hs & E).
      apply (Hfr s Hs). rewrite E. unfold covers. cbn. lia. }
  subst ks2. transitivity (map (fun k => (no_look, bare CNone None (MkBox k k))) ks ++ nt ++ g).
  - apply Permutation_app_head, Permutation_app_tail, Permutation_sym, Permutation_rev.
  - rewrite !app_assoc. apply Permutation_app_tail, Permutation_app_comm.
Qed.

(** The rows are filled from the first column. *)
Definition starts (l : flayout) : Prop := 1 <= f_row l -> exists s, In s (f_tiles l) /\ covers (c_box (snd s)) (Coord 1 (f_row l)).
Definition grows (g g' : list tile) : Prop := forall s, In s g -> In s g'.
Lemma covered_grows bb na g g' : covered bb na g g' -> grows g g'.
Proof. intros (ks & _ & ->) s Hs. apply in_app_iff. right. exact Hs. Qed.
Lemma covered_all bb na g g' k : covered bb na g g' -> covers bb k -> exists s, In s g' /\ covers (c_box (snd s)) k.
Proof.
  intros (ks & Hsel & ->) Hk. apply area_in in Hk.
  assert (HX : In k ks \/ ~ free (map snd g) k).
  { clear -Hsel Hk. induction Hsel as [|a g0 l Pa Hsel IH|a g0 l Pa Hsel IH]; [destruct Hk| |].
    - destruct Hk as [<-|Hk]; [left; left; reflexivity|]. destruct (IH Hk); [left; right; assumption|right; assumption].
    - destruct Hk as [<-|Hk]; [right; exact Pa|auto]. }
  destruct HX as [HX|HX].
  - exists (no_look, bare CNone na (MkBox k k)). split; [apply in_app_iff; left; apply in_map_iff; eauto|]. unfold covers. cbn. lia.
  - destruct (Exists_dec (fun s => covers (c_box (snd s)) k) g) as [Hy|Hn].
    + intros s. unfold covers. destruct (Z_le_dec (cx (bmin (c_box (snd s)))) (cx k)), (Z_le_dec (cx k) (cx (bmax (c_box (snd s))))),
        (Z_le_dec (cy (bmin (c_box (snd s)))) (cy k)), (Z_le_dec (cy k) (cy (bmax (c_box (snd s))))); (left; lia) || (right; lia).
    + apply Exists_exists in Hy as (s & Hs & Hc). exists s. split; [apply in_app_iff; right; exact Hs|exact Hc].
    + destruct HX. intros d Hd Hcov. apply Hn, Exists_exists. apply in_map_iff in Hd as (s & <- & Hs). eauto.
Qed.
Definition line_item (i : fitem) : Prop := match i with FNotes _ => False | _ => True end.
Lemma lines_start ns cns em watch its l l' : flays ns cns em watch its l l' -> (forall i, In i its -> line_item i) -> starts l -> starts l'.
Proof.
  intros HL. induction HL as [l|c its r k n g cs m l' Hm H IH|b e its r k n g cs qs n1 g1 g2 l' Ha Hp Hn Hf H IH|e its r k n g cs bb n1 g1 l' Hb Hp H IH];
    intros Hi Hs; [exact Hs| | |].
  - apply IH; [intros i Hin; apply Hi; right; exact Hin|exact Hs].
  - apply IH; [intros i Hin; apply Hi; right; exact Hin|]. intros _. cbn [f_row f_tiles]. apply (covered_all _ _ _ _ _ Hf). unfold covers. cbn. lia.
  - destruct (Hi _ (or_introl eq_refl)).
Qed.
Lemma fparts_lines ns cns b n : forall i, In i (fparts ns cns b n) -> line_item i.
Proof.
  revert b. induction n as [tag at0 text children tail IH|? ? ?|? ?] using xnode_ind'; intros b i Hi.
  - rewrite Forall_forall in IH. rewrite (fparts_eq (MkPFmxOpts ns cns false)) in Hi. cbn [pf_ns pf_cals_ns x_children] in Hi.
    destruct (has_name cns "colspec" _); [destruct Hi as [<-|[]]; exact I|].
    destruct (_ || _)%bool; [destruct Hi as [<-|[]]; exact I|].
    destruct (has_name ns "BLK" _); [|destruct Hi]. apply in_flat_map in Hi as (c & Hc & Hi). eapply IH; eauto.
  - rewrite (fparts_eq (MkPFmxOpts ns cns false)) in Hi. cbn in Hi. destruct Hi.
  - rewrite (fparts_eq (MkPFmxOpts ns cns false)) in Hi. cbn in Hi. destruct Hi.
Qed.
Lemma flays_row ns cns em watch its l l' : flays ns cns em watch its l l' ->
  f_row l' = f_row l + Z.of_nat (List.length (frow_items ns cns its)).
Proof.
  intros HL. induction HL as [l|c its r k n g cs m l' Hm H IH|b e its r k n g cs qs n1 g1 g2 l' Ha Hp Hn Hf H IH|e its r k n g cs bb n1 g1 l' Hb Hp H IH];
    cbn [frow_items flat_map app List.length f_row] in *; try (rewrite IH); unfold frow_items; cbn [List.length]; lia.
Qed.
Lemma fit_valid_tiles ns cns em watch its l l' : flays ns cns em watch its l l' -> 0 <= f_row l ->
  (forall s, In s (f_tiles l) -> valid (c_box (snd s))) -> forall s, In s (f_tiles l') -> valid (c_box (snd s)).
Proof.
  intros HL Hr Hg. refine (all_flays ns cns em watch (fun s => valid (c_box (snd s))) _ its l l' HL _ Hr Hg).
  - intros na k H1 H2. unfold valid. cbn. lia.
  - assert (HF : forall q, fit (fun s => valid (c_box (snd s))) q) by (intros q i r H1 H2 H3 H4; unfold valid, seat; cbn; lia).
    intros [c|b e|e] _; cbn [item_fit]; auto.
Qed.

Theorem notes_below ns cns em watch b bef e l g l0 g0 :
  flaid_out ns cns em watch b bef e l g -> flaid_out ns cns em watch b [] e l0 g0 ->
  let r := Z.of_nat (List.length (frow_items ns cns (fitems ns cns b [] e))) in
  forall bb, bounds (map snd g0) bb -> 1 <= r -> cy (bmax bb) = r ->
  cx (bmin bb) = 1 /\
  Permutation g (note_tiles ns cns em (cx (bmax bb)) (r + 1) (of_name ns "GR.NOTES" bef) ++ g0).
Proof.
  intros (HL & bb2 & Hb2 & Hc2) (HL0 & bb0 & Hb0 & Hc0). cbv zeta. intros bb Hb Hr Hlast.
  unfold fitems in HL0. cbn [of_name filter map] in HL0. rewrite app_nil_r in HL0.
  unfold fitems in HL. apply flays_split in HL as (l1 & HL1 & HN). pose proof (flays_fun _ _ _ _ _ _ _ _ HL0 HL1) as ->. clear HL1.
  set (its := flat_map (fparts ns cns b) (x_children e)) in *.
  assert (Eits : fitems ns cns b [] e = its) by (unfold fitems; cbn [of_name filter map]; apply app_nil_r). rewrite Eits in *.
  assert (Hlines : forall i, In i its -> line_item i).
  { intros i Hi. apply in_flat_map in Hi as (c & _ & Hi). eapply fparts_lines; eauto. }
  pose proof (flays_row _ _ _ _ _ _ _ HL0) as Hrow. cbn [no_layout f_row] in Hrow.
  pose proof (lines_start _ _ _ _ _ _ _ HL0 Hlines ltac:(intros H; cbn in H; lia)) as Hstart.
  destruct (Hstart ltac:(lia)) as (s1 & Hs1 & Hcov1).
  (* the bounds of the table with its holes filled are those of the table *)
  assert (Ebb : bb = bb0).
  { eapply bounds_fun; [exact Hb|]. destruct Hc0 as (ks & Hk & ->). destruct Hb0 as (V & B1 & B2). split; [exact V|]. split.
    - intros c Hc. rewrite map_app, map_map in Hc. apply in_app_iff in Hc as [Hc|Hc]; [|apply B1, Hc].
      apply in_map_iff in Hc as (k & <- & Hin). cbn [snd bare c_box]. assert (Hin' : In k (area bb0)).
      { clear -Hk Hin. induction Hk as [|a g0' l0' Pa Hsel IH|a g0' l0' Pa Hsel IH]; [destruct Hin| |right; auto]. destruct Hin as [<-|Hin]; [left; reflexivity|right; auto]. }
      apply area_in in Hin'. intros x Hx. unfold covers in *. cbn in Hx. lia.
    - intros b' Vb H. apply B2; [exact Vb|]. intros c Hc. apply H. rewrite map_app. apply in_app_iff. right. exact Hc. }
  subst bb0. clear Hb.
  assert (H1 : cx (bmin bb) = 1).
  { pose proof (proj1 Hb0) as V. unfold valid in V. destruct Hb0 as (_ & B1 & _).
    specialize (B1 (snd s1) (in_map snd _ _ Hs1) _ Hcov1). unfold covers in B1. cbn in B1. lia. }
  split; [exact H1|].
  destruct l1 as [r1 k1 n1 g1 cs1]. cbn [f_row f_tiles] in *.
  destruct (notes_laid ns cns em watch _ _ _ _ _ _ _ _ HN Hb0 H1 ltac:(lia)) as [E B].
  pose proof (bounds_fun _ _ _ B Hb2) as <-. rewrite E in Hc2.
  assert (Er : r1 = cy (bmax bb)) by lia. rewrite Er in *.
  replace (Z.of_nat (List.length (frow_items ns cns its)) + 1) with (cy (bmax bb) + 1) by lia.
  eapply notes_covered; eauto.
Qed.
